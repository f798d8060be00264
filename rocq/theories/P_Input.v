(** Property C148: a run stopped by its input (main.py, mtoolkit/workflow.py, mtoolkit/jobs.py:60-137). *)
From Coq Require Import ZArith Bool Ascii String List.
From Verif Require Import Base Ops Libm CatUtil PyStr Csv EqCatalog SourceModel Nrml World CatalogFilter Jobs Workflow Main FlowSpec EqCatWitness Demo FlowDemo
  InputSpec InputProofs.
Import ListNotations.
Local Open Scope string_scope.
Local Open Scope list_scope.

(** C148.  With a usable configuration, a missing or rejected catalogue, a missing or malformed
    source model, or one without sources stops the run with the stated exception, and no file is
    written or changed. *)
Theorem C148_bad_input :
  forall (AR : Ops) (W : world AR) (cf : config AR) (f : files) e, usable cf -> bad_input W cf f e ->
  exists c, run_config W cf f = (c, Some e) /\ cx_files c = f.
Proof. exact (@C148_proof). Qed.
Print Assumptions C148_bad_input.

(** C148.  With any configuration such a run fails and changes no file. *)
Theorem C148_nothing_written :
  forall (AR : Ops) (W : world AR) (cf : config AR) (f : files) e, bad_input W cf f e ->
  exists c e', run_config W cf f = (c, Some e') /\ cx_files c = f.
Proof. exact (@C148_nothing_proof). Qed.
Print Assumptions C148_nothing_written.

(** C148.  Without preprocessing jobs a configured completeness table that is missing, empty, ragged
    or not in pairs stops the run before anything is written; the exception is that of the table
    when the catalogue and the source model are usable. *)
Theorem C148_bad_table :
  forall (AR : Ops) (W : world AR) (cf : config AR) (f : files) p e, jobs_unset (cf_preprocessing_jobs cf) ->
  cf_completeness_table_file cf = Given p -> p <> [] -> bad_table f p e ->
  exists c e', run_config W cf f = (c, Some e') /\ cx_files c = f /\
    forall sj c0, usable cf -> source_job (cf_source_model_file cf) sj ->
      pipeline_run W [J_read_eq_catalog; sj; J_create_catalog_matrix; J_create_default_values] (init_context cf f) = (c0, None) -> e' = e.
Proof. exact (@C148_table_proof). Qed.
Print Assumptions C148_bad_table.

(** C75.  The log file debug.log is opened exactly with -d; without -d the level is INFO. *)
Theorem C75_debug_log : forall detailed,
  (log_file_opened detailed = true <-> detailed = true) /\ (log_level detailed <= 20)%Z /\ (log_level false = 20)%Z.
Proof. exact C75_log_proof. Qed.
Print Assumptions C75_debug_log.

Definition gives_error {A} (r : res A) : bool := match r with Ok _ => false | Err _ => true end.

(** The demonstration configuration without its catalogue, with a catalogue that is not one, and
    without its source model. *)
Example C148_case :
  usable basic /\
  bad_input DW basic (demo_files [(t "in/ab.xml", t "ab")]) IOError /\
  (exists e, bad_input DW basic (demo_files [(t "in/cat.csv", t "Mw,year"); (t "in/ab.xml", t "ab")]) e) /\
  bad_input DW basic (demo_files [(t "in/cat.csv", ctext quakes)]) IOError.
Proof.
  split; [|split; [|split]].
  - split; [left; eexists; split; [reflexivity|discriminate]|]. split.
    + left. exists ["GardnerKnopoff"], [J_gardner_knopoff]. split; [split; [reflexivity|discriminate]|].
      split; [repeat constructor|]. left. eexists. split; [reflexivity|discriminate].
    + left. exists ["Recurrence"; "MaximumMagnitude"], [J_recurrence; J_maximum_magnitude].
      split; [split; [reflexivity|discriminate]|]. repeat constructor.
  - eapply BI_no_catalogue; reflexivity.
  - assert (X : gives_error (read_eq_catalog (w_parse_float DW) (w_now_year DW) (w_dict_order DW) (t "Mw,year")) = true) by (vm_compute; reflexivity).
    destruct (read_eq_catalog (w_parse_float DW) (w_now_year DW) (w_dict_order DW) (t "Mw,year")) as [es|e] eqn:E; [discriminate X|].
    exists e. apply BI_bad_catalogue. exists (t "in/cat.csv"), (t "Mw,year"). split; [reflexivity|]. split; [reflexivity|exact E].
  - assert (X : gives_error (read_eq_catalog (w_parse_float DW) (w_now_year DW) (w_dict_order DW) (ctext quakes)) = false) by (vm_compute; reflexivity).
    destruct (read_eq_catalog (w_parse_float DW) (w_now_year DW) (w_dict_order DW) (ctext quakes)) as [es|e] eqn:E; [|discriminate X].
    apply (BI_no_model DW basic _ es (t "in/ab.xml")); [|reflexivity|discriminate|reflexivity].
    exists (t "in/cat.csv"), (ctext quakes). split; [reflexivity|]. split; [reflexivity|exact E].
Qed.

Definition table_run : config FL := no_conf (Given (t "in/cat.csv")) Null Null Null Null (Given (t "in/tab.csv")) (Given (t "out/res.xml")) (Given tt).
Definition with_table (tab : text) : files := demo_files [(t "in/cat.csv", ctext quakes); (t "in/tab.csv", tab)].
Definition nl : text := [chr_lf].

(** A usable catalogue, and no table, an empty one, a ragged one and one of three columns. *)
Example C148_table_case :
  usable table_run /\ jobs_unset (cf_preprocessing_jobs table_run) /\ source_job (cf_source_model_file table_run) J_create_default_source_model /\
  (exists c0, pipeline_run DW [J_read_eq_catalog; J_create_default_source_model; J_create_catalog_matrix; J_create_default_values]
     (init_context table_run (with_table (t "1990.0,4.0,1.0"))) = (c0, None)) /\
  bad_table (demo_files [(t "in/cat.csv", ctext quakes)]) (t "in/tab.csv") IOError /\
  bad_table (with_table nl) (t "in/tab.csv") IOError /\
  bad_table (with_table (t "1990.0,4.0" ++ nl ++ t "1950.0" ++ nl)) (t "in/tab.csv") ValueError /\
  bad_table (with_table (t "1990.0,4.0,1.0")) (t "in/tab.csv") ValueError.
Proof.
  split; [|split; [|split; [|split; [|split; [|split; [|split]]]]]].
  - split; [right; left; reflexivity|]. split; [right; split; [left; reflexivity|left; eexists; split; [reflexivity|discriminate]]|right; left; reflexivity].
  - left. reflexivity.
  - apply SJ_default. left. reflexivity.
  - assert (X : match pipeline_run DW [J_read_eq_catalog; J_create_default_source_model; J_create_catalog_matrix; J_create_default_values]
      (init_context table_run (with_table (t "1990.0,4.0,1.0"))) with (_, None) => true | _ => false end = true) by (vm_compute; reflexivity).
    destruct (pipeline_run DW [J_read_eq_catalog; J_create_default_source_model; J_create_catalog_matrix; J_create_default_values]
      (init_context table_run (with_table (t "1990.0,4.0,1.0")))) as (c0, [e|]); [discriminate X|eauto].
  - apply BT_missing. reflexivity.
  - eapply BT_blank; reflexivity.
  - apply (BT_ragged _ _ (t "1990.0,4.0" ++ nl ++ t "1950.0" ++ nl) (t "1990.0,4.0") (t "1950.0")); [reflexivity|left; reflexivity|right; left; reflexivity|].
    intros E. discriminate E.
  - apply (BT_odd _ _ (t "1990.0,4.0,1.0") 3); [reflexivity| |reflexivity]. intros l [<-|[]]. reflexivity.
Qed.
