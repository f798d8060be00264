(** Runs of the demonstration world for C141 and C142. *)
From Coq Require Import ZArith Bool Ascii String List.
From Verif Require Import Base Ops FloatOps Libm CatUtil PyStr Csv PyFloat EqCatalog EqCatWitness
  SourceModel Nrml World CatalogFilter Jobs Workflow Main Demo FlowSpec FlowDemo FlowWitness FlowCases RangeCase ParamSpec ParamProofs.
Import ListNotations.
Local Open Scope string_scope.

(** The run of RangeCase.v with a preprocessed catalogue named as the documentation says. *)
Definition with_store (v : cval text) (c : config FL) : config FL :=
  mkConfig (cf_eq_catalog_file c) (cf_source_model_file c) (cf_preprocessing_jobs c) v (cf_completeness_table_file c) (cf_processing_jobs c)
    (cf_apply_processing_jobs c) (cf_result_file c) (cf_gk c) (cf_afteran c) (cf_stepp c) (cf_recurrence c) (cf_mm c).
Definition prepared_config : config FL := with_store (Given (t "in/prepared.csv")) steady_config.
Definition prepared_quakes : list (list text) := [ quake "1" "2000" "3" "11" "20.6" "38.4" "7"; quake "3" "2002" "6" "1" "20.3" "38.2" "7" ].
Definition prepared_files : files := demo_files [(t "in/cat.csv", ctext steady_quakes); (t "in/prepared.csv", ctext prepared_quakes)].

Definition has_three (c : context FL) : bool :=
  match cx_eq_catalog c with Some es => Nat.eqb (List.length es) 3 | None => false end.
Lemma prepared_runs : completes has_three (run_config DW prepared_config prepared_files) = true.
Proof. vm_cast_no_check (@eq_refl bool true). Qed.

Definition prepared_entries : list (entry FL) :=
  match @read_eq_catalog FL (w_parse_float DW) (w_now_year DW) (w_dict_order DW) (ctext prepared_quakes) with Ok es => es | Err _ => [] end.
Lemma prepared_read : @read_eq_catalog FL (w_parse_float DW) (w_now_year DW) (w_dict_order DW) (ctext prepared_quakes) = Ok prepared_entries.
Proof. vm_cast_no_check (@eq_refl (res (list (entry FL))) (Ok prepared_entries)). Qed.
Lemma prepared_two : List.length prepared_entries = 2.
Proof. vm_cast_no_check (@eq_refl nat 2). Qed.

Lemma C141_refuted_proof : exists cf f c p content es, run_config DW cf f = (c, None) /\ jobs_unset (cf_preprocessing_jobs cf) /\
  cf_pprocessing_result_file cf = Given p /\ f p = Some content /\
  read_eq_catalog (w_parse_float DW) (w_now_year DW) (w_dict_order DW) content = Ok es /\ cx_eq_catalog c <> Some es.
Proof.
  destruct (ok_gives _ _ prepared_runs) as (c & R & E).
  exists prepared_config, prepared_files, c, (t "in/prepared.csv"), (ctext prepared_quakes), prepared_entries.
  split; [exact R|]. split; [now left|]. split; [reflexivity|]. split; [reflexivity|]. split; [exact prepared_read|].
  intro X. unfold has_three in E. rewrite X, prepared_two in E. discriminate E.
Qed.

Lemma C141_case_proof : exists c, run_config DW prepared_config prepared_files = (c, None) /\
  let cf' := with_gk (@mkGkConf FL "Other" (fl "0")) (with_store Absent prepared_config) in
  same_common prepared_config cf' /\ same_named_groups prepared_config cf' /\ same_store_if_used prepared_config cf' /\
  cf_gk prepared_config = Err KeyError /\ cf_pprocessing_result_file cf' = Absent.
Proof.
  destruct (ok_gives _ _ prepared_runs) as (c & R & _). exists c. split; [exact R|]. cbn zeta. split; [repeat split|]. split.
  - repeat split. intros [(l & E & _)|(l & E & I)]; [discriminate E|]. cbn in E. injection E as <-. cbn in I. destruct I as [I|[I|[]]]; discriminate I.
  - split; [|split; reflexivity]. intros [(l & E & _)|[(l & E & _)|(l & E & I)]]; [discriminate E|discriminate E|].
    cbn in E. injection E as <-. cbn in I. destruct I as [I|[I|[]]]; discriminate I.
Qed.

(** Two different earthquakes under one identifier. *)
Definition twins : list (list text) := [ quake "7" "2000" "3" "11" "20.6" "38.4" "7"; quake "7" "2001" "1" "20" "20.2" "38.6" "6.9" ].
Definition twin_entries : list (entry FL) :=
  match @read_eq_catalog FL (w_parse_float DW) (w_now_year DW) (w_dict_order DW) (ctext twins) with Ok es => es | Err _ => [] end.
Lemma twins_read : @read_eq_catalog FL (w_parse_float DW) (w_now_year DW) (w_dict_order DW) (ctext twins) = Ok twin_entries.
Proof. vm_cast_no_check (@eq_refl (res (list (entry FL))) (Ok twin_entries)). Qed.
Definition is_seven (e : entry FL) : bool := match entry_item "eventID" e with Ok (VInt z) => Z.eqb z 7 | _ => false end.
Lemma twins_seven : List.length twin_entries = 2 /\ forallb is_seven twin_entries = true.
Proof. split; [vm_cast_no_check (@eq_refl nat 2)|vm_cast_no_check (@eq_refl bool true)]. Qed.

Lemma C142_refuted_proof : exists content es i j e e' z,
  read_eq_catalog (w_parse_float DW) (w_now_year DW) (w_dict_order DW) content = Ok es /\
  i <> j /\ nth_error es i = Some e /\ nth_error es j = Some e' /\
  In (Some "eventID", VInt z) e /\ In (Some "eventID", VInt z) e'.
Proof.
  assert (R := twins_read). destruct twins_seven as (L & F). revert R L F. generalize twin_entries. intros es R L F.
  destruct es as [|e [|e' [|]]]; try discriminate L. cbn [forallb] in F. rewrite andb_true_r in F. apply andb_true_iff in F. destruct F as (F1 & F2).
  assert (X : forall e0, is_seven e0 = true -> In (Some "eventID", VInt 7) e0).
  { intros e0 H. unfold is_seven, entry_item in H. destruct (find _ e0) as [(k, v)|] eqn:Fi; [|discriminate H].
    apply find_some in Fi. destruct Fi as (I & K). cbn [fst snd] in *. destruct v as [z| | | |]; try discriminate H.
    apply Z.eqb_eq in H. subst z. destruct k as [s|]; [|discriminate K]. change (String.eqb "eventID" s = true) in K. apply String.eqb_eq in K. subst s. exact I. }
  exists (ctext twins), [e; e'], 0, 1, e, e', 7%Z. split; [exact R|]. split; [discriminate|]. split; [reflexivity|]. split; [reflexivity|]. auto.
Qed.
