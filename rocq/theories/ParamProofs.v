(** Entries of the configuration without effect (C141). *)
From Coq Require Import ZArith Bool Ascii String List.
From Verif Require Import Base Ops CatUtil PyStr EqCatalog SourceModel Nrml World CatalogFilter Jobs Workflow Main
  FlowSpec FlowPipe FlowFiles ParamSpec.
Import ListNotations.

Section Param.
Context {AR : Ops}.
Variable W : world AR.
Variables cf cf' : config AR.

(** The context with the other configuration. *)
Definition recf (c : context AR) : context AR :=
  mkContext cf' (cx_eq_catalog c) (cx_sms c) (cx_matrix c) (cx_working c) (cx_flag c) (cx_vcl c) (cx_table c)
    (cx_selected c) (cx_cur c) (cx_filtered c) (cx_files c).
Definition recfp (r : context AR * option exn) : context AR * option exn := (recf (fst r), snd r).

(** What a job reads of the configuration. *)
Definition reads_same (j : jobname) : Prop :=
  match j with
  | J_read_eq_catalog => cf_eq_catalog_file cf' = cf_eq_catalog_file cf
  | J_read_source_model => cf_source_model_file cf' = cf_source_model_file cf
  | J_gardner_knopoff => cf_gk cf' = cf_gk cf
  | J_afteran => cf_afteran cf' = cf_afteran cf
  | J_stepp => cf_stepp cf' = cf_stepp cf
  | J_recurrence => cf_recurrence cf' = cf_recurrence cf
  | J_maximum_magnitude => cf_mm cf' = cf_mm cf
  | J_store_preprocessed_catalog => cf_pprocessing_result_file cf' = cf_pprocessing_result_file cf
  | J_store_completeness_table | J_retrieve_completeness_table => cf_completeness_table_file cf' = cf_completeness_table_file cf
  | _ => True
  end.

Lemma job_config : forall j c, cx_config (fst (run_job W j c)) = cx_config c.
Proof.
  intros j c. destruct (run_job W j c) as (c', x) eqn:E. apply job_keeps in E. cbn. now destruct E.
Qed.

Ltac crunch := repeat (first [ reflexivity
  | match goal with
    | |- context [bind ?x _] => lazymatch x with bind _ _ => fail | _ => destruct x; cbn [bind finish fst snd] end
    | |- context [match ?x with _ => _ end] => lazymatch x with context [match _ with _ => _ end] => fail | _ => destruct x; cbn [bind finish fst snd] end
    end ]).
Ltac open_job := unfold recf, recfp; cbn [cx_config cx_eq_catalog cx_sms cx_matrix cx_working cx_flag cx_vcl cx_table cx_selected cx_cur cx_filtered cx_files
  set_eq_catalog set_sms set_matrix set_working set_flag set_vcl set_table set_selected set_cur set_filtered set_files fst snd].

Lemma job_recf : forall j c, cx_config c = cf -> reads_same j -> run_job W j (recf c) = recfp (run_job W j c).
Proof.
  intros j c E R. destruct c as [cc a b d e g h i k l m n]. cbn in E. subst cc.
  destruct j; cbn [run_job reads_same] in *;
  [ unfold read_eq_catalog_job | unfold read_source_model | unfold create_default_source_model | unfold create_catalog_matrix
  | unfold create_default_values | unfold gardner_knopoff | unfold afteran | unfold stepp | unfold recurrence, update_cur
  | unfold create_selected_eq_vector | unfold store_preprocessed_catalog | unfold store_completeness_table
  | unfold retrieve_completeness_table | unfold maximum_magnitude, update_cur ];
  open_job; rewrite ?R; unfold finish;
  lazymatch goal with |- context [w_xml_parse] => idtac | _ => now crunch end.
  destruct (bind _ _) as [ct|x]; [|reflexivity]. destruct (w_xml_parse W ct) as [dd|]; [|reflexivity].
  destruct (read_doc (w_parse_float W) dd) as (ss, [x|]); destruct ss; try reflexivity. cbn. now destruct b.
Qed.

Lemma recf_config : forall c, cx_config (recf c) = cf'.
Proof. reflexivity. Qed.

Lemma pipeline_config : forall js c, cx_config (fst (pipeline_run W js c)) = cx_config c.
Proof.
  induction js as [|j js IH]; intros c; cbn [pipeline_run]; auto.
  pose proof (job_config j c) as K. destruct (run_job W j c) as (c1, [x|]); cbn in *; auto. now rewrite IH.
Qed.

Lemma pipeline_recf : forall js c, cx_config c = cf -> Forall reads_same js -> pipeline_run W js (recf c) = recfp (pipeline_run W js c).
Proof.
  induction js as [|j js IH]; intros c E F; cbn [pipeline_run]; [reflexivity|].
  inversion F as [|j0 js0 R F']; subst j0 js0. rewrite (job_recf j c E R).
  pose proof (job_config j c) as K. destruct (run_job W j c) as (c1, [x|]); unfold recfp in *; cbn [fst snd] in *; auto.
  apply IH; auto. congruence.
Qed.

Lemma loop_recf : forall flt js w n i c, cx_config c = cf -> Forall reads_same js ->
  process_sources W flt js w n i (recf c) = recfp (process_sources W flt js w n i c).
Proof.
  intros flt js w. induction n as [|n IH]; intros i c E F; cbn [process_sources]; [reflexivity|].
  change (cx_sms (recf c)) with (cx_sms c). destruct (cx_sms c) as [ss|]; [|reflexivity].
  destruct (nth_error ss i) as [s|]; [|reflexivity]. destruct (filter_eqs W flt s w) as [eqs|x]; [|reflexivity].
  change (set_filtered (Some eqs) (set_cur (Some i) (recf c))) with (recf (set_filtered (Some eqs) (set_cur (Some i) c))).
  rewrite pipeline_recf by auto.
  pose proof (pipeline_config js (set_filtered (Some eqs) (set_cur (Some i) c))) as K.
  destruct (pipeline_run W js (set_filtered (Some eqs) (set_cur (Some i) c))) as (c1, [x|]); unfold recfp in *; cbn [fst snd] in *; auto.
  apply IH; auto. rewrite K. exact E.
Qed.

Lemma start_recf : forall pre pro flt c, cx_config c = cf -> cf_apply_processing_jobs cf' = cf_apply_processing_jobs cf ->
  Forall reads_same pre -> Forall reads_same pro -> start W pre pro flt (recf c) = recfp (start W pre pro flt c).
Proof.
  intros pre pro flt c E A F1 F2. unfold start. rewrite pipeline_recf by auto.
  pose proof (pipeline_config pre c) as K. destruct (pipeline_run W pre c) as (c1, [x|]); unfold recfp in *; cbn [fst snd] in *; auto.
  rewrite recf_config, A, K, E. destruct (cf_apply_processing_jobs cf); auto.
  change (cx_sms (recf c1)) with (cx_sms c1). change (cx_working (recf c1)) with (cx_working c1).
  destruct (cx_sms c1) as [[|s ss]|]; auto. destruct (cx_working c1) as [w|]; auto.
  apply loop_recf; auto. congruence.
Qed.

Lemma start_config : forall pre pro flt c, cx_config (fst (start W pre pro flt c)) = cx_config c.
Proof.
  intros. destruct (start W pre pro flt c) as (c', x) eqn:E. apply start_keeps in E. cbn. now destruct E.
Qed.

Lemma result_recf : forall c, cx_config c = cf -> cf_result_file cf' = cf_result_file cf -> write_result W (recf c) = recfp (write_result W c).
Proof.
  intros c E R. destruct c as [cc a b d e g h i k l m n]. cbn in E. subst cc. unfold write_result. open_job. rewrite ?R. unfold finish. crunch.
Qed.

End Param.

Section Outcome.
Context {AR : Ops}.
Variable W : world AR.
Variables cf cf' : config AR.
Hypothesis C : same_common cf cf'.
Hypothesis G : same_named_groups cf cf'.
Hypothesis S : same_store_if_used cf cf'.

Lemma appended : forall l p q, append_jobs p l = Ok q -> forall j, In j q -> In j p \/ exists n, In n l /\ map_job_callable n = Some j.
Proof.
  induction l as [|n l IH]; intros p q H j I; cbn [append_jobs] in H.
  - injection H as <-. auto.
  - destruct (map_job_callable n) as [a|] eqn:M; [|discriminate]. destruct (IH _ _ H j I) as [J|(n' & J & K)].
    + apply in_app_or in J. destruct J as [J|[<-|[]]]; auto. right. exists n. split; [now left|auto].
    + right. exists n'. split; [now right|auto].
Qed.

Lemma named_reads : forall n j, named_in n cf -> map_job_callable n = Some j -> reads_same cf cf' j.
Proof.
  intros n j N M. destruct C as (C1 & C2 & C3 & C4 & C5 & C6 & C7). destruct G as (G1 & G2 & G3 & G4 & G5). unfold map_job_callable in M.
  repeat match type of M with (if String.eqb n ?s then _ else _) = _ =>
    destruct (String.eqb_spec n s) as [->|]; [injection M as <-; cbn [reads_same]; auto|] end; try discriminate M.
Qed.

Lemma listed_named_pre : forall n, In n (listed (cf_preprocessing_jobs cf)) -> named_in n cf.
Proof. intros n I. left. destruct (cf_preprocessing_jobs cf); try contradiction. eauto. Qed.
Lemma listed_named_pro : forall n, In n (listed (cf_processing_jobs cf)) -> named_in n cf.
Proof. intros n I. right. destruct (cf_processing_jobs cf); try contradiction. eauto. Qed.

Lemma pre_same : preprocessing_build cf' = preprocessing_build cf.
Proof.
  destruct C as (C1 & C2 & C3 & C4 & C5 & C6 & C7). unfold preprocessing_build. rewrite C2, C3, C4.
  destruct (truth no_text (cf_source_model_file cf)); [|reflexivity]. cbn [bind].
  destruct (truth no_jobs (cf_preprocessing_jobs cf)) as [[|]|] eqn:T; [|reflexivity|reflexivity]. cbn [bind].
  rewrite S; [reflexivity|]. left. unfold truth in T. destruct (cf_preprocessing_jobs cf) as [| |l] eqn:L; try discriminate.
  exists l. split; [reflexivity|]. intros ->. discriminate.
Qed.

Lemma pre_reads : forall pre, preprocessing_build cf = Ok pre -> Forall (reads_same cf cf') pre.
Proof.
  intros pre H. rewrite Forall_forall. destruct C as (C1 & C2 & C3 & C4 & C5 & C6 & C7). unfold preprocessing_build in H.
  destruct (truth no_text (cf_source_model_file cf)) as [sm|]; [|discriminate]. cbn [bind] in H.
  set (base := [J_read_eq_catalog; if sm then J_read_source_model else J_create_default_source_model; J_create_catalog_matrix; J_create_default_values]) in H.
  assert (B : forall j, In j base -> reads_same cf cf' j).
  { intros j I. unfold base in I. destruct sm; cbn in I; intuition; subst j; cbn; auto. }
  destruct (truth no_jobs (cf_preprocessing_jobs cf)) as [[|]|] eqn:T; [| |discriminate]; cbn [bind] in H.
  - assert (S1 : cf_pprocessing_result_file cf' = cf_pprocessing_result_file cf).
    { apply S. left. unfold truth in T. destruct (cf_preprocessing_jobs cf) as [| |l] eqn:L; try discriminate.
      exists l. split; [reflexivity|]. intros ->. discriminate. }
    destruct (append_jobs base (listed (cf_preprocessing_jobs cf))) as [p|] eqn:A; [|discriminate]. cbn [bind] in H.
    assert (P : forall j, In j p -> reads_same cf cf' j).
    { intros j I. destruct (appended _ _ _ A j I) as [J|(n & J & K)]; auto. eapply named_reads; eauto using listed_named_pre. }
    destruct (truth no_text (cf_pprocessing_result_file cf)) as [[|]|]; [| |discriminate]; cbn [bind] in H; injection H as <-; auto.
    intros j I. apply in_app_or in I. destruct I as [I|I]; auto. cbn in I. intuition; subst j; cbn; auto.
  - destruct (truth no_text (cf_completeness_table_file cf)) as [[|]|]; [| |discriminate]; cbn [bind] in H; injection H as <-; auto.
    intros j I. cbn in I. destruct sm; intuition; subst j; cbn; auto.
Qed.

Lemma pro_reads : forall pro, processing_build cf = Ok pro -> Forall (reads_same cf cf') pro.
Proof.
  intros pro H. rewrite Forall_forall. unfold processing_build in H.
  destruct (truth no_jobs (cf_processing_jobs cf)) as [[|]|]; [| |discriminate]; cbn [bind] in H.
  - intros j I. destruct (appended _ _ _ H j I) as [J|(n & J & K)]; [destruct J|]. eapply named_reads; eauto using listed_named_pro.
  - injection H as <-. contradiction.
Qed.

Lemma recfp_outcome : forall r, same_outcome r (recfp cf' r).
Proof. intros (c, e). unfold same_outcome. cbn. repeat split. Qed.

Lemma C141_unlisted_proof : forall f, same_outcome (run_config W cf f) (run_config W cf' f).
Proof.
  intros f. destruct C as (C1 & C2 & C3 & C4 & C5 & C6 & C7).
  replace (run_config W cf' f) with (recfp cf' (run_config W cf f)); [apply recfp_outcome|].
  unfold run_config. rewrite pre_same. unfold choose_filter. rewrite C2.
  replace (processing_build cf') with (processing_build cf) by (unfold processing_build; now rewrite C5).
  destruct (preprocessing_build cf) as [pre|] eqn:P1; [|reflexivity]. destruct (processing_build cf) as [pro|] eqn:P2; [|reflexivity].
  destruct (truth no_text (cf_source_model_file cf)) as [b|]; [|reflexivity]. cbn [bind].
  change (init_context cf' f) with (recf cf' (init_context cf f)).
  rewrite (start_recf W cf cf') by (auto using pre_reads, pro_reads).
  pose proof (start_config W pre pro (if b then SourceModelCatalogFilter else NullCatalogFilter) (init_context cf f)) as K.
  destruct (start W pre pro (if b then SourceModelCatalogFilter else NullCatalogFilter) (init_context cf f)) as (c1, [x|]).
  - reflexivity.
  - unfold recfp in *; cbn [fst snd] in *. symmetry. now rewrite (result_recf W cf cf').
Qed.

End Outcome.
