(** Storing does not change the result (C145). *)
From Coq Require Import ZArith Bool Ascii String List Lia.
From Verif Require Import Base Ops BaseFacts CatUtil PyStr EqCatalog SourceModel Nrml World CatalogFilter
  Decluster Completeness Recurrence MaxMag Jobs Workflow Main FlowSpec FlowPipe WholeSpec WholeProofs WholeRuns StoreSpec.
Import ListNotations.
Local Open Scope nat_scope.

Section Store.
Context {AR : Ops}.
Variable W : world AR.

Lemma stores_spec : forall n, stores n = true <-> writes_only n.
Proof.
  intros n. unfold stores, writes_only. rewrite !orb_true_iff, !String.eqb_eq. tauto.
Qed.

Definition keep (l : list string) : list string := filter (fun n => negb (stores n)) l.

Lemma prepared_keep : forall cf m l w tab w' tab', prepared W cf m l w tab w' tab' -> prepared W cf m (keep l) w tab w' tab'.
Proof.
  intros cf m l w tab w' tab' H. induction H; unfold keep in *; cbn [filter].
  - constructor.
  - change (stores "GardnerKnopoff") with false. cbn [negb]. econstructor; eauto.
  - change (stores "Afteran") with false. cbn [negb]. econstructor; eauto.
  - change (stores "Stepp") with false. cbn [negb]. econstructor; eauto.
  - apply stores_spec in H. rewrite H. exact IHprepared.
Qed.

Lemma keep_prepared : forall l cf m w tab w' tab', prepared W cf m (keep l) w tab w' tab' -> prepared W cf m l w tab w' tab'.
Proof.
  induction l as [|n l IH]; intros cf m w tab w' tab' H; unfold keep in *; cbn [filter] in H; [exact H|].
  destruct (stores n) eqn:S; cbn [negb] in H.
  - apply PP_write; [now apply stores_spec|]. now apply IH.
  - inversion H as [|? ? ? k o vcl main flag ? ? K O G H1 EN|? ? ? k o vcl main flag ? ? K O G H1 EN|? ? ? k tab1 ? ? K NE G H1 EN|? ? ? ? ? ? WO H1 EN]; subst.
    + eapply PP_gk; eauto.
    + eapply PP_afteran; eauto.
    + eapply PP_stepp; eauto.
    + apply stores_spec in WO. congruence.
Qed.

Lemma prepared_config : forall cf cf' m, cf_gk cf' = cf_gk cf -> cf_afteran cf' = cf_afteran cf -> cf_stepp cf' = cf_stepp cf ->
  forall l w tab w' tab', prepared W cf m l w tab w' tab' -> prepared W cf' m l w tab w' tab'.
Proof.
  intros cf cf' m G A S l w tab w' tab' H. induction H.
  - constructor.
  - eapply PP_gk; eauto. congruence.
  - eapply PP_afteran; eauto. congruence.
  - eapply PP_stepp; eauto. congruence.
  - apply PP_write; auto.
Qed.

Lemma processed_config : forall cf cf' tab eqs, cf_recurrence cf' = cf_recurrence cf -> cf_mm cf' = cf_mm cf ->
  forall js s s', processed W cf tab eqs js s s' -> processed W cf' tab eqs js s s'.
Proof.
  intros cf cf' tab eqs R M js s s' H. induction H.
  - constructor.
  - eapply PR_rec; eauto. congruence.
  - eapply PR_max; eauto. congruence.
Qed.

Lemma computed_storing : forall cf cf' f l l' ss', same_but_storing cf cf' -> jobs_set (cf_preprocessing_jobs cf) l ->
  jobs_set (cf_preprocessing_jobs cf') l' -> same_analyses l l' -> computed W cf f ss' -> computed W cf' f ss'.
Proof.
  unfold same_analyses. intros cf cf' f l l' ss' SB J J' SA (es & m & w & tab & ss & flt & C & M & P & Z & A).
  destruct SB as (B1 & B2 & B3 & B4 & B5 & B6 & B7 & B8 & B9 & B10).
  exists es, m, w, tab, ss, flt. split.
  { unfold catalogue_read in *. now rewrite B1. }
  split; [exact M|]. split.
  { destruct P as (y0 & m0 & Y & K & P). exists y0, m0. split; [exact Y|]. split; [exact K|]. left. exists l'. split; [exact J'|].
    destruct P as [(l1 & J1 & P)|(U & _)]; [|exfalso; exact (jobs_set_unset _ _ J U)].
    destruct J as (J & _), J1 as (J1 & _). rewrite J in J1. injection J1 as <-.
    apply keep_prepared. unfold keep. rewrite <- SA. apply prepared_keep. exact (prepared_config cf cf' m B6 B7 B8 _ _ _ _ _ P). }
  split.
  { unfold zones, sources_read in *. now rewrite B2. }
  destruct A as [(A & ->)|(u & js & A & L & F)]; [left; split; congruence|]. right. exists u, js. split; [congruence|]. split.
  { unfold processing_listed in *. now rewrite B3. }
  eapply forall2_impl; [|exact F]. intros s s' (eqs & E & PR). exists eqs. split; auto. eapply (processed_config cf cf'); eauto.
Qed.

Theorem C145_proof : forall cf cf' f c c' l l', same_but_storing cf cf' -> jobs_set (cf_preprocessing_jobs cf) l ->
  jobs_set (cf_preprocessing_jobs cf') l' -> same_analyses l l' -> only_processing cf -> ~ In "Retrieve_completeness_table"%string l ->
  run_config W cf f = (c, None) -> run_config W cf' f = (c', None) ->
  exists p content, cf_result_file cf = Given p /\ cx_files c p = Some content /\ cx_files c' p = Some content.
Proof.
  unfold same_analyses. intros cf cf' f c c' l l' SB J J' SA OP NR R R'.
  pose proof SB as (B1 & B2 & B3 & B4 & B5 & B6 & B7 & B8 & B9 & B10).
  destruct (C139_proof W cf f c R OP) as (p & d & ss & RF & F & C & D).
  { intros l0 E. destruct J as (J & _). rewrite J in E. injection E as <-. exact NR. }
  destruct (C139_proof W cf' f c' R') as (p' & d' & ss' & RF' & F' & C' & D').
  { unfold only_processing in *. now rewrite B3. }
  { intros l0 E I. destruct J' as (J' & _). rewrite J' in E. injection E as <-. apply NR.
    assert (K : In "Retrieve_completeness_table"%string (filter (fun n => negb (stores n)) l')) by (apply filter_In; split; [exact I|reflexivity]).
    rewrite <- SA in K. now apply filter_In in K. }
  pose proof (computed_storing cf cf' f l l' ss SB J J' SA C) as C2. rewrite (computed_fun W _ _ _ _ C2 C') in D.
  exists p, (w_xml_print W d). split; [exact RF|]. split; [exact F|]. rewrite B5, RF in RF'. injection RF' as <-. rewrite F'. congruence.
Qed.
End Store.
