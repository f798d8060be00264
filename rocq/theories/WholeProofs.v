(** A completed run writes what its configuration asks for (C139). *)
From Coq Require Import ZArith Bool Ascii String List Lia.
From Verif Require Import Base Ops BaseFacts CatUtil PyStr EqCatalog SourceModel Nrml World CatalogFilter
  Decluster Completeness Recurrence MaxMag Jobs Workflow Main FlowSpec FlowPipe FlowFiles FlowPre FlowValid WholeSpec.
Import ListNotations.
Local Open Scope nat_scope.
Local Open Scope res_scope.

Section WholeProofs.
Context {AR : Ops}.
Variable W : world AR.

Ltac unb := repeat match goal with
  | H : bind _ _ = Ok _ |- _ => apply bind_ok in H; destruct H as (? & ? & H)
  | H : Ok _ = Ok _ |- _ => injection H as <-
  | p : (_ * _)%type |- _ => destruct p
  end.

Lemma window_ok : forall s w, window_calc (AR := AR) (window_of s) = Ok w -> window_named s (window_of s).
Proof.
  intros s w H. unfold window_of in *.
  destruct (String.eqb s "GardnerKnopoff") eqn:E1; [apply String.eqb_eq in E1; subst; constructor|].
  destruct (String.eqb s "Gruenthal") eqn:E2; [apply String.eqb_eq in E2; subst; constructor|].
  destruct (String.eqb s "Uhrhammer") eqn:E3; [apply String.eqb_eq in E3; subst; constructor|]. discriminate.
Qed.

Lemma gk_window_named : forall a (w : list (event AR)) s fs r, gardner_knopoff_decluster a w (window_of s) fs = Ok r -> window_named s (window_of s).
Proof.
  intros a w s fs r H. unfold gardner_knopoff_decluster in H. destruct w as [|e w]; [discriminate|].
  apply bind_ok in H. destruct H as (? & _ & H). apply bind_ok in H. destruct H as (? & K & _). eapply window_ok; eauto.
Qed.
Lemma af_window_named : forall a (w : list (event AR)) s fs r, afteran_decluster a w (window_of s) fs = Ok r -> window_named s (window_of s).
Proof.
  intros a w s fs r H. unfold afteran_decluster in H. destruct w as [|e w]; [discriminate|].
  apply bind_ok in H. destruct H as (? & _ & H). apply bind_ok in H. destruct H as (? & K & _). eapply window_ok; eauto.
Qed.

Lemma have_ok : forall A e (o : option A) a, have e o = Ok a -> o = Some a.
Proof. intros A e [x|] a H; cbn in H; congruence. Qed.
Lemma columns_ok : forall (w : list (event AR)) w', columns w = Ok w' -> w' = w /\ w <> [].
Proof. intros [|e w] w' H; cbn in H; [discriminate|]. injection H as <-. split; auto. discriminate. Qed.

(** The listed jobs. *)
Lemma prepared_steps : forall l js, Forall2 names l js -> ~ In "Retrieve_completeness_table"%string l ->
  forall c c' m w tab, steps W js c c' -> cx_matrix c = Some m -> cx_working c = Some w -> cx_table c = Some tab -> cx_filtered c = None ->
  exists w' tab', cx_working c' = Some w' /\ cx_table c' = Some tab' /\ prepared W (cx_config c) m l w tab w' tab'.
Proof.
  intros l js F. induction F as [|n j l js N F IH]; intros NR c c' m w tab ST M WK TB FI.
  - inversion ST; subst. exists w, tab. split; auto. split; auto. constructor.
  - inversion ST as [|? ? ? c1 ? R S1]; subst.
    assert (NB : nameable j) by (exists n; exact N).
    destruct (named_same W _ _ _ NB R) as (A1 & _ & A3 & _ & A5 & _).
    assert (NR' : ~ In "Retrieve_completeness_table"%string l) by (intros I; apply NR; now right).
    assert (M1 : cx_matrix c1 = Some m) by congruence. assert (F1 : cx_filtered c1 = None) by congruence.
    destruct N; cbn [run_job] in R; apply finish_ok in R.
    + apply bind_ok in R. destruct R as (k & CK & R). apply bind_ok in R. destruct R as (w0 & HW & R). apply have_ok in HW.
      rewrite WK in HW. injection HW as <-. apply bind_ok in R. destruct R as (((vcl, main), flag) & G & R). injection R as <-.
      destruct (IH NR' _ _ m main tab S1) as (w' & tab' & X1 & X2 & X3); auto.
      exists w', tab'. split; auto. split; auto. eapply PP_gk; eauto. eapply gk_window_named; eauto.
    + apply bind_ok in R. destruct R as (k & CK & R). apply bind_ok in R. destruct R as (w0 & HW & R). apply have_ok in HW.
      rewrite M in HW. injection HW as <-. apply bind_ok in R. destruct R as (((vcl, main), flag) & G & R). injection R as <-.
      destruct (IH NR' _ _ m main tab S1) as (w' & tab' & X1 & X2 & X3); auto.
      exists w', tab'. split; auto. split; auto. eapply PP_afteran; eauto. eapply af_window_named; eauto.
    + apply bind_ok in R. destruct R as (w0 & HW & R). apply have_ok in HW. rewrite WK in HW. injection HW as <-.
      apply bind_ok in R. destruct R as (w1 & CW & R). apply columns_ok in CW. destruct CW as (-> & NE).
      apply bind_ok in R. destruct R as (k & CK & R). apply bind_ok in R. destruct R as (tab1 & G & R). injection R as <-.
      destruct (IH NR' _ _ m w tab1 S1) as (w' & tab' & X1 & X2 & X3); auto.
      exists w', tab'. split; auto. split; auto. eapply PP_stepp; eauto.
    + unfold recurrence in R. apply bind_ok in R. destruct R as (w0 & HW & _). apply have_ok in HW. congruence.
    + unb. destruct (IH NR' _ _ m w tab S1) as (w' & tab' & X1 & X2 & X3); auto.
      exists w', tab'. split; auto. split; auto. apply PP_write; auto. now left.
    + unb. destruct (IH NR' _ _ m w tab S1) as (w' & tab' & X1 & X2 & X3); auto.
      exists w', tab'. split; auto. split; auto. apply PP_write; auto. right; now left.
    + unb. destruct (IH NR' _ _ m w tab S1) as (w' & tab' & X1 & X2 & X3); auto.
      exists w', tab'. split; auto. split; auto. apply PP_write; auto. right; now right.
    + exfalso. apply NR. now left.
    + apply bind_ok in R. destruct R as (w0 & HW & _). apply have_ok in HW. congruence.
Qed.

(** The jobs that store leave catalogue and table alone. *)
Lemma stores_same : forall c c', steps W [J_create_selected_eq_vector; J_store_preprocessed_catalog; J_store_completeness_table] c c' ->
  cx_working c' = cx_working c /\ cx_table c' = cx_table c.
Proof.
  intros c c' H. inversion H as [|? ? ? c1 ? R1 H1]; subst. inversion H1 as [|? ? ? c2 ? R2 H2]; subst.
  inversion H2 as [|? ? ? c3 ? R3 H3]; subst. inversion H3; subst.
  cbn [run_job] in *. apply finish_ok in R1, R2, R3. unb. auto.
Qed.

Lemma preparation_steps : forall cf f pre c, preprocessing_build cf = Ok pre -> steps W pre (init_context cf f) c ->
  (forall l, cf_preprocessing_jobs cf = Given l -> ~ In "Retrieve_completeness_table"%string l) ->
  exists es m w tab, catalogue_read W cf f es /\ mapM matrix_row es = Ok m /\ preparation W cf f m w tab /\
    cx_working c = Some w /\ cx_table c = Some tab /\ cx_config c = cf.
Proof.
  intros cf f pre c B H NR.
  destruct (build_shape cf pre B) as (sj & js & tail & SJ & -> & F & K).
  destruct (tail_ok cf js tail F K) as (N1 & _).
  apply steps_split in H. destruct H as (c1 & H1 & H2).
  destruct (base_state W cf f sj c1 SJ H1) as (es & m & y0 & m0 & CR & _ & MR & NE & M1 & W1 & _ & Y0 & M0 & T1 & C1 & CU & FI & FF).
  pose proof (named_steps W _ _ _ N1 H2) as (_ & _ & CC & _). rewrite C1 in CC.
  apply steps_split in H2. destruct H2 as (c2 & H2 & H3).
  exists es, m.
  destruct K as [(l & JS & K)|(U & K)].
  - assert (NL : ~ In "Retrieve_completeness_table"%string (listed (cf_preprocessing_jobs cf))).
    { destruct JS as (E & _). rewrite E. cbn. now apply NR. }
    destruct (prepared_steps _ _ F NL c1 c2 m m [(y0, m0)] H2 M1 W1 T1 FI) as (w & tab & W2 & T2 & P).
    rewrite C1 in P. assert (LE : listed (cf_preprocessing_jobs cf) = l) by (destruct JS as (E & _); now rewrite E). rewrite LE in P.
    assert (E : cx_working c = Some w /\ cx_table c = Some tab).
    { destruct K as [(_ & ->)|(_ & ->)]; [|inversion H3; subst; auto]. apply stores_same in H3. destruct H3; split; congruence. }
    destruct E as (E1 & E2). exists w, tab. split; auto. split; auto. split; [|auto].
    exists y0, m0. split; auto. split; auto. left. eauto.
  - assert (LE : listed (cf_preprocessing_jobs cf) = []) by (destruct U as [E|E]; now rewrite E). rewrite LE in F. inversion F; subst. inversion H2; subst.
    destruct K as [((p & TP & PN) & ->)|(FU & ->)].
    + inversion H3 as [|? ? ? c3 ? R H4]; subst. inversion H4; subst. cbn [run_job] in R. unfold retrieve_completeness_table in R. apply finish_ok in R.
      rewrite TP in R. cbn [lookup_file bind] in R. unfold open_read in R. destruct (cx_files c2 p) as [ct|] eqn:FP; [|discriminate]. cbn [bind] in R.
      apply bind_ok in R. destruct R as (rows & TR & R). apply bind_ok in R. destruct R as (tab & PR & R). injection R as <-.
      exists m, tab. split; auto. split; auto. split; [|auto].
      exists y0, m0. split; auto. split; auto. right. split; auto. split; auto. left. exists p. split; auto. split; auto. exists ct, rows. auto.
    + inversion H3; subst. exists m, [(y0, m0)]. split; auto. split; auto. split; [|auto].
      exists y0, m0. split; auto. split; auto. right. split; auto.
Qed.

Lemma processing_list : forall cf pro, processing_build (AR := AR) cf = Ok pro -> processing_listed cf pro.
Proof.
  intros cf pro H. pose proof H as H0. unfold processing_build in H. apply bind_ok in H. destruct H as (b & T1 & H).
  destruct (cf_processing_jobs cf) as [| |l] eqn:E; [discriminate| |]; injection T1 as <-.
  - injection H as <-. right. split; auto. rewrite E. now left.
  - destruct l as [|n l]; [injection H as <-; right; split; auto; rewrite E; now right|].
    change (append_jobs [] (n :: l) = Ok pro) in H. destruct (append_inv _ _ _ H) as [(js & F & Q)|(_ & Q)]; [|discriminate]. injection Q as ->. cbn [app].
    left. exists (n :: l). split; [split; [exact E|discriminate]|exact F].
Qed.

Theorem C139_proof : forall cf f c', run_config W cf f = (c', None) -> only_processing cf ->
  (forall l, cf_preprocessing_jobs cf = Given l -> ~ In "Retrieve_completeness_table"%string l) ->
  exists p d ss', cf_result_file cf = Given p /\ cx_files c' p = Some (w_xml_print W d) /\
    computed W cf f ss' /\ write_doc (w_str_float W) (w_xml_ok W) ss' = Ok d.
Proof.
  intros cf f c' H OP NR. unfold run_config in H. destruct (bind _ _) as [((pre, pro), flt)|e] eqn:B in H; [|discriminate].
  apply bind_ok in B. destruct B as (pre' & B1 & B). apply bind_ok in B. destruct B as (pro' & B2 & B).
  apply bind_ok in B. destruct B as (flt' & B3 & B). injection B as -> -> ->.
  destruct (start W pre pro flt (init_context cf f)) as (c1, [e|]) eqn:P; [discriminate|].
  assert (PJ := names_processing _ _ B2 OP).
  destruct (C65_proof W pre pro flt _ _ PJ P) as (c0 & ST & ALT).
  destruct (preparation_steps cf f pre c0 B1 ST NR) as (es & m & w & tab & CR & MR & PP & W0 & T0 & C0).
  destruct (initial W cf f pre c0 B1 ST) as (ss & I & S0).
  assert (Z : zones W cf f ss flt).
  { unfold choose_filter in B3. apply bind_ok in B3. destruct B3 as (b & TR & B3). injection B3 as <-.
    destruct I as [(SR & NE)|(U & ->)].
    - left. split; auto. split; auto. destruct SR as (p & ct & d & SM & PN & _). rewrite SM in TR. cbn in TR. destruct p; [contradiction|].
      injection TR as <-. reflexivity.
    - right. split; auto. split; auto. destruct U as [U|U]; rewrite U in TR; injection TR as <-; reflexivity. }
  pose proof (start_keeps _ _ _ _ _ _ _ P) as (K & _). cbn in K.
  unfold write_result in H. apply finish_ok in H.
  apply bind_ok in H. destruct H as (p & L & H). unfold lookup_file in L. rewrite K in L. destruct (cf_result_file cf) as [| |p'] eqn:R; try discriminate. injection L as ->.
  apply bind_ok in H. destruct H as (? & _ & H). apply bind_ok in H. destruct H as (ss' & S1 & H). apply have_ok in S1.
  apply bind_ok in H. destruct H as (d & WD & H). apply bind_ok in H. destruct H as (? & _ & H). injection H as <-.
  exists p, d, ss'. split; auto. split; [cbn; apply write_file_same|]. split; auto.
  exists es, m, w, tab, ss, flt. split; auto. split; auto. split; auto. split; auto.
  destruct ALT as [(A & E)|(u & s0 & w0 & s1 & A & S2 & W1 & S3 & _ & F)].
  - left. rewrite C0 in A. subst c1. split; auto. congruence.
  - right. exists u, pro. rewrite C0 in A. split; auto. split; [now apply processing_list|].
    rewrite S0 in S2. injection S2 as <-. rewrite S1 in S3. injection S3 as <-.
    destruct ss as [|s ss]; [inversion F; subst; constructor|].
    rewrite W0 in W1. assert (E : Some w = Some w0) by (apply W1; discriminate). injection E as <-.
    rewrite C0, T0 in F. clear - F. induction F as [|a b l l' (eqs & X1 & X2 & _) F IH]; constructor; eauto.
Qed.
End WholeProofs.
