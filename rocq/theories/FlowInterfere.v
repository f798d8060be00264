(** Two runs of the same configuration with different source model files. *)
From Coq Require Import ZArith Bool Ascii String List Lia.
From Verif Require Import Base Ops BaseFacts CatUtil Decluster DeclusterSpec Completeness
  PyStr PyStrProofs EqCatalog SourceModel Nrml World CatalogFilter
  Recurrence MaxMag Jobs Workflow Main FlowSpec FlowPipe FlowFiles FlowPre.
Import ListNotations.
Local Open Scope nat_scope.
Local Open Scope res_scope.

Section Interfere.
Context {AR : Ops}.
Variable W : world AR.
Variable sm : text.

(** Contexts that agree on everything but the sources and the source model file. *)
Definition agree (c d : context AR) : Prop :=
  cx_config d = cx_config c /\ cx_eq_catalog d = cx_eq_catalog c /\ cx_matrix d = cx_matrix c /\
  cx_working d = cx_working c /\ cx_flag d = cx_flag c /\ cx_vcl d = cx_vcl c /\ cx_table d = cx_table c /\
  cx_selected d = cx_selected c /\ cx_cur d = cx_cur c /\ cx_filtered d = cx_filtered c /\
  forall q, q <> sm -> cx_files d q = cx_files c q.

Ltac unb2 := repeat match goal with
  | H : bind _ _ = Ok _ |- _ => apply bind_ok in H; destruct H as (? & ? & H)
  | H : Ok _ = Ok _ |- _ => injection H as <-
  | p : (_ * _)%type |- _ => destruct p
  end.
Ltac same := repeat match goal with
  | H : ?a = Ok ?x, K : ?a = Ok ?y |- _ => rewrite H in K; injection K; clear K; intros; subst
  end.

Lemma write_agree : forall p ct (f g : files), (forall q, q <> sm -> g q = f q) ->
  forall q, q <> sm -> write_file p ct g q = write_file p ct f q.
Proof. intros p ct f g H q N. unfold write_file. destruct (text_eqb p q); auto. Qed.

Lemma open_agree : forall (f g : files) p, (forall q, q <> sm -> g q = f q) -> p <> sm -> open_read g p = open_read f p.
Proof. intros f g p H N. unfold open_read. now rewrite H. Qed.

Lemma lookup_given : forall e v p, lookup_file e v = Ok p -> v = Given p.
Proof. intros e [| |q] p H; try discriminate. now injection H as ->. Qed.

Lemma job_agree : forall j c d c' d', cf_eq_catalog_file (cx_config c) <> Given sm -> cf_completeness_table_file (cx_config c) <> Given sm ->
  agree c d -> run_job W j c = (c', None) -> run_job W j d = (d', None) -> agree c' d'.
Proof.
  intros j c d c' d' NE NT (A1 & A2 & A3 & A4 & A5 & A6 & A7 & A8 & A9 & A10 & A11) H K.
  destruct j; cbn [run_job] in H, K.
  - apply finish_ok in H, K. unb2. rewrite A1 in *. same. match goal with L : lookup_file _ _ = Ok _ |- _ => pose proof (lookup_given _ _ _ L) end.
    rewrite (open_agree (cx_files c) (cx_files d)) in *; auto; [|congruence]. same.
    unfold agree; cbn; auto 20.
  - unfold read_source_model in H, K.
    assert (S1 : forall o (x : context AR), agree x (set_sms o x)) by (intros; unfold agree; cbn; auto 20).
    assert (HC : exists o, c' = set_sms o c).
    { destruct (bind _ _) as [ct|] in H; [|discriminate]. destruct (w_xml_parse W ct) as [dd|]; [|discriminate]. destruct (read_doc _ dd) as (ss, y).
      destruct y; [discriminate|]. destruct ss as [|s ss].
      - exists (cx_sms c). destruct (cx_sms c) eqn:E; [|discriminate]. injection H as <-. destruct c; cbn in *. now subst.
      - exists (Some (s :: ss)). cbn in H. now injection H as <-. }
    assert (KC : exists o, d' = set_sms o d).
    { destruct (bind _ _) as [ct|] in K; [|discriminate]. destruct (w_xml_parse W ct) as [dd|]; [|discriminate]. destruct (read_doc _ dd) as (ss, y).
      destruct y; [discriminate|]. destruct ss as [|s ss].
      - exists (cx_sms d). destruct (cx_sms d) eqn:E; [|discriminate]. injection K as <-. destruct d; cbn in *. now subst.
      - exists (Some (s :: ss)). cbn in K. now injection K as <-. }
    destruct HC as (o & ->). destruct KC as (o' & ->). unfold agree; cbn; auto 20.
  - unfold create_default_source_model in H, K. injection H as <-. injection K as <-. unfold agree; cbn; auto 20.
  - apply finish_ok in H, K. unb2. rewrite A2 in *. same. unfold agree; cbn; auto 20.
  - unfold create_default_values in H, K. rewrite A4 in K. destruct (cx_working c) as [w|] eqn:EW; [|discriminate].
    apply finish_ok in H, K. unb2. same. unfold agree; cbn. rewrite EW. auto 20.
  - apply finish_ok in H, K. unb2. rewrite A1, A4 in *. same. unfold agree; cbn; auto 20.
  - apply finish_ok in H, K. unb2. rewrite A1, A3 in *. same. unfold agree; cbn; auto 20.
  - apply finish_ok in H, K. unb2. rewrite A1, A4 in *. same. unfold agree; cbn; auto 20.
  - apply finish_ok in H, K. unb2. unfold update_cur in H, K. unb2.
    destruct (nth_error _ _) in H; [|discriminate]. destruct (nth_error _ _) in K; [|discriminate]. unb2. unfold agree; cbn; auto 20.
  - apply finish_ok in H, K. unb2. rewrite A3, A5, A7 in *. same. unfold agree; cbn; auto 20.
  - apply finish_ok in H, K. unb2. rewrite A1, A2, A8 in *. same. unfold agree; cbn. repeat (split; auto). now apply write_agree.
  - apply finish_ok in H, K. unb2. rewrite A1, A7 in *. same. unfold agree; cbn. repeat (split; auto). now apply write_agree.
  - apply finish_ok in H, K. unb2. rewrite A1 in *. same. match goal with L : lookup_file _ _ = Ok _ |- _ => pose proof (lookup_given _ _ _ L) end.
    rewrite (open_agree (cx_files c) (cx_files d)) in *; auto; [|congruence]. same. unfold agree; cbn; auto 20.
  - apply finish_ok in H, K. unb2. unfold update_cur in H, K. unb2.
    destruct (nth_error _ _) in H; [|discriminate]. destruct (nth_error _ _) in K; [|discriminate]. unb2. unfold agree; cbn; auto 20.
Qed.

Lemma steps_agree : forall js c d c' d', cf_eq_catalog_file (cx_config c) <> Given sm -> cf_completeness_table_file (cx_config c) <> Given sm ->
  agree c d -> steps W js c c' -> steps W js d d' -> agree c' d'.
Proof.
  intros js c d c' d' NE NT A H. revert d A. induction H as [c|j js c c1 c2 R H IH]; intros d A K; inversion K; subst; auto.
  match goal with R2 : run_job W j d = (_, None) |- _ => pose proof (job_agree _ _ _ _ _ NE NT A R R2) as A' end. pose proof (job_keeps W _ _ _ _ R) as (KC & _).
  eapply IH; eauto; now rewrite KC.
Qed.

(** The sources after preprocessing are those of the file. *)
Lemma sources_kept : forall cf f pre c ss, preprocessing_build cf = Ok pre -> sources_read W cf f ss ->
  steps W pre (init_context cf f) c -> cx_sms c = Some ss.
Proof.
  intros cf f pre c ss B (p & ct & d & SM & NE & FP & XP & RD) H.
  destruct (build_shape cf pre B) as (sj & js & tail & SJ & -> & F & K).
  destruct (tail_ok cf js tail F K) as (N1 & _).
  apply steps_split in H. destruct H as (c1 & H1 & H2).
  pose proof (base_state W cf f sj c1 SJ H1) as (es & m & y0 & m0 & _ & _ & _ & _ & _ & _ & _ & _ & _ & _ & _ & CU & _).
  apply named_steps in H2; auto. destruct H2 as (_ & _ & _ & _ & _ & H2). rewrite (H2 CU). clear H2 CU.
  assert (sj = J_read_source_model).
  { inversion SJ as [v _|v U]; auto. subst. destruct U as [U|U]; rewrite U in SM; [discriminate|]. injection SM as <-. contradiction. }
  subst sj.
  inversion H1 as [|? ? ? a1 ? R1 H2]; subst. inversion H2 as [|? ? ? a2 ? R2 H3]; subst.
  inversion H3 as [|? ? ? a3 ? R3 H4]; subst. inversion H4 as [|? ? ? a4 ? R4 H5]; subst. inversion H5; subst. clear H1 H2 H3 H4 H5.
  cbn [run_job] in R1. apply finish_ok in R1. unb2.
  cbn [run_job] in R2. unfold read_source_model in R2.
  match type of R2 with context [lookup_file TypeError ?v] => change v with (cf_source_model_file cf) in R2 end.
  rewrite SM in R2. cbn [lookup_file bind] in R2. unfold open_read in R2.
  match type of R2 with context [cx_files ?v] => change (cx_files v) with f in R2 end.
  rewrite FP, XP, RD in R2. destruct ss as [|s ss]; cbn in R2; [discriminate|]. injection R2 as <-.
  cbn [run_job] in R3. apply finish_ok in R3. unb2.
  cbn [run_job] in R4. unfold create_default_values in R4. cbn in R4. apply finish_ok in R4. unb2. reflexivity.
Qed.

(** C66 for whole runs. *)
Theorem C66_run_proof : forall cf f1 f2 ss1 ss2 i j s c1 c2,
  only_processing cf -> cf_source_model_file cf = Given sm ->
  cf_eq_catalog_file cf <> Given sm -> cf_completeness_table_file cf <> Given sm ->
  (forall q, q <> sm -> f2 q = f1 q) ->
  sources_read W cf f1 ss1 -> sources_read W cf f2 ss2 ->
  run_config W cf f1 = (c1, None) -> run_config W cf f2 = (c2, None) ->
  nth_error ss1 i = Some s -> nth_error ss2 j = Some s ->
  exists ss1' ss2' s', cx_sms c1 = Some ss1' /\ cx_sms c2 = Some ss2' /\
    length ss1' = length ss1 /\ length ss2' = length ss2 /\
    nth_error ss1' i = Some s' /\ nth_error ss2' j = Some s'.
Proof.
  intros cf f1 f2 ss1 ss2 i j s c1 c2 OP SM NE NT EF SR1 SR2 H1 H2 N1 N2.
  unfold run_config in H1, H2. destruct (bind _ _) as [((pre, pro), flt)|e] eqn:B in H1; [|discriminate].
  rewrite B in H2. apply bind_ok in B. destruct B as (pre' & B1 & B). apply bind_ok in B. destruct B as (pro' & B2 & B).
  apply bind_ok in B. destruct B as (flt' & B3 & B). injection B as -> -> ->.
  destruct (start W pre pro flt (init_context cf f1)) as (a1, [e|]) eqn:P1; [discriminate|].
  destruct (start W pre pro flt (init_context cf f2)) as (a2, [e|]) eqn:P2; [discriminate|].
  assert (WR : forall a c : context AR, write_result W a = (c, None) -> cx_sms c = cx_sms a).
  { intros a c H. apply finish_ok in H. unb2. reflexivity. }
  rewrite (WR _ _ H1), (WR _ _ H2). clear H1 H2 WR.
  pose proof (names_processing _ _ B2 OP) as PJ.
  destruct (C65_proof W pre pro flt _ _ PJ P1) as (d1 & S1 & ALT1). destruct (C65_proof W pre pro flt _ _ PJ P2) as (d2 & S2 & ALT2).
  pose proof (sources_kept _ _ _ _ _ B1 SR1 S1) as K1. pose proof (sources_kept _ _ _ _ _ B1 SR2 S2) as K2.
  assert (AG : agree d1 d2).
  { eapply steps_agree; [| | |exact S1|exact S2]; auto. unfold agree. cbn. auto 20. }
  destruct AG as (A1 & _ & _ & A4 & _ & _ & A7 & _).
  destruct (C66_proof W pre pre pro flt _ _ d1 d2 a1 a2 ss1 ss2 i j s PJ S1 S2 P1 P2) as (l1 & l2 & s' & L1 & L2 & M1 & M2); auto.
  exists l1, l2, s'. split; auto. split; auto.
  assert (LN : forall d a ss l, cx_sms d = Some ss -> cx_sms a = Some l ->
    (cf_apply_processing_jobs (cx_config d) = Null /\ a = d) \/
     (exists u ss w ss', cf_apply_processing_jobs (cx_config d) = Given u /\ cx_sms d = Some ss /\ (ss <> [] -> cx_working d = Some w) /\
       cx_sms a = Some ss' /\ only_sources d a /\
       Forall2 (fun s s' => exists eqs, events_of W flt s w eqs /\
         processed W (cx_config d) (cx_table d) eqs pro s s' /\ same_but_rates s s') ss ss') -> length l = length ss).
  { intros d a ss l X Y [(_ & ->)|(u & ss0 & w & ss' & _ & X' & _ & Y' & _ & F)]; [congruence|].
    rewrite X in X'. injection X' as <-. rewrite Y in Y'. injection Y' as <-. clear - F. induction F; cbn; congruence. }
  split; [eapply (LN d1 a1); eauto|]. split; [eapply (LN d2 a2); eauto|]. auto.
Qed.

End Interfere.
