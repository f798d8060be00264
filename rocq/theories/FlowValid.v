(** The sources of a successful run, up to their rates. *)
From Coq Require Import ZArith Bool Ascii String List Lia.
From Verif Require Import Base Ops BaseFacts PyStr SourceModel Nrml NrmlSpec NrmlRound NrmlFinal NrmlSchema NrmlValid3 NrmlValid5 World CatalogFilter
  Jobs Workflow Main FlowSpec FlowPipe FlowFiles FlowPre.
Import ListNotations.
Local Open Scope nat_scope.
Local Open Scope res_scope.

Section FlowValid.
Context {AR : Ops}.
Variable W : world AR.

Lemma rates_refl : forall s : area_source AR, same_but_rates s s.
Proof. exact set_rates_self. Qed.
Lemma rates_trans : forall a b c : area_source AR, same_but_rates a b -> same_but_rates b c -> same_but_rates a c.
Proof.
  intros a b c (a1 & b1 & c1 & d1 & e1 & f1 & g1 & ->) (a2 & b2 & c2 & d2 & e2 & f2 & g2 & ->).
  exists a2, b2, c2, d2, e2, f2, g2. reflexivity.
Qed.

Definition kin (l l' : list (area_source AR)) : Prop := Forall2 same_but_rates l l'.
Lemma kin_refl : forall l, kin l l.
Proof. intros l. induction l; constructor; auto using rates_refl. Qed.
Lemma kin_trans : forall a b c, kin a b -> kin b c -> kin a c.
Proof.
  intros a b c H. revert c. induction H as [|x y l l' A H IH]; intros c K; inversion K; subst; constructor; eauto using rates_trans.
  now apply IH.
Qed.
Lemma kin_set : forall l i s s', nth_error l i = Some s -> same_but_rates s s' -> kin l (set_nth i s' l).
Proof.
  induction l as [|x l IH]; intros [|i] s s' N R; cbn in *; try discriminate.
  - injection N as ->. constructor; auto. apply kin_refl.
  - constructor; [apply rates_refl|eapply IH; eauto].
Qed.

(** Every job that can be named keeps the sources, up to the rates. *)
Definition kept (c c' : context AR) : Prop := forall ss, cx_sms c = Some ss -> exists ss', cx_sms c' = Some ss' /\ kin ss ss'.

Lemma kept_refl : forall c, kept c c.
Proof. intros c ss E. exists ss. split; auto. apply kin_refl. Qed.
Lemma kept_trans : forall a b c, kept a b -> kept b c -> kept a c.
Proof. intros a b c H K ss E. destruct (H ss E) as (s1 & E1 & K1). destruct (K s1 E1) as (s2 & E2 & K2). exists s2. split; auto. eapply kin_trans; eauto. Qed.

Ltac unb := repeat match goal with
  | H : bind _ _ = Ok _ |- _ => apply bind_ok in H; destruct H as (? & ? & H)
  | H : Ok _ = Ok _ |- _ => injection H as <-
  | p : (_ * _)%type |- _ => destruct p
  end.

Lemma update_kept : forall (c c' : context AR) g, (forall s, same_but_rates s (g s)) -> update_cur c g = Ok c' -> kept c c'.
Proof.
  intros c c' g G H ss E. unfold update_cur in H. unb. rewrite E in *.
  match goal with K : have _ (Some ss) = Ok _ |- _ => injection K as <- end.
  destruct (nth_error ss _) as [s|] eqn:N; [|discriminate]. injection H as <-. eexists. split; [reflexivity|]. eapply kin_set; eauto.
Qed.

Lemma job_kept : forall j c c', nameable j -> run_job W j c = (c', None) -> kept c c'.
Proof.
  intros j c c' (n & N) H. destruct N; cbn [run_job] in H; apply finish_ok in H; unb; try (intros ss E; exists ss; split; [exact E|apply kin_refl]).
  - eapply update_kept; [|exact H]. intros s. unfold apply_recurrence. do 7 eexists. reflexivity.
  - eapply update_kept; [|exact H]. intros s. unfold apply_maximum_magnitude. do 7 eexists. reflexivity.
Qed.

Lemma steps_kept : forall js c c', Forall nameable js -> steps W js c c' -> kept c c'.
Proof.
  intros js c c' F H. induction H as [c|j js c c1 c2 R H IH]; [apply kept_refl|]. inversion F; subst.
  eapply kept_trans; [eapply job_kept; eauto|now apply IH].
Qed.

Lemma done_kept : forall flt js w i c c', Forall nameable js -> sources_done W flt js w i c c' -> kept c c'.
Proof.
  intros flt js w i c c' F H. induction H as [i c ss S0 L|i c c1 c2 ss0 s eqs S0 N E ST D IH]; [apply kept_refl|].
  eapply kept_trans; [|exact IH]. intros ss E'. apply (steps_kept _ _ _ F ST). exact E'.
Qed.

(** The sources a run starts from. *)
Lemma initial : forall cf f pre c, preprocessing_build cf = Ok pre -> steps W pre (init_context cf f) c ->
  exists ss, ((sources_read W cf f ss /\ ss <> []) \/ (file_unset (cf_source_model_file cf) /\ ss = [default_area_source])) /\ cx_sms c = Some ss.
Proof.
  intros cf f pre c B H.
  destruct (build_shape cf pre B) as (sj & js & tail & SJ & -> & F & K).
  destruct (tail_ok cf js tail F K) as (N1 & _).
  apply steps_split in H. destruct H as (c1 & H1 & H2).
  pose proof (base_state W cf f sj c1 SJ H1) as (es & m & y0 & m0 & _ & _ & _ & _ & _ & _ & _ & _ & _ & _ & _ & CU & _).
  apply named_steps in H2; auto. destruct H2 as (_ & _ & _ & _ & _ & H2). rewrite (H2 CU). clear H2 CU.
  inversion H1 as [|? ? ? a1 ? R1 H2]; subst. inversion H2 as [|? ? ? a2 ? R2 H3]; subst.
  inversion H3 as [|? ? ? a3 ? R3 H4]; subst. inversion H4 as [|? ? ? a4 ? R4 H5]; subst. inversion H5; subst. clear H1 H2 H3 H4 H5.
  cbn [run_job] in R1. apply finish_ok in R1. unb.
  assert (S2 : exists ss, ((sources_read W cf f ss /\ ss <> []) \/ (file_unset (cf_source_model_file cf) /\ ss = [default_area_source])) /\ cx_sms a2 = Some ss).
  { inversion SJ as [v FS|v U]; subst; cbn [run_job] in R2.
    - unfold read_source_model in R2. destruct FS as (p & SM & NE).
      match type of R2 with context [lookup_file TypeError ?v] => change v with (cf_source_model_file cf) in R2 end.
      rewrite SM in R2. cbn [lookup_file bind] in R2. unfold open_read in R2.
      match type of R2 with context [cx_files ?v] => change (cx_files v) with f in R2 end.
      destruct (f p) as [ct|] eqn:FP; [|discriminate]. destruct (w_xml_parse W ct) as [d|] eqn:XP; [|discriminate].
      destruct (read_doc (w_parse_float W) d) as (ss, y) eqn:RD. destruct y; [discriminate|]. destruct ss as [|s ss]; [discriminate|].
      cbn in R2. injection R2 as <-. exists (s :: ss). split; [|reflexivity]. left. split; [|discriminate]. exists p, ct, d. auto.
    - injection R2 as <-. exists [default_area_source]. split; [|reflexivity]. right. auto. }
  destruct S2 as (ss & S1 & S2). exists ss. split; auto.
  cbn [run_job] in R3. apply finish_ok in R3. unb.
  cbn [run_job] in R4. unfold create_default_values in R4. cbn in R4. apply finish_ok in R4. unb. exact S2.
Qed.

Theorem result_sources : forall cf f c', run_config W cf f = (c', None) ->
  exists p d ss ss', cf_result_file cf = Given p /\ cx_files c' p = Some (w_xml_print W d) /\
    ((sources_read W cf f ss /\ ss <> []) \/ (file_unset (cf_source_model_file cf) /\ ss = [default_area_source])) /\
    Forall2 same_but_rates ss ss' /\ write_doc (w_str_float W) (w_xml_ok W) ss' = Ok d.
Proof.
  intros cf f c' H. destruct (C72_success_proof W cf f c' H) as (pre & pro & flt & c1 & p & d & ss' & B & P & _ & WD & RF & S1 & WR & CF & _).
  assert (NP := processing_nameable _ _ P).
  assert (X : exists c0, steps W pre (init_context cf f) c0 /\ kept c0 c1).
  { inversion WD as [c0 ST A|c0 u ST A S0|c0 c2 u w ST A WK SD]; subst.
    - exists c1. split; auto. apply kept_refl.
    - exists c1. split; auto. apply kept_refl.
    - exists c0. split; auto. eapply done_kept; eauto. }
  destruct X as (c0 & ST & K). destruct (initial cf f pre c0 B ST) as (ss & I & S0).
  destruct (K ss S0) as (ss1 & S2 & KN). rewrite S1 in S2. injection S2 as <-.
  exists p, d, ss, ss'. auto.
Qed.

(** A run without a source model never writes a valid document: MTK is the id of everything. *)
Theorem default_invalid : prints_words (w_str_float W) -> forall indent, (forall n s, indent n = Some s -> blanks s) ->
  forall cf f c', run_config W cf f = (c', None) -> file_unset (cf_source_model_file cf) ->
  exists p d, cf_result_file cf = Given p /\ cx_files c' p = Some (w_xml_print W d) /\
    forall value : text -> option T, ~ valid_document value (reparsed indent 0 d).
Proof.
  intros SW indent IB cf f c' H U. destruct (result_sources cf f c' H) as (p & d & ss & ss' & RF & CF & I & K & WR).
  exists p, d. split; auto. split; auto. intros value V.
  assert (E : ss = [default_area_source]).
  { destruct I as [((q & ct & dc & SM & NE & _) & _)|(_ & E)]; auto. destruct U as [U|U]; rewrite U in SM; [discriminate|]. injection SM as <-. contradiction. }
  subst ss. inversion K as [|? s' ? l SB K']; subst. inversion K'; subst. destruct SB as (a & b & mn & mx & sb & sa & mm & ->).
  destruct (written_valid value _ _ indent SW IB _ _ WR) as (s0 & sl & E & l & L & WV). injection E as <- <-.
  apply WV in V. destruct V as (ND & _). cbn in L. destruct l as [|x [|y l]]; try discriminate. cbn [map] in L. injection L as -> -> _.
  inversion ND as [|? ? X _]; subst. apply X. now left.
Qed.

(** A run with a valid source model writes a valid document exactly when its numbers fit. *)
Theorem result_valid : prints_words (w_str_float W) -> forall indent, (forall n s, indent n = Some s -> blanks s) ->
  forall cf f c' q ct dc, run_config W cf f = (c', None) ->
  cf_source_model_file cf = Given q -> f q = Some ct -> w_xml_parse W ct = Some dc -> q <> [] ->
  valid_document (w_parse_float W) dc ->
  exists p d ss ss', cf_result_file cf = Given p /\ cx_files c' p = Some (w_xml_print W d) /\
    read_doc (w_parse_float W) dc = (ss, None) /\ Forall2 same_but_rates ss ss' /\
    write_doc (w_str_float W) (w_xml_ok W) ss' = Ok d /\
    (valid_document (w_parse_float W) (reparsed indent 0 d) <-> Forall (numbers_fit (w_parse_float W) (w_str_float W)) ss').
Proof.
  intros SW indent IB cf f c' q ct dc H SM FQ XP NE V. destruct (result_sources cf f c' H) as (p & d & ss & ss' & RF & CF & I & K & WR).
  destruct I as [((q' & ct' & dc' & SM' & _ & FQ' & XP' & RD) & _)|(U & _)].
  2:{ destruct U as [U|U]; rewrite U in SM; [discriminate|]. injection SM as <-. contradiction. }
  rewrite SM in SM'. injection SM' as <-. rewrite FQ in FQ'. injection FQ' as <-. rewrite XP in XP'. injection XP' as <-.
  exists p, d, ss, ss'. do 5 (split; auto). exact (kept_valid (w_parse_float W) (w_str_float W) (w_xml_ok W) indent SW IB dc ss ss' d V RD K WR).
Qed.

End FlowValid.
