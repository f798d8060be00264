(** Which values are ordered by the comparison, and what this says about the default values job
    and about runs without completeness analysis. *)
From Coq Require Import ZArith Bool Ascii String List Lia Reals Lra.
From Coq Require Import Floats.SpecFloat.
From Flocq Require Import IEEE754.BinarySingleNaN.
From Verif Require Import Base Ops BaseFacts RFacts FloatOps CatUtil Decluster DeclusterSpec
  PyStr PyStrProofs Csv CsvProofs EqCatalog EqCatSpec EqCatRow EqCatFile EqCatRound SourceModel Nrml World CatalogFilter
  Recurrence MaxMag Jobs Workflow Main FlowSpec FlowPipe FlowFiles FlowTable FlowPre FlowStore FlowTwoStep PyFloat PyNearest PyTexts.
From Coq Require Import List.
Import ListNotations.
Local Open Scope Z_scope.

(** Any reals. *)
Lemma R_ordered : forall l, @ordered_values ROps l.
Proof.
  intros l. unfold ordered_values. split; [|split]; rops.
  - intros a _. apply Rltb_false. lra.
  - intros a b _ _ H. apply Rltb_true in H. apply Rltb_false. lra.
  - intros a b c _ _ _ H K. apply Rltb_false in H, K. apply Rltb_false. lra.
Qed.

(** Any doubles but NaN: the comparison is lexicographic in sign, exponent and mantissa. *)
Definition code (x : spec_float) : Z * Z * Z :=
  match x with
  | S754_nan => (0, 0, 0)
  | S754_infinity true => (-2, 0, 0)
  | S754_finite true m e => (-1, - e, Zneg m)
  | S754_zero _ => (0, 0, 0)
  | S754_finite false m e => (1, e, Zpos m)
  | S754_infinity false => (2, 0, 0)
  end.
Definition lex (p q : Z * Z * Z) : Prop :=
  let '(a, b, c) := p in let '(a', b', c') := q in a < a' \/ (a = a' /\ (b < b' \/ (b = b' /\ c < c'))).

Lemma pos_compare : forall m m', Pcompare m m' Eq = (Zpos m ?= Zpos m').
Proof. reflexivity. Qed.

Lemma SFltb_lex : forall x y, x <> S754_nan -> y <> S754_nan -> (SFltb x y = true <-> lex (code x) (code y)).
Proof.
  intros x y NX NY. unfold SFltb, SFcompare.
  destruct x as [sx|sx| |sx mx ex]; try contradiction; destruct y as [sy|sy| |sy my ey]; try contradiction;
    destruct sx, sy; cbn [code lex]; try rewrite !pos_compare;
    try (split; intros H; try reflexivity; try discriminate H; exfalso; lia);
    try (split; intros H; [|reflexivity]; lia).
  - destruct (Z.compare_spec ex ey) as [E|E|E].
    + destruct (Z.compare_spec (Z.pos mx) (Z.pos my)) as [F|F|F]; cbn [CompOpp]; split; intros H; try discriminate H; try reflexivity; lia.
    + split; intros H; try discriminate H; lia.
    + split; intros H; try reflexivity; lia.
  - destruct (Z.compare_spec ex ey) as [E|E|E].
    + destruct (Z.compare_spec (Z.pos mx) (Z.pos my)) as [F|F|F]; split; intros H; try discriminate H; try reflexivity; lia.
    + split; intros H; try reflexivity; lia.
    + split; intros H; try discriminate H; lia.
Qed.

Lemma lex_irrefl : forall p, ~ lex p p.
Proof. intros ((a, b), c). cbn. lia. Qed.
Lemma lex_asym : forall p q, lex p q -> ~ lex q p.
Proof. intros ((a, b), c) ((a', b'), c'). cbn. lia. Qed.
Lemma lex_trans : forall p q r, ~ lex q p -> ~ lex r q -> ~ lex r p.
Proof. intros ((a, b), c) ((a', b'), c') ((a'', b''), c''). cbn. lia. Qed.

Lemma F_ordered : forall lm l, Forall (fun x => x <> S754_nan) l -> @ordered_values (FOps lm) l.
Proof.
  intros lm l H. rewrite Forall_forall in H.
  assert (K : forall x y, In x l -> In y l -> (SFltb x y = false <-> ~ lex (code x) (code y))).
  { intros x y I J. rewrite <- (SFltb_lex x y (H x I) (H y J)). destruct (SFltb x y); split; intros E; auto; try discriminate. now elim E. }
  unfold ordered_values. cbn [ltb FOps]. split; [|split].
  - intros a I. apply K; auto. apply lex_irrefl.
  - intros a b I J E. apply K; auto. apply lex_asym. apply SFltb_lex; auto.
  - intros a b c I J M E F. apply K; auto. apply K in E, F; auto. eapply lex_trans; eauto.
Qed.

Local Instance Hprec : FLX.Prec_gt_0 prec64 := eq_refl _.
Local Instance Hmax : Prec_lt_emax prec64 emax64 := eq_refl _.

Lemma F_ofZ_number : forall z, F_ofZ z <> S754_nan.
Proof.
  intros z H. unfold F_ofZ in H. rewrite normalize_equiv in H.
  pose proof (is_nan_binary_normalize prec64 emax64 Hprec Hmax mode_NE z 0 false) as N.
  match type of H with B2SF ?b = _ => change (is_nan b = false) in N; destruct b; try discriminate H; discriminate N end.
Qed.

(** The years of a catalogue that was read are whole numbers. *)
Lemma item_get : forall (AR : Ops) f (e : entry AR) v, entry_item f e = Ok v -> get (Some f) e = v.
Proof.
  intros AR f e v H. unfold entry_item in H. destruct (find _ e) as [kv|] eqn:F; [|discriminate]. injection H as <-.
  induction e as [|(k, x) e IH]; [discriminate|]. cbn [find fst] in F. cbn [get]. destruct (key_eqb (Some f) k); [now injection F as <-|auto].
Qed.

Section Order.
Context {AR : Ops}.
Variable W : world AR.
Hypothesis order_ok : rearranges (w_dict_order W).

Lemma read_years : forall cf f es m, catalogue_read W cf f es -> mapM matrix_row es = Ok m ->
  Forall (fun e => exists z, -10000 <= z <= w_now_year W /\ ev_year e = ofZ z) m.
Proof.
  intros cf f es m (p & ct & _ & _ & RD) MR. 
  assert (PD : Forall (fun e => exists line row, read_entry (w_parse_float W) (w_now_year W) (w_dict_order W) line row = Ok e) es).
  { destruct (C06_all_proof _ _ _ _ _ RD) as (_ & rows & _ & F). clear - F. induction F; constructor; eauto. }
  clear RD. rename PD into RD.
  revert m MR. induction RD as [|e es PE RD IH]; intros m MR; cbn [mapM] in MR; [injection MR as <-; constructor|].
  apply bind_ok in MR. destruct MR as (r & MR1 & MR). apply bind_ok in MR. destruct MR as (rs & MR2 & MR). injection MR as <-.
  constructor; auto. clear IH MR2.
  destruct PE as (line & row & RE). apply (C02_proof _ _ _ _ _ _ order_ok) in RE.
  destruct RE as ((_ & _ & (z & Y & YB) & _) & _). exists z. split; [exact YB|]. unfold matrix_row in MR1.
  apply bind_ok in MR1. destruct MR1 as (y & CY & MR1). apply bind_ok in CY. destruct CY as (v & IT & CY).
  apply item_get in IT. rewrite Y in IT. subst v. cbn in CY. injection CY as <-.
  repeat (apply bind_ok in MR1; destruct MR1 as (? & _ & MR1)). now injection MR1 as <-.
Qed.

Hypothesis years_ordered : forall l, Forall (fun x => exists z, x = ofZ z) l -> ordered_values l.

Lemma years_of : forall cf f es m, catalogue_read W cf f es -> mapM matrix_row es = Ok m -> ordered_values (map ev_year m).
Proof.
  intros cf f es m CR MR. apply years_ordered. pose proof (read_years cf f es m CR MR) as F. clear CR MR.
  induction F as [|e m (z & _ & E) F IH]; cbn [map]; constructor; eauto.
Qed.

Lemma picks_all : forall {A : Type} (P : A -> Prop) l l', picks P l l' -> (forall a, In a l -> P a) -> l' = l.
Proof.
  intros A P l l' H. induction H as [|a l l' Pa H IH|a l l' Pa H IH]; intros Q; auto.
  - f_equal. apply IH. intros b I. apply Q. now right.
  - elim Pa. apply Q. now left.
Qed.

Hypothesis argsort_ok : is_argsort (w_argsort W).
Hypothesis num_read : forall s x, w_parse_float W s = Some x ->
  w_parse_float W (w_repr_float W x) = Some x /\ ~ In chr_nul (w_repr_float W x).
Hypothesis num_zero : w_parse_float W (w_repr_float W (ofZ 0)) = Some (ofZ 0) /\ ~ In chr_nul (w_repr_float W (ofZ 0)).
Hypothesis parse_empty : w_parse_float W [] = None.

(** C70 without completeness analysis: the stored catalogue is the one that was used, so all
    processing gives the same. *)
Lemma C70_declustered_core : forall cf1 cf2 f l p pt c1 g,
  restarts cf1 cf2 p pt -> same_processing cf1 cf2 -> cf_mm cf2 = cf_mm cf1 -> only_processing cf1 ->
  jobs_set (cf_preprocessing_jobs cf1) l -> gk_first l ->
  ~ In "Stepp"%string l -> ~ In "Retrieve_completeness_table"%string l ->
  run_config W cf1 f = (c1, None) ->
  (forall q, q = p \/ q = pt \/ cf_source_model_file cf1 = Given q -> g q = cx_files c1 q) ->
  cf_result_file cf1 <> Given p -> cf_result_file cf1 <> Given pt -> cf_result_file cf1 <> cf_source_model_file cf1 ->
  (forall es, catalogue_read W cf1 f es -> Forall ellipse_consistent es) ->
  (forall w, cx_working c1 = Some w -> w <> []) ->
  (forall es m y0 m0, cx_table c1 = Some [(y0, m0)] -> catalogue_read W cf1 f es -> mapM matrix_row es = Ok m ->
     minv (map ev_year m) = Ok y0 -> minv (map ev_mw m) = Ok m0 -> stored5 y0 = y0 /\ stored5 m0 = m0) ->
  exists c2 rf, run_config W cf2 g = (c2, None) /\ cf_result_file cf1 = Given rf /\
    cx_sms c2 = cx_sms c1 /\ cx_files c2 rf = cx_files c1 rf.
Proof.
  intros cf1 cf2 f l p pt c1 g RS SP EM OP JS G N1 N2 H EG NR1 NR2 NR3 EL WN T5.
  eapply (C70_complete_proof W argsort_ok order_ok num_read num_zero parse_empty); eauto.
  (* the table of the run *)
  assert (K : exists y0 m0 m es w fl, cx_table c1 = Some [(y0, m0)] /\ catalogue_read W cf1 f es /\ mapM matrix_row es = Ok m /\ minv (map ev_year m) = Ok y0 /\ minv (map ev_mw m) = Ok m0 /\
    cx_working c1 = Some w /\ cx_flag c1 = Some fl /\ unflagged m fl w).
  { unfold run_config in H. destruct (bind _ _) as [((pre, pro), flt)|e] eqn:B in H; [|discriminate].
    apply bind_ok in B. destruct B as (pre' & B1 & B). apply bind_ok in B. destruct B as (pro' & B2 & B).
    apply bind_ok in B. destruct B as (flt' & B3 & B). injection B as -> -> ->.
    destruct (start W pre pro flt (init_context cf1 f)) as (ca, [e|]) eqn:P; [discriminate|].
    pose proof (names_processing cf1 pro B2 OP) as PJ.
    destruct (C65_proof W pre pro flt _ _ PJ P) as (cb & ST & ALT).
    assert (FR : only_sources cb ca) by (destruct ALT as [(_ & ->)|(? & ? & ? & ? & _ & _ & _ & _ & F & _)]; [unfold only_sources; auto 10|exact F]).
    destruct FR as (F1 & F2 & F3 & F4 & F5 & F6 & F7).
    unfold write_result in H. apply finish_ok in H. repeat (apply bind_ok in H; destruct H as (? & _ & H)). injection H as <-. cbn [cx_table cx_working cx_flag set_files].
    rewrite F4, F5, F6. pose proof RS as (Q1 & Q2 & Q3 & Q4 & Q5 & _).
    destruct (storing_run W argsort_ok cf1 f pre l p cb B1 JS G Q1 Q2 ltac:(congruence) ST) as
      (sj & js & c0 & es & m & w & flag & tab & kept & content & pt' & SJ & FN & H0 & (cj & Hj & Tj & Sj) & CR & MR & E1 & M1 & W1 & FL1 & UF & T1 & _).
    destruct (base_state W cf1 f sj c0 SJ H0) as (es0 & m' & y0 & m0 & CR0 & E0 & MR0 & _ & M0 & _ & _ & MY & MM & T0 & _).
    rewrite (table_steps _ W l js c0 cj FN N1 N2 Hj), T0 in Tj. injection Tj as <-.
    assert (m' = m).
    { assert (es0 = es); [|congruence].
      destruct CR as (p1 & t1 & A1 & A2 & A3). destruct CR0 as (p2 & t2 & B1' & B2' & B3'). congruence. }
    subst m'. exists y0, m0, m, es, w, flag. auto 12. }
  destruct K as (y0 & m0 & m & es & w & fl & T0 & CR & MR & MY & MM & W0 & F0 & UF).
  intros es' m' fl' kept tab w' CR' MR' F0' T0' W0' TS.
  assert (es' = es) by (destruct CR as (p1 & t1 & A1 & A2 & A3); destruct CR' as (p2 & t2 & B1' & B2' & B3'); congruence). subst es'.
  assert (m' = m) by congruence. assert (fl' = fl) by congruence. assert (w' = w) by congruence. subst m' fl' w'.
  rewrite T0 in T0'. injection T0' as <-.
  pose proof (years_of cf1 f es m CR MR) as OV.
  assert (CP : forall e, In e m -> complete [(y0, m0)] e) by (intros e I; eapply default_complete; eauto).
  assert (IW : incl w m).
  { clear - UF. induction UF; intros x I; auto; [destruct I as [<-|I]; [now left|right; auto]|right; auto]. }
  destruct (stored_rows _ es m fl kept w TS MR UF) as (m2 & M2 & PK).
  apply picks_all in PK; [|auto]. subst m2.
  split.
  { intros ->. cbn in M2. injection M2 as <-. now apply (WN []). }
  split; [discriminate|]. split.
  { pose proof (to_store_incl _ _ _ _ _ TS) as IK. specialize (EL es CR). rewrite Forall_forall in *. auto. }
  split; [|auto]. constructor; [eapply T5; eauto|constructor].
Qed.

Theorem C70_declustered_proof : forall cf1 cf2 f l p pt c1 g,
  restarts cf1 cf2 p pt -> same_processing cf1 cf2 -> cf_mm cf2 = cf_mm cf1 -> only_processing cf1 ->
  jobs_set (cf_preprocessing_jobs cf1) l -> gk_first l ->
  ~ In "Stepp"%string l -> ~ In "Retrieve_completeness_table"%string l ->
  run_config W cf1 f = (c1, None) ->
  (forall q, q = p \/ q = pt \/ cf_source_model_file cf1 = Given q -> g q = cx_files c1 q) ->
  cf_result_file cf1 <> Given p -> cf_result_file cf1 <> Given pt -> cf_result_file cf1 <> cf_source_model_file cf1 ->
  (forall es, catalogue_read W cf1 f es -> Forall ellipse_consistent es) ->
  (forall w, cx_working c1 = Some w -> w <> []) ->
  (forall y0 m0, cx_table c1 = Some [(y0, m0)] -> stored5 y0 = y0 /\ stored5 m0 = m0) ->
  exists c2 rf, run_config W cf2 g = (c2, None) /\ cf_result_file cf1 = Given rf /\
    cx_sms c2 = cx_sms c1 /\ cx_files c2 rf = cx_files c1 rf.
Proof.
  intros cf1 cf2 f l p pt c1 g RS SP EM OP JS G N1 N2 H EG NR1 NR2 NR3 EL WN T5.
  eapply (C70_declustered_core cf1 cf2 f l p pt c1 g); eauto.
Qed.
End Order.

(** ** The two arithmetics *)

Lemma R_years : forall l, Forall (fun x : @T ROps => exists z, x = ofZ z) l -> ordered_values l.
Proof. intros l _. apply R_ordered. Qed.
Lemma F_years : forall lm l, Forall (fun x : @T (FOps lm) => exists z, x = ofZ z) l -> ordered_values l.
Proof. intros lm l H. apply F_ordered. eapply Forall_impl; [|exact H]. cbn. intros x (z & ->). apply F_ofZ_number. Qed.

(** C74 for doubles. *)
Theorem C74_float_proof : forall lm (W : world (FOps lm)), rearranges (w_dict_order W) ->
  forall cf f sj c, source_job (cf_source_model_file cf) sj ->
  steps W [J_read_eq_catalog; sj; J_create_catalog_matrix; J_create_default_values] (init_context cf f) c ->
  exists m y0 m0, m <> [] /\ cx_matrix c = Some m /\ cx_table c = Some [(y0, m0)] /\
    In y0 (map ev_year m) /\ (forall e, In e m -> @ltb (FOps lm) (ev_year e) y0 = false) /\ (forall e, In e m -> complete [(y0, m0)] e) /\
    ((forall e, In e m -> ev_mw e <> S754_nan) -> In m0 (map ev_mw m) /\ forall e, In e m -> @ltb (FOps lm) (ev_mw e) m0 = false).
Proof.
  intros lm W OK cf f sj c SJ H. destruct (C74_proof _ W cf f sj c SJ H) as (m & y0 & m0 & NE & M1 & _ & _ & T1 & Y & M).
  destruct (base_state W cf f sj c SJ H) as (es & m' & _ & _ & CR & _ & MR & _ & M1' & _).
  assert (m' = m) by congruence. subst m'.
  destruct (Y (years_of W OK (F_years lm) cf f es m CR MR)) as (Y1 & Y2 & Y3).
  exists m, y0, m0. split; auto. split; auto. split; auto. split; auto. split; auto. split; auto.
  intros NN. apply M. apply F_ordered. apply Forall_forall. intros x I.
  apply in_map_iff in I. destruct I as (e & <- & I). now apply NN.
Qed.

(** C74 over the reals. *)
Theorem C74_real_proof : forall (W : world ROps) cf f sj c, source_job (cf_source_model_file cf) sj ->
  steps W [J_read_eq_catalog; sj; J_create_catalog_matrix; J_create_default_values] (init_context cf f) c ->
  exists m y0 m0, m <> [] /\ cx_matrix c = Some m /\ cx_table c = Some [(y0, m0)] /\
    (In y0 (map ev_year m) /\ forall e, In e m -> (y0 <= ev_year e)%R) /\
    (In m0 (map ev_mw m) /\ forall e, In e m -> (m0 <= ev_mw e)%R) /\
    forall e, In e m -> complete [(y0, m0)] e.
Proof.
  intros W cf f sj c SJ H. destruct (C74_proof _ W cf f sj c SJ H) as (m & y0 & m0 & NE & M1 & _ & _ & T1 & Y & M).
  destruct (Y (R_ordered _)) as (Y1 & Y2 & Y3). destruct (M (R_ordered _)) as (Z1 & Z2).
  exists m, y0, m0. repeat (split; auto).
  - intros e I. specialize (Y2 e I). apply Rltb_false in Y2. exact Y2.
  - intros e I. specialize (Z2 e I). apply Rltb_false in Z2. exact Z2.
Qed.

(** C70 for doubles read and written by float() and repr(). *)
Definition cpython_numbers {lm : libm} (W : world (FOps lm)) : Prop :=
  w_parse_float W = py_float /\ w_repr_float W = py_repr.

Theorem C70_declustered_float_proof : forall lm (W : world (FOps lm)), cpython_numbers W ->
  is_argsort (w_argsort W) -> rearranges (w_dict_order W) ->
  forall cf1 cf2 f l p pt c1 g,
  restarts cf1 cf2 p pt -> same_processing cf1 cf2 -> cf_mm cf2 = cf_mm cf1 -> only_processing cf1 ->
  jobs_set (cf_preprocessing_jobs cf1) l -> gk_first l ->
  ~ In "Stepp"%string l -> ~ In "Retrieve_completeness_table"%string l ->
  run_config W cf1 f = (c1, None) ->
  (forall q, q = p \/ q = pt \/ cf_source_model_file cf1 = Given q -> g q = cx_files c1 q) ->
  cf_result_file cf1 <> Given p -> cf_result_file cf1 <> Given pt -> cf_result_file cf1 <> cf_source_model_file cf1 ->
  (forall es, catalogue_read W cf1 f es -> Forall ellipse_consistent es) ->
  (forall w, cx_working c1 = Some w -> w <> []) ->
  (forall y0 m0, cx_table c1 = Some [(y0, m0)] -> @stored5 (FOps lm) y0 = y0 /\ @stored5 (FOps lm) m0 = m0) ->
  exists c2 rf, run_config W cf2 g = (c2, None) /\ cf_result_file cf1 = Given rf /\
    cx_sms c2 = cx_sms c1 /\ cx_files c2 rf = cx_files c1 rf.
Proof.
  intros lm W (P & R) A Or. apply C70_declustered_proof; auto.
  - apply F_years.
  - rewrite P, R. exact py_num_read.
  - rewrite P, R. exact (py_num_zero lm).
  - rewrite P. reflexivity.
Qed.

Theorem C70_float_proof : forall lm (W : world (FOps lm)), cpython_numbers W ->
  is_argsort (w_argsort W) -> rearranges (w_dict_order W) ->
  forall cf1 cf2 f l p pt c1 g,
  restarts cf1 cf2 p pt -> same_processing cf1 cf2 -> only_mle cf1 ->
  jobs_set (cf_preprocessing_jobs cf1) l -> gk_first l ->
  run_config W cf1 f = (c1, None) ->
  (forall q, q = p \/ q = pt \/ cf_source_model_file cf1 = Given q -> g q = cx_files c1 q) ->
  cf_result_file cf1 <> Given p -> cf_result_file cf1 <> Given pt -> cf_result_file cf1 <> cf_source_model_file cf1 ->
  (forall es m flag kept tab w, catalogue_read W cf1 f es -> mapM matrix_row es = Ok m -> cx_flag c1 = Some flag ->
     cx_table c1 = Some tab -> cx_working c1 = Some w -> to_store tab es m flag kept ->
     kept <> [] /\ tab <> [] /\ Forall ellipse_consistent kept /\
     Forall (fun r => @stored5 (FOps lm) (fst r) = fst r /\ @stored5 (FOps lm) (snd r) = snd r) tab /\
     (forall e, In e w -> counted tab e -> complete tab e)) ->
  exists c2 rf, run_config W cf2 g = (c2, None) /\ cf_result_file cf1 = Given rf /\
    cx_sms c2 = cx_sms c1 /\ cx_files c2 rf = cx_files c1 rf.
Proof.
  intros lm W (P & R) A Or. apply C70_proof; auto.
  - rewrite P, R. exact py_num_read.
  - rewrite P, R. exact (py_num_zero lm).
  - rewrite P. reflexivity.
Qed.
