(** Running preprocessing and processing in one run or in two. *)
From Coq Require Import ZArith Bool Ascii String List Lia Reals Lra.
From Verif Require Import Base Ops BaseFacts RFacts CatUtil Decluster DeclusterSpec Completeness CompletenessProofs
  PyStr PyStrProofs Csv CsvProofs EqCatalog EqCatSpec EqCatRound SourceModel Nrml World CatalogFilter
  Recurrence MaxMag Jobs Workflow Main FlowSpec FlowPipe FlowFiles FlowTable FlowPre FlowStore.
Import ListNotations.
Local Open Scope nat_scope.
Local Open Scope res_scope.

Section TwoStep.
Context {AR : Ops}.

Lemma picks_filter_both : forall {A : Type} (P : A -> Prop) (q : A -> bool) l l', picks P l l' ->
  (forall a, In a l -> q a = true -> P a) -> filter q l = filter q l'.
Proof.
  intros A P q l l' H. induction H as [|a l l' Pa H IH|a l l' Pa H IH]; intros Q; cbn [filter]; auto.
  - rewrite IH; auto. intros b I. apply Q. now right.
  - destruct (q a) eqn:E; [elim Pa; apply Q; [now left|auto]|]. apply IH. intros b I. apply Q. now right.
Qed.

Lemma map2_map : forall {A B C D : Type} (f : B -> C -> D) (g : A -> B) (h : A -> C) l,
  map2 f (map g l) (map h l) = map (fun a => f (g a) (h a)) l.
Proof. intros. induction l as [|a l IH]; cbn; auto. now rewrite IH. Qed.

Lemma count_filter : forall {A : Type} (q : A -> bool) l, count_true (map q l) = length (filter q l).
Proof. intros A q l. rewrite <- mask_get_filter, length_mask_get; auto. now rewrite map_length. Qed.

Lemma mask_snd : forall {A B : Type} (q : A -> bool) (l : list (A * B)),
  mask_get (map q (map fst l)) (map snd l) = map snd (filter (fun r => q (fst r)) l).
Proof. intros A B q l. rewrite mask_get_map, map_map. f_equal. apply mask_get_filter. Qed.

(** Only counted events matter to the maximum likelihood analysis. *)
Lemma mle_period_same : forall w1 w2 tab dm ref cy P, picks P w1 w2 ->
  (forall e, In e w1 -> counted tab e -> P e) -> In cy (map fst tab) ->
  mle_period (AR := AR) (map ev_year w1) (map ev_mw w1) (map fst tab) (map snd tab) dm ref cy =
  mle_period (map ev_year w2) (map ev_mw w2) (map fst tab) (map snd tab) dm ref cy.
Proof.
  intros w1 w2 tab dm ref cy P PK C I. unfold mle_period.
  destruct (minv (mask_get (same_year (map fst tab) cy) (map snd tab))) as [mc|e] eqn:M; [|reflexivity]. cbn [bind].
  rewrite !map2_map. set (q := fun a => in_period cy mc (ev_year a) (ev_mw a)).
  rewrite !mask_get_map, !count_filter, !mask_get_filter.
  rewrite (picks_filter_both P q w1 w2 PK); [reflexivity|]. intros e Ie Q. apply C; auto.
  exists cy, mc. split; auto. split.
  - unfold same_year in M. rewrite mask_snd in M. exact M.
  - unfold q, in_period in Q. apply andb_true_iff in Q. auto.
Qed.

Lemma mle_loop_same : forall w1 w2 tab dm ref P, picks P w1 w2 -> (forall e, In e w1 -> counted tab e -> P e) ->
  forall fuel i, mle_loop (AR := AR) fuel (map ev_year w1) (map ev_mw w1) (map fst tab) (map snd tab) dm ref i =
    mle_loop fuel (map ev_year w2) (map ev_mw w2) (map fst tab) (map snd tab) dm ref i.
Proof.
  intros w1 w2 tab dm ref P PK C. induction fuel as [|fuel IH]; intros i; cbn [mle_loop]; [reflexivity|].
  destruct (nth_error (map fst tab) i) as [cy|] eqn:N; [|reflexivity].
  rewrite (mle_period_same w1 w2 tab dm ref cy P PK C) by (eapply nth_error_In; eauto).
  destruct (mle_period (map ev_year w2) (map ev_mw w2) (map fst tab) (map snd tab) dm ref cy); [|reflexivity]. cbn [bind]. now rewrite IH.
Qed.

Lemma mle_same : forall fuel w1 w2 tab mw alg ref tw P, picks P w1 w2 -> (forall e, In e w1 -> counted tab e -> P e) ->
  alg <> "Weichert"%string ->
  recurrence_analysis (AR := AR) fuel (map ev_year w1) (map ev_mw w1) tab mw alg ref tw =
  recurrence_analysis fuel (map ev_year w2) (map ev_mw w2) tab mw alg ref tw.
Proof.
  intros fuel w1 w2 tab mw alg ref tw P PK C NA. unfold recurrence_analysis. apply String.eqb_neq in NA. rewrite NA.
  unfold b_maxlike_time. now rewrite (mle_loop_same w1 w2 tab mw ref P PK C).
Qed.

(** No result without events. *)
Lemma mle_no_events : forall fuel tab mw alg ref tw r, alg <> "Weichert"%string ->
  recurrence_analysis (AR := AR) fuel [] [] tab mw alg ref tw <> Ok r.
Proof.
  intros fuel tab mw alg ref tw r NA H. unfold recurrence_analysis in H. apply String.eqb_neq in NA. rewrite NA in H.
  unfold b_maxlike_time in H. destruct tab as [|(y, m) tab]; [discriminate|].
  cbn [map fst length mle_loop nth_error] in H. unfold mle_period in H.
  destruct (minv (mask_get (same_year _ _) _)); discriminate.
Qed.

Variable W : world AR.

Lemma picks_both : forall {A : Type} (P Q : A -> Prop) l l1 l2 l3, picks P l l1 -> picks Q l l2 -> picks Q l1 l3 -> picks P l2 l3.
Proof.
  intros A P Q l l1 l2 l3 H. revert l2 l3. induction H as [|a l l' Pa H IH|a l l' Pa H IH]; intros l2 l3 H2 H3.
  - inversion H2; subst. inversion H3; subst. constructor.
  - inversion H2; subst; inversion H3; subst; try contradiction.
    + constructor; auto.
    + now apply IH.
  - inversion H2; subst.
    + apply picks_skip; auto.
    + now apply IH.
Qed.

Lemma events_picks : forall flt s w1 w2 e1 (P : event AR -> Prop), picks P w1 w2 -> events_of W flt s w1 e1 ->
  exists e2, events_of W flt s w2 e2 /\ picks P e1 e2 /\ incl e1 w1.
Proof.
  intros flt s w1 w2 e1 P PK H. inversion H as [? ? A1 A2 A3|? ? ? PO PI A1 A2 A3]; subst.
  - exists w2. split; [constructor|]. split; auto. apply incl_refl.
  - exists (filter (fun e => w_contains W (ab_pos (as_boundary s)) (ev_lon e) (ev_lat e)) w2).
    pose proof (picks_filter (fun e => w_contains W (ab_pos (as_boundary s)) (ev_lon e) (ev_lat e)) w2) as P2.
    split; [constructor; auto|]. split.
    + exact (picks_both P _ w1 w2 e1 _ PK PI P2).
    + clear - PI. induction PI; intros x I; auto; [destruct I as [<-|I]; [now left|right; auto]|right; auto].
Qed.

(** The effect on one source. *)
Lemma processed_same : forall cf1 cf2 tab e1 e2 js s s' (P : event AR -> Prop), picks P e1 e2 ->
  (forall e, In e e1 -> counted tab e -> P e) ->
  (forall j, In j js -> j = J_recurrence) -> cf_recurrence cf2 = cf_recurrence cf1 ->
  (forall k, cf_recurrence cf1 = Ok k -> rc_algorithm k <> "Weichert"%string) ->
  processed W cf1 (Some tab) e1 js s s' -> processed W cf2 (Some tab) e2 js s s'.
Proof.
  intros cf1 cf2 tab e1 e2 js s s' P PK C J RC NA H. remember (Some tab) as ot.
  induction H as [s|js s s' k tb b sb a sa NE TB K R H IH|js s s' k mx sg NE K R H IH].
  - constructor.
  - rewrite TB in Heqot. injection Heqot as ->. pose proof (NA k K) as NK.
    rewrite (mle_same _ e1 e2 tab _ _ _ _ P PK C NK) in R.
    eapply (PR_rec W cf2 _ e2 js s s' k tab); eauto.
    + intros ->. eapply mle_no_events; eauto.
    + congruence.
    + apply IH; auto. intros j I. apply J. now right.
  - specialize (J _ (or_introl eq_refl)). discriminate.
Qed.

Hypothesis argsort_ok : is_argsort (w_argsort W).
Hypothesis order_ok : rearranges (w_dict_order W).
Hypothesis num_read : forall s x, w_parse_float W s = Some x ->
  w_parse_float W (w_repr_float W x) = Some x /\ ~ In chr_nul (w_repr_float W x).
Hypothesis num_zero : w_parse_float W (w_repr_float W (ofZ 0)) = Some (ofZ 0) /\ ~ In chr_nul (w_repr_float W (ofZ 0)).
Hypothesis parse_empty : w_parse_float W [] = None.

Lemma rec_jobs : forall l js, Forall2 names l js -> (forall n, In n l -> n = "Recurrence"%string) -> forall j, In j js -> j = J_recurrence.
Proof.
  intros l js F. induction F as [|n j l js N F IH]; intros A j' I; [contradiction|]. destruct I as [<-|I].
  - assert (n = "Recurrence"%string) by (apply A; now left). subst n. now inversion N.
  - apply IH; auto. intros n' I'. apply A. now right.
Qed.

Lemma pro_rec : forall cf pro, processing_build cf = Ok pro -> only_mle cf -> forall j, In j pro -> j = J_recurrence.
Proof.
  intros cf pro H (O & _). unfold processing_build in H. apply bind_ok in H. destruct H as ([|] & _ & H).
  - destruct (append_inv _ _ _ H) as [(js & F & E)|(_ & E)]; [|discriminate]. injection E as ->. cbn [app].
    eapply rec_jobs; eauto. intros n I. unfold listed in I. destruct (cf_processing_jobs cf) as [| |l]; try contradiction. eapply O; eauto.
  - injection H as <-. contradiction.
Qed.

(** The second run gives the same result when processing does not see the events that were not
    stored. *)
Lemma C70_core : forall cf1 cf2 f l p pt c1 g,
  restarts cf1 cf2 p pt -> same_processing cf1 cf2 -> only_processing cf1 ->
  jobs_set (cf_preprocessing_jobs cf1) l -> gk_first l ->
  run_config W cf1 f = (c1, None) ->
  (forall q, q = p \/ q = pt \/ cf_source_model_file cf1 = Given q -> g q = cx_files c1 q) ->
  cf_result_file cf1 <> Given p -> cf_result_file cf1 <> Given pt -> cf_result_file cf1 <> cf_source_model_file cf1 ->
  (forall es m flag kept tab w, catalogue_read W cf1 f es -> mapM matrix_row es = Ok m -> cx_flag c1 = Some flag ->
     cx_table c1 = Some tab -> cx_working c1 = Some w -> to_store tab es m flag kept ->
     kept <> [] /\ tab <> [] /\ Forall ellipse_consistent kept /\
     Forall (fun r => stored5 (fst r) = fst r /\ stored5 (snd r) = snd r) tab /\
     (forall pro e1 e2 s s', processing_build cf1 = Ok pro -> incl e1 w -> picks (complete tab) e1 e2 ->
        processed W cf1 (Some tab) e1 pro s s' -> processed W cf2 (Some tab) e2 pro s s')) ->
  exists c2 rf, run_config W cf2 g = (c2, None) /\ cf_result_file cf1 = Given rf /\
    cx_sms c2 = cx_sms c1 /\ cx_files c2 rf = cx_files c1 rf.
Proof.
  intros cf1 cf2 f l p pt c1 g RS (SP1 & SP2 & SP3 & SP4) OM JS G H EG NR1 NR2 NR3 OKK.
  unfold run_config in H. destruct (bind _ _) as [((pre, pro), flt)|e] eqn:B in H; [|discriminate].
  apply bind_ok in B. destruct B as (pre' & B1 & B). apply bind_ok in B. destruct B as (pro' & B2 & B).
  apply bind_ok in B. destruct B as (flt' & B3 & B). injection B as -> -> ->.
  destruct (start W pre pro flt (init_context cf1 f)) as (ca, [e|]) eqn:P; [discriminate|].
  pose proof (names_processing cf1 pro B2 OM) as PJ.
  destruct (C65_proof W pre pro flt _ _ PJ P) as (cb & ST & ALT).
  (* what the first run leaves *)
  pose proof (pipeline_keeps W _ _ _ _ (steps_run W _ _ _ ST)) as (KC & _). cbn in KC.
  assert (FR : only_sources cb ca) by (destruct ALT as [(_ & ->)|(? & ? & ? & ? & _ & _ & _ & _ & F & _)]; [unfold only_sources; auto 10|exact F]).
  destruct FR as (F1 & F2 & F3 & F4 & F5 & F6 & F7).
  unfold write_result in H. apply finish_ok in H. apply bind_ok in H. destruct H as (rf & LF & H).
  apply bind_ok in H. destruct H as (u1 & X1 & H). apply bind_ok in H. destruct H as (ss & X2 & H).
  apply bind_ok in H. destruct H as (d & X3 & H). apply bind_ok in H. destruct H as (u4 & X4 & H). injection H as <-. cbn [cx_files cx_sms cx_table cx_flag cx_working set_files] in *.
  assert (RF : cf_result_file cf1 = Given rf).
  { unfold lookup_file in LF. rewrite F1, KC in LF. destruct (cf_result_file cf1); try discriminate. congruence. }
  (* the second preprocessing *)
  assert (EG' : forall q, q = p \/ q = pt \/ cf_source_model_file cf1 = Given q -> g q = cx_files cb q).
  { intros q Q. rewrite (EG q Q), <- F7. apply write_file_other. destruct Q as [->|[->|Q]]; congruence. }
  destruct (@C70_restart_proof AR W argsort_ok order_ok num_read num_zero parse_empty cf1 cf2 f pre l p pt cb g B1 JS G ST RS EG') as
    (pre2 & c2 & w1 & w2 & tab & PB & ST2 & W1 & W2 & PK & T1 & T2 & SM & FF).
  { intros es m flag tab kept CR MR F0 T0 TS.
    pose proof RS as (Q1 & Q2 & Q3 & Q4 & Q5 & _).
    destruct (storing_run W argsort_ok cf1 f pre l p cb B1 JS G Q1 Q2 ltac:(congruence) ST) as
      (_ & _ & _ & _ & _ & w & _ & _ & _ & _ & _ & _ & _ & _ & _ & _ & _ & _ & _ & WW & _).
    destruct (OKK es m flag kept tab w) as (O1 & O2 & O3 & _); auto; congruence. }
  (* what is known of the table *)
  pose proof RS as (Q1 & Q2 & Q3 & Q4 & Q5 & Q6 & Q7 & Q8 & Q9 & Q10 & Q11).
  destruct (storing_run W argsort_ok cf1 f pre l p cb B1 JS G Q1 Q2 ltac:(congruence) ST) as
    (sj & js & c0 & es & m & w & flag & tab' & kept & content & pt' & _ & _ & _ & _ & CR & MR & _ & _ & WW & F0 & _ & T0 & TS & _).
  assert (tab' = tab) by congruence. subst tab'. assert (w = w1) by congruence. subst w.
  destruct (OKK es m flag kept tab w1) as (_ & _ & _ & FD & CC); auto; try congruence.
  assert (ET : map (fun r : T * T => (stored5 (fst r), stored5 (snd r))) tab = tab).
  { clear - FD. induction FD as [|(a, b) tab (A & B) _ IH]; cbn; auto. cbn in A, B. now rewrite A, B, IH. }
  rewrite ET in T2.
  assert (K2 : cx_config c2 = cf2).
  { pose proof (pipeline_keeps W _ _ _ _ (steps_run W _ _ _ ST2)) as (K2 & _). exact K2. }
  (* the second processing *)
  assert (S2 : exists c3, start W pre2 pro flt (init_context cf2 g) = (c3, None) /\ cx_sms c3 = cx_sms ca /\ cx_config c3 = cf2 /\ cx_files c3 = g).
  { unfold start. rewrite (steps_run W _ _ _ ST2). rewrite K2, SP2.
    destruct ALT as [(AP & ->)|(u & ss1 & w & ss' & AP & S1 & SW & S1' & _ & FL)]; rewrite KC in AP; rewrite AP.
    - exists c2. auto.
    - rewrite SM, S1. destruct ss1 as [|s0 ss1].
      + inversion FL; subst. exists c2. split; auto. split; [congruence|auto].
      + rewrite W2. assert (w = w1) by (specialize (SW ltac:(discriminate)); congruence). subst w.
        destruct (loop_runs W flt pro w2 (s0 :: ss1) ss' [] c2) as (c3 & R3 & R4 & R5).
        * cbn [app]. congruence.
        * eapply forall2_impl; [|exact FL]. intros s s' (e1 & EV & PRC & _).
          destruct (events_picks flt s w1 w2 e1 (complete tab) PK EV) as (e2 & EV2 & PK2 & INC).
          exists e2. split; auto. rewrite K2, T2. rewrite KC, T1 in PRC.
          eapply CC; eauto.
        * exists c3. cbn [length] in R3 |- *. split; [exact R3|]. cbn [app] in R4. split; [congruence|].
          destruct R5 as (A1 & _ & _ & _ & _ & _ & A7). split; congruence. }
  destruct S2 as (c3 & S2 & S3 & S4 & S5).
  assert (B2' : processing_build cf2 = Ok pro) by (unfold processing_build in *; now rewrite SP1).
  assert (B3' : choose_filter cf2 = Ok flt) by (unfold choose_filter in *; now rewrite Q9).
  exists (set_files (write_file rf (w_xml_print W d) (cx_files c3)) c3), rf.
  split.
  { unfold run_config. rewrite PB, B2', B3'. cbn [bind]. rewrite S2. unfold write_result. rewrite S4, SP4, RF. cbn [lookup_file bind].
    rewrite X1. cbn [bind]. rewrite S3, X2. cbn [bind]. rewrite X3. cbn [bind]. rewrite X4. reflexivity. }
  split; auto. cbn [cx_sms cx_files set_files]. split; auto. now rewrite !write_file_same.
Qed.

(** C70: for maximum likelihood recurrence analyses, the second run gives the same result. *)
Theorem C70_proof : forall cf1 cf2 f l p pt c1 g,
  restarts cf1 cf2 p pt -> same_processing cf1 cf2 -> only_mle cf1 ->
  jobs_set (cf_preprocessing_jobs cf1) l -> gk_first l ->
  run_config W cf1 f = (c1, None) ->
  (forall q, q = p \/ q = pt \/ cf_source_model_file cf1 = Given q -> g q = cx_files c1 q) ->
  cf_result_file cf1 <> Given p -> cf_result_file cf1 <> Given pt -> cf_result_file cf1 <> cf_source_model_file cf1 ->
  (forall es m flag kept tab w, catalogue_read W cf1 f es -> mapM matrix_row es = Ok m -> cx_flag c1 = Some flag ->
     cx_table c1 = Some tab -> cx_working c1 = Some w -> to_store tab es m flag kept ->
     kept <> [] /\ tab <> [] /\ Forall ellipse_consistent kept /\
     Forall (fun r => stored5 (fst r) = fst r /\ stored5 (snd r) = snd r) tab /\
     (forall e, In e w -> counted tab e -> complete tab e)) ->
  exists c2 rf, run_config W cf2 g = (c2, None) /\ cf_result_file cf1 = Given rf /\
    cx_sms c2 = cx_sms c1 /\ cx_files c2 rf = cx_files c1 rf.
Proof.
  intros cf1 cf2 f l p pt c1 g RS SP OM JS G H EG NR1 NR2 NR3 OKK.
  eapply C70_core; eauto.
  - intros l' n E I. left. destruct OM as (OM & _). eauto.
  - intros es m flag kept tab w CR MR F0 T0 W0 TS. destruct (OKK es m flag kept tab w CR MR F0 T0 W0 TS) as (O1 & O2 & O3 & O4 & O5).
    repeat (split; auto). intros pro e1 e2 s s' B2 I PK PRC.
    destruct SP as (_ & _ & SP3 & _). eapply (processed_same cf1 cf2); eauto.
    + eapply pro_rec; eauto.
    + now destruct OM.
Qed.

(** C70: when every event that is left is complete, all processing jobs give the same result. *)
Theorem C70_complete_proof : forall cf1 cf2 f l p pt c1 g,
  restarts cf1 cf2 p pt -> same_processing cf1 cf2 -> cf_mm cf2 = cf_mm cf1 -> only_processing cf1 ->
  jobs_set (cf_preprocessing_jobs cf1) l -> gk_first l ->
  run_config W cf1 f = (c1, None) ->
  (forall q, q = p \/ q = pt \/ cf_source_model_file cf1 = Given q -> g q = cx_files c1 q) ->
  cf_result_file cf1 <> Given p -> cf_result_file cf1 <> Given pt -> cf_result_file cf1 <> cf_source_model_file cf1 ->
  (forall es m flag kept tab w, catalogue_read W cf1 f es -> mapM matrix_row es = Ok m -> cx_flag c1 = Some flag ->
     cx_table c1 = Some tab -> cx_working c1 = Some w -> to_store tab es m flag kept ->
     kept <> [] /\ tab <> [] /\ Forall ellipse_consistent kept /\
     Forall (fun r => stored5 (fst r) = fst r /\ stored5 (snd r) = snd r) tab /\
     (forall e, In e w -> complete tab e)) ->
  exists c2 rf, run_config W cf2 g = (c2, None) /\ cf_result_file cf1 = Given rf /\
    cx_sms c2 = cx_sms c1 /\ cx_files c2 rf = cx_files c1 rf.
Proof.
  intros cf1 cf2 f l p pt c1 g RS SP EM OP JS G H EG NR1 NR2 NR3 OKK.
  eapply C70_core; eauto.
  intros es m flag kept tab w CR MR F0 T0 W0 TS. destruct (OKK es m flag kept tab w CR MR F0 T0 W0 TS) as (O1 & O2 & O3 & O4 & O5).
  repeat (split; auto). intros pro e1 e2 s s' _ I PK PRC.
  assert (e2 = e1).
  { assert (A : forall e, In e e1 -> complete tab e) by auto. clear - A PK.
    induction PK as [|a l l' Pa PK IH|a l l' Pa PK IH]; auto.
    - f_equal. apply IH. intros e I. apply A. now right.
    - elim Pa. apply A. now left. }
  subst e2. destruct SP as (_ & _ & SP3 & _). clear - SP3 EM PRC.
  induction PRC as [s|js s s' k tb b sb a sa NE TB K R H IH|js s s' k mx sg NE K R H IH].
  - constructor.
  - eapply (PR_rec W cf2 _ e1 js s s' k tb); eauto. congruence.
  - eapply (PR_max W cf2 _ e1 js s s' k); eauto. congruence.
Qed.

End TwoStep.

Lemma five_gap : forall a b, five_decimals a -> five_decimals b -> (a < b)%R -> (a <= b - 1 / 100000)%R.
Proof.
  intros a b (n & ->) (k & ->) L. assert (X : (IZR n < IZR k)%R) by lra. apply lt_IZR in X.
  assert (Y : (n + 1 <= k)%Z) by lia. apply IZR_le in Y. rewrite plus_IZR in Y. lra.
Qed.

Lemma five_close : forall a b, five_decimals a -> five_decimals b -> (Rabs (a - b) < 1 / 100000)%R -> a = b.
Proof.
  intros a b A B L. destruct (Rtotal_order a b) as [X|[X|X]]; auto; exfalso.
  - pose proof (five_gap a b A B X). revert L. unfold Rabs. destruct (Rcase_abs _); lra.
  - pose proof (five_gap b a B A X). revert L. unfold Rabs. destruct (Rcase_abs _); lra.
Qed.

Theorem C70_table_proof : forall (tab : list (R * R)) (e : event ROps), mle_table tab -> @counted ROps tab e -> @complete ROps tab e.
Proof.
  intros tab e (FD & MO) (cy & mc & I & MC & LY & LM) cy' cm' I' A B. rewrite Forall_forall in FD. rops.
  apply Rltb_true in A, B. apply Rleb_true in LY, LM.
  assert (LT : (@lit ROps 1 100000 = 1 / 100000)%R) by (unfold lit; rops; reflexivity).
  apply minv_spec in MC. destruct MC as (MI & MM). apply in_map_iff in MI. destruct MI as ((y1, m1) & E & MI). cbn in E. subst m1.
  apply filter_In in MI. destruct MI as (MI & MY). cbn [fst] in MY. apply Rltb_true in MY.
  apply in_map_iff in I. destruct I as ((y2, m2) & E & I). cbn in E. subst y2.
  destruct (FD _ MI) as (D1 & D2). destruct (FD _ I) as (D3 & D4). destruct (FD _ I') as (D5 & D6). cbn [fst snd] in *.
  rewrite LT in *. rops. assert (y1 = cy) by (apply five_close; auto). subst y1.
  pose proof (MO (cy, mc) (cy', cm') MI I' ltac:(cbn; lra)) as X. cbn in X.
  pose proof (five_gap cm' mc D6 D2 X). lra.
Qed.
