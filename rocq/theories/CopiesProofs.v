(** Proofs for C110: listing every event n times. *)
From Coq Require Import Reals ZArith Bool Arith Lia Lra String List Permutation.
From Verif Require Import Base BaseFacts Ops Recurrence RFacts SteppProofs RecurrenceProofs OrderProofs CopiesSpec.
Import ListNotations.
Local Open Scope R_scope.

(** ** Copies *)

Lemma in_copies : forall A (l : list A) n x, (0 < n)%nat -> In x (copies n l) <-> In x l.
Proof.
  intros A l n x L. unfold copies. rewrite in_concat. split.
  - intros (m & H & I). apply repeat_spec in H. now subst.
  - intros I. exists l. split; auto. destruct n; [lia|]. now left.
Qed.

Lemma map_copies : forall A B (f : A -> B) l n, map f (copies n l) = copies n (map f l).
Proof. intros. unfold copies. rewrite concat_map. f_equal. induction n; simpl; congruence. Qed.

Lemma filter_copies : forall A (p : A -> bool) l n, filter p (copies n l) = copies n (filter p l).
Proof. intros A p l. unfold copies. induction n; simpl; auto. rewrite filter_app. congruence. Qed.

Lemma count_copies : forall l n, count_true (copies n l) = (n * count_true l)%nat.
Proof. intros l. unfold copies. induction n; simpl; auto. rewrite count_true_app, IHn. auto. Qed.

Lemma maxv_same : forall l m : list R, (forall x, In x l <-> In x m) -> @maxv ROps l = @maxv ROps m.
Proof.
  intros l m H. destruct l as [|a l].
  - destruct m as [|b m]; auto. exfalso. apply (H b). now left.
  - destruct (maxv_ok (a :: l) ltac:(discriminate)) as [x E]. rewrite E. symmetry.
    apply maxv_spec in E. apply maxv_spec. destruct E as [I M]. split; [now apply H|]. intros y Iy. apply M. now apply H.
Qed.
Lemma minv_same : forall l m : list R, (forall x, In x l <-> In x m) -> @minv ROps l = @minv ROps m.
Proof.
  intros l m H. destruct l as [|a l].
  - destruct m as [|b m]; auto. exfalso. apply (H b). now left.
  - destruct (minv_ok (a :: l) ltac:(discriminate)) as [x E]. rewrite E. symmetry.
    apply minv_spec in E. apply minv_spec. destruct E as [I M]. split; [now apply H|]. intros y Iy. apply M. now apply H.
Qed.

Section Copies.
Variable n : nat.
Hypothesis n_pos : (0 < n)%nat.
Let N := INR n.

Lemma N_pos : 0 < N.
Proof. apply lt_0_INR. exact n_pos. Qed.
Lemma N_ge_1 : 1 <= N.
Proof. apply (le_INR 1). exact n_pos. Qed.

Lemma maxv_copies : forall l : list R, @maxv ROps (copies n l) = @maxv ROps l.
Proof. intros. apply maxv_same. intros. now apply in_copies. Qed.
Lemma minv_copies : forall l : list R, @minv ROps (copies n l) = @minv ROps l.
Proof. intros. apply minv_same. intros. now apply in_copies. Qed.

Lemma cancel : forall x y, N * x / (N * y) = x / y.
Proof. intros. assert (P := N_pos). unfold Rdiv. rewrite Rinv_mult. set (z := / y). field. lra. Qed.

Lemma sqrt_N : forall x, sqrt (x / N) = sqrt x / sqrt N.
Proof.
  intros x. assert (P := N_pos). destruct (Rle_dec 0 x) as [H|H].
  - now apply sqrt_div.
  - rewrite (sqrt_neg_0 x), (sqrt_neg_0 (x / N)); [lra| |lra].
    unfold Rdiv. assert (0 < / N) by now apply Rinv_0_lt_compat. nra.
Qed.

Lemma Rsum_scaled : forall l, Rsum (map (Rmult N) l) = N * Rsum l.
Proof. intros. exact (Rsum_scal N l). Qed.

Lemma map2_scaled : forall l m : list R, Rsum (map2 Rmult l (map (Rmult N) m)) = N * Rsum (map2 Rmult l m).
Proof. induction l as [|a l IH]; intros [|b m]; simpl; try lra. rewrite IH. lra. Qed.
Lemma map2_scaled_l : forall l m : list R, Rsum (map2 Rmult (map (Rmult N) l) m) = N * Rsum (map2 Rmult l m).
Proof. induction l as [|a l IH]; intros [|b m]; simpl; try lra. rewrite IH. lra. Qed.

Lemma INR_scaled : forall l, map INR (map (Nat.mul n) l) = map (Rmult N) (map INR l).
Proof. intros. rewrite !map_map. apply map_ext. intros. apply mult_INR. Qed.

(** ** Histograms *)

Lemma histogram_copies : forall xs edges : list R,
  @histogram ROps (copies n xs) edges = map (Nat.mul n) (@histogram ROps xs edges).
Proof.
  intros. unfold histogram. rewrite map_map. apply map_ext. intros k.
  rewrite map_copies. apply count_copies.
Qed.

Lemma range_copies : forall (mag : list R) dmag,
  @rec_mag_range ROps (copies n mag) dmag = @rec_mag_range ROps mag dmag.
Proof.
  intros. unfold rec_mag_range.
  rewrite (map_copies _ _ (fun m => @div ROps (ceilv (mul (ofZ 10) m)) (ofZ 10))).
  rewrite (map_copies _ _ (fun m => @div ROps (floorv (mul (ofZ 10) m)) (ofZ 10))).
  rewrite maxv_copies. apply bind_both; auto. intros u. rewrite minv_copies. reflexivity.
Qed.

Lemma list_sum_scaled : forall l, list_sum (map (Nat.mul n) l) = (n * list_sum l)%nat.
Proof. induction l; simpl; [lia|]. unfold list_sum in *. lia. Qed.

(** The columns of the recurrence table used for the b-value. *)
Lemma rec_cols : forall (mv : list R) (num : R) obs, length mv = length obs ->
  let tab := map2 (fun m nc => @mkRec ROps m (ofnat (fst nc)) (ofnat (snd nc))
              (@div ROps (ofnat (fst nc)) num) (@div ROps (ofnat (snd nc)) num)) mv (combine obs (suffix_sums obs)) in
  map rc_mag tab = mv /\ map rc_n tab = map INR obs.
Proof.
  assert (G : forall (mv : list R) (num : R) obs cs, length mv = length obs -> length cs = length obs ->
    let tab := map2 (fun m nc => @mkRec ROps m (ofnat (fst nc)) (ofnat (snd nc))
              (@div ROps (ofnat (fst nc)) num) (@div ROps (ofnat (snd nc)) num)) mv (combine obs cs) in
    map rc_mag tab = mv /\ map rc_n tab = map INR obs).
  { induction mv as [|m mv IH]; intros num [|o obs] [|c cs] L1 L2; try discriminate; cbn; auto.
    destruct (IH num obs cs) as (E1 & E2); auto. cbn in E1, E2. rewrite E1, E2. split; auto.
    f_equal. rewrite <- INR_IZR_INZ. reflexivity. }
  intros mv num obs L. apply G; auto. clear. induction obs; simpl; auto.
Qed.

Lemma table_cols : forall (mag year : list R) dmag tab, @recurrence_table ROps mag dmag year = Ok tab ->
  exists range, @rec_mag_range ROps mag dmag = Ok range /\
    map rc_mag tab = map (fun m => @add ROps m (@div ROps dmag (ofZ 2))) (removelast range) /\
    map rc_n tab = map INR (@histogram ROps mag range).
Proof.
  intros mag year dmag tab H. unfold recurrence_table in H.
  apply bind_ok in H. destruct H as (ymax & _ & H). apply bind_ok in H. destruct H as (ymin & _ & H).
  apply bind_ok in H. destruct H as (range & HR & H). exists range. split; auto.
  injection H as <-. apply rec_cols. rewrite map_length, length_removelast.
  unfold histogram. rewrite map_length, seq_length. reflexivity.
Qed.

Lemma table_copies : forall (mag year : list R) dmag,
  (forall e, @recurrence_table ROps mag dmag year = Err e -> @recurrence_table ROps (copies n mag) dmag (copies n year) = Err e) /\
  (forall tab, @recurrence_table ROps mag dmag year = Ok tab ->
     exists tab', @recurrence_table ROps (copies n mag) dmag (copies n year) = Ok tab' /\
       map rc_mag tab' = map rc_mag tab /\ map rc_n tab' = map (Rmult N) (map rc_n tab)).
Proof.
  intros mag year dmag.
  assert (S : (exists e, @recurrence_table ROps mag dmag year = Err e /\ @recurrence_table ROps (copies n mag) dmag (copies n year) = Err e)
    \/ (exists t t', @recurrence_table ROps mag dmag year = Ok t /\ @recurrence_table ROps (copies n mag) dmag (copies n year) = Ok t')).
  { unfold recurrence_table. rewrite maxv_copies, minv_copies, range_copies.
    destruct (@maxv ROps year); cbn [bind]; [|left; eauto]. destruct (@minv ROps year); cbn [bind]; [|left; eauto].
    destruct (@rec_mag_range ROps mag dmag); cbn [bind]; [|left; eauto]. right. eauto. }
  destruct S as [(e & E1 & E2)|(tb & tb' & E1 & E2)]; split.
  - intros e' H. congruence.
  - intros tab H. congruence.
  - intros e H. congruence.
  - intros tab H. rewrite H in E1. injection E1 as <-. exists tb'. split; auto.
    destruct (table_cols _ _ _ _ H) as (r & R1 & M1 & C1). destruct (table_cols _ _ _ _ E2) as (r' & R2 & M2 & C2).
    rewrite range_copies in R2. rewrite R1 in R2. injection R2 as <-. split; [congruence|].
    rewrite C2, C1, histogram_copies. apply INR_scaled.
Qed.

(** ** The maximum-likelihood b-value *)

(** With one event the sums pick its magnitude. *)
Lemma single : forall (ms : list R) obs, list_sum obs = 1%nat -> length ms = length obs ->
  exists m, forall f : R -> R, Rsum (map2 Rmult (map INR obs) (map f ms)) = f m.
Proof.
  induction ms as [|m ms IH]; intros [|o obs] S L; try discriminate.
  cbn in S. destruct o as [|[|o]].
  - cbn in S. destruct (IH obs) as (x & X); auto. exists x. intros f. cbn [map map2 Rsum]. rewrite X. simpl. lra.
  - assert (Z : forall k, In k obs -> k = 0%nat).
    { cbn in S. assert (Z0 : list_sum obs = 0%nat) by (unfold list_sum; lia). clear -Z0. induction obs as [|o obs IH]; intros k I; [destruct I|]. cbn in Z0.
      destruct I as [<-|I]; [lia|]. apply IH; auto. unfold list_sum. lia. }
    exists m. intros f. cbn [map map2 Rsum].
    assert (E : forall l l' : list R, (forall x, In x l -> x = 0) -> Rsum (map2 Rmult l l') = 0).
    { clear. induction l; intros [|b l'] H; simpl; auto. rewrite IHl; [|intros; apply H; now right].
      rewrite (H a); [lra|now left]. }
    rewrite E. { simpl. lra. } intros x Ix. apply in_map_iff in Ix. destruct Ix as (k & <- & Ik). rewrite (Z k Ik). reflexivity.
  - exfalso. cbn in S. lia.
Qed.

Lemma map2_comm : forall l m : list R, Rsum (map2 Rmult l m) = Rsum (map2 Rmult m l).
Proof. induction l as [|a l IH]; intros [|b m]; simpl; auto. rewrite IH. lra. Qed.

Lemma INR_sum : forall l, Rsum (map INR l) = INR (list_sum l).
Proof. induction l; auto. cbn [map Rsum]. rewrite IHl. change (list_sum (a :: l)) with (a + list_sum l)%nat. now rewrite plus_INR. Qed.

Lemma bml_copies : forall (mval : list R) (obs : list nat) dmag m_c, length mval = length obs ->
  (forall e, @b_max_likelihood ROps mval (map INR obs) dmag m_c = Err e ->
     @b_max_likelihood ROps mval (map (Rmult N) (map INR obs)) dmag m_c = Err e) /\
  (forall b sb, @b_max_likelihood ROps mval (map INR obs) dmag m_c = Ok (b, sb) ->
     exists sb', @b_max_likelihood ROps mval (map (Rmult N) (map INR obs)) dmag m_c = Ok (b, sb') /\ sb' <= sb / sqrt N).
Proof.
  intros mval obs dmag m_c L. unfold b_max_likelihood. cbv zeta.
  set (id0 := map (fun m => @leb ROps m_c m) mval).
  change (map (fun m : T => leb m_c m) mval) with id0.
  assert (E1 : mask_get id0 (map (Rmult N) (map INR obs)) = map (Rmult N) (map INR (mask_get id0 obs)))
    by (rewrite (mask_get_map _ _ (Rmult N)), (mask_get_map _ _ INR); reflexivity).
  assert (E2 : mask_get id0 (map INR obs) = map INR (mask_get id0 obs)) by apply mask_get_map.
  assert (L' : length (mask_get id0 mval) = length (mask_get id0 obs)).
  { rops. revert L. generalize id0 as id, obs as o, mval as mv. clear.
    induction id as [|[] id IH]; intros [|o os] [|m mv] L; try discriminate; auto.
    - cbn. rewrite (IH os mv); auto. - cbn. apply IH. auto. }
  rops. rewrite E1, E2. clear E1 E2.
  revert L'. generalize (mask_get id0 mval) as ms, (mask_get id0 obs) as os. clear - n_pos. intros ms os L.
  destruct (@minv ROps ms) as [mmin|e]; cbn [bind].
  2:{ split; [auto|discriminate]. }
  split; [discriminate|]. intros b sb H. injection H as <- <-. rewrite !sumv_R.
  change (@mul ROps) with Rmult.
  assert (NP := N_pos). assert (NG := N_ge_1).
  rewrite Rsum_scaled, map2_scaled, cancel.
  set (ave := Rsum (map2 Rmult ms (map INR os)) / Rsum (map INR os)).
  set (bv := Rlog10 (exp 1) / (ave - mmin + dmag / 2)).
  rewrite map2_scaled_l.
  set (V := Rsum (map2 Rmult (map INR os) (map (fun m => @sq ROps (m - ave)) ms))).
  set (K := Rsum (map INR os)).
  eexists. split; [reflexivity|].
  assert (VP : 0 <= V).
  { unfold V, sq. rops. generalize ave. clear. intros a. revert os. induction ms as [|m ms IH]; intros [|o os]; cbn [map map2 Rsum]; try lra.
    specialize (IH os). assert (0 <= INR o) by apply pos_INR. assert (Q := Rle_0_sqr (m - a)). unfold Rsqr in Q.
    assert (0 <= INR o * ((m - a) * (m - a))) by now apply Rmult_le_pos. lra. }
  assert (Main : N * V / (N * K * (N * K - 1)) <= V / (K * (K - 1)) / N).
  { assert (KE : K = INR (list_sum os)) by apply INR_sum.
    destruct (list_sum os) as [|[|k]] eqn:S.
    - simpl in KE. rewrite KE. unfold Rdiv. rewrite !Rmult_0_r, !Rmult_0_l, Rinv_0. lra.
    - simpl in KE. rewrite KE. destruct (single ms os S L) as (m & M).
      assert (A : ave = m).
      { unfold ave. fold K. rewrite KE, map2_comm.
        specialize (M (fun x => x)). rewrite map_id in M. rewrite M. field. }
      assert (V0 : V = 0). { unfold V. rewrite M. unfold sq. rops. rewrite A. ring. }
      rewrite V0. unfold Rdiv. rewrite Rmult_0_r, !Rmult_0_l. lra.
    - assert (K2 : 2 <= K). { rewrite KE. apply (le_INR 2). lia. }
      replace (N * V / (N * K * (N * K - 1))) with (V / (K * (N * K - 1))).
      2:{ field. split; [nra|]. split; lra. }
      replace (V / (K * (K - 1)) / N) with (V / (K * (N * K - N))).
      2:{ field. repeat split; try lra; nra. }
      unfold Rdiv. apply Rmult_le_compat_l; auto.
      assert (0 < N * (K - 1)) by (apply Rmult_lt_0_compat; lra).
      apply Rinv_le_contravar; [apply Rmult_lt_0_compat; lra|apply Rmult_le_compat_l; lra]. }
  unfold lit. rops. rewrite <- !Rmult_assoc.
  assert (Q : sqrt (N * V / (N * K * (N * K - 1))) <= sqrt (V / (K * (K - 1))) / sqrt N).
  { rewrite <- sqrt_N. apply sqrt_le_1_alt. exact Main. }
  assert (P2 : 0 <= 23 / 10 * @sq ROps bv). { unfold sq. rops. nra. }
  apply Rle_trans with (23 / 10 * @sq ROps bv * (sqrt (V / (K * (K - 1))) / sqrt N)).
  - now apply Rmult_le_compat_l.
  - right. change (Rsum (map2 Rmult (map INR os) (map (fun m : R => (m - ave) * (m - ave)) ms))) with V.
    change (@sq ROps bv) with (bv * bv). unfold Rdiv. ring.
Qed.

Lemma rec_row_lengths : forall (mag year : list R) dmag tab, @recurrence_table ROps mag dmag year = Ok tab ->
  exists obs, map rc_n tab = map INR obs /\ length (map rc_mag tab) = length obs.
Proof.
  intros mag year dmag tab H. destruct (table_cols _ _ _ _ H) as (r & _ & M & C).
  exists (@histogram ROps mag r). split; auto. apply (f_equal (@length R)) in C. rewrite !map_length in *. auto.
Qed.

(** Period by period. *)
Definition prel (p p' : @period ROps) : Prop :=
  pd_n p' = (n * pd_n p)%nat /\ pd_b p' = pd_b p /\ pd_sb p' <= pd_sb p / sqrt N /\ pd_rate p' = N * pd_rate p.

Lemma period_copies : forall (evs : list (R * R)) (ctime cmag : list R) dmag ref cy,
  let run l := @mle_period ROps (map fst l) (map snd l) ctime cmag dmag ref cy in
  (forall e, run evs = Err e -> run (copies n evs) = Err e) /\
  (forall p, run evs = Ok p -> exists p', run (copies n evs) = Ok p' /\ prel p p').
Proof.
  intros evs ctime cmag dmag ref cy. cbv zeta. unfold mle_period. rops.
  match goal with |- context [@minv ROps ?l] => destruct (@minv ROps l) as [m_c|e] end; cbn [bind].
  2:{ split; [auto|discriminate]. }
  rewrite !map2_pairs. rewrite !(mask_get_pairs (R * R) R).
  set (f := fun p : R * R => @in_period ROps cy m_c (fst p) (snd p)).
  rewrite filter_copies, !map_copies, maxv_copies, minv_copies, count_copies.
  set (ev := filter f evs).
  destruct (@maxv ROps (map fst ev)) as [ymax|e] eqn:HX; cbn [bind].
  2:{ split; [auto|discriminate]. }
  destruct (@minv ROps (map fst ev)) as [ymin|e] eqn:HN; cbn [bind].
  2:{ split; [auto|discriminate]. }
  destruct (table_copies (map snd ev) (map fst ev) dmag) as (T1 & T2). rops.
  destruct (@recurrence_table ROps (map snd ev) dmag (map fst ev)) as [tab|e] eqn:HT.
  2:{ rewrite (T1 e eq_refl). cbn [bind]. split; [auto|discriminate]. }
  destruct (T2 tab eq_refl) as (tab' & HT' & M' & C'). rewrite HT'. cbn [bind]. rewrite M', C'.
  destruct (rec_row_lengths _ _ _ _ HT) as (obs & CO & LO). rops. rewrite CO.
  destruct (bml_copies (map rc_mag tab) obs dmag m_c LO) as (B1 & B2). rops.
  destruct (@b_max_likelihood ROps (@map (@rec_row ROps) R (@rc_mag ROps) tab) (@map nat R INR obs) dmag m_c) as [[b sb]|e].
  2:{ rewrite (B1 e eq_refl). cbn [bind]. split; [auto|discriminate]. }
  destruct (B2 b sb eq_refl) as (sb' & B3 & B4). rewrite B3. cbn [bind].
  split; [discriminate|]. intros p H. injection H as <-. eexists. split; [reflexivity|].
  unfold prel. cbn [pd_n pd_b pd_sb pd_rate]. split; auto. split; auto. split; auto.
  assert (Cnt : count_true (map f evs) = length ev) by (rewrite <- (map_id evs) at 1; unfold ev; clear; induction evs as [|x l IH]; cbn; auto; destruct (f x); cbn; rewrite IH; auto).
  assert (Hn : (0 < length ev)%nat).
  { apply maxv_spec in HX. destruct HX as [HX _]. destruct ev; simpl in *; [contradiction|lia]. }
  apply maxv_spec in HX. apply minv_spec in HN.
  assert (Y : 0 < ymax - ymin + 1).
  { destruct HX as [HX _], HN as [_ HN]. specialize (HN ymax HX). lra. }
  rewrite Cnt, !ofnat_R, mult_INR. fold N. assert (NP := N_pos).
  assert (Q : 0 < INR (length ev) / (ymax - ymin + 1)).
  { apply Rdiv_lt_0_compat; auto. apply lt_0_INR. auto. }
  set (q := INR (length ev) / (ymax - ymin + 1)) in *.
  replace (N * INR (length ev) / (ymax - ymin + 1)) with (N * q) by (unfold q; field; lra).
  replace (Rlog10 (N * q)) with (Rlog10 N + Rlog10 q).
  2:{ unfold Rlog10. rewrite ln_mult by auto. assert (P := ln10_pos). field. lra. }
  replace (Rlog10 N + Rlog10 q + b * m_c - b * ref) with (Rlog10 N + (Rlog10 q + b * m_c - b * ref)) by ring.
  rewrite Rpower_plus, Rpower_log10 by auto. rewrite <- INR_IZR_INZ. reflexivity.
Qed.

Lemma loop_copies : forall (evs : list (R * R)) (ctime cmag : list R) dmag ref fuel i,
  let run l := @mle_loop ROps fuel (map fst l) (map snd l) ctime cmag dmag ref i in
  (forall e, run evs = Err e -> run (copies n evs) = Err e) /\
  (forall ps, run evs = Ok ps -> exists ps', run (copies n evs) = Ok ps' /\ Forall2 prel ps ps').
Proof.
  intros evs ctime cmag dmag ref. induction fuel as [|fuel IH]; intros i; cbv zeta; cbn [mle_loop].
  - destruct (@nth_error (@T ROps) ctime i); split; try discriminate; auto.
    intros ps H. injection H as <-. eauto.
  - destruct (@nth_error (@T ROps) ctime i) as [cy|]; [|split; [discriminate|intros ps H; injection H as <-; eauto]].
    destruct (period_copies evs ctime cmag dmag ref cy) as (P1 & P2).
    rops. match type of P1 with forall e, ?x = _ -> _ => destruct x as [p|e] end.
    2:{ rewrite (P1 e eq_refl). split; [auto|discriminate]. }
    destruct (P2 p eq_refl) as (p' & E & R). rewrite E. cbn [bind].
    destruct (IH (i + count_true (@same_year ROps ctime cy))%nat) as (L1 & L2).
    cbv zeta in L1, L2. rops. match type of L1 with forall e, ?x = _ -> _ => destruct x as [ps|e] end.
    2:{ rewrite (L1 e eq_refl). split; [auto|discriminate]. }
    destruct (L2 ps eq_refl) as (ps' & E' & R'). rewrite E'. cbn [bind]. split; [discriminate|].
    intros qs H. injection H as <-. eauto.
Qed.

(** The weighted means over the periods. *)
Definition outcome (ps : list (@period ROps)) : R * R * R * R :=
  let total := @ofnat ROps (list_sum (map pd_n ps)) in
  let w := map (fun p => @div ROps (@ofnat ROps (pd_n p)) total) ps in
  (@sumv ROps (map2 (@mul ROps) w (map pd_b ps)), @sumv ROps (map2 (@mul ROps) w (map pd_sb ps)),
   @sumv ROps (map2 (@mul ROps) w (map pd_rate ps)), @sumv ROps (map2 (@mul ROps) w (map pd_sigrate ps))).

Lemma outcome_copies : forall us us', Forall2 prel us us' -> forall b sb a sa, outcome us = (b, sb, a, sa) ->
  exists sb' sa', outcome us' = (b, sb', N * a, sa') /\ sb' <= sb / sqrt N.
Proof.
  intros us us' F b sb a sa H. unfold outcome in *. cbv zeta in *.
  assert (LS : list_sum (map pd_n us') = (n * list_sum (map pd_n us))%nat).
  { clear -F. induction F as [|p p' ps ps' H R IH]; [simpl; lia|]. destruct H as (H & _).
    change (list_sum (map pd_n (p' :: ps'))) with (pd_n p' + list_sum (map pd_n ps'))%nat.
    change (list_sum (map pd_n (p :: ps))) with (pd_n p + list_sum (map pd_n ps))%nat. rewrite H, IH. lia. }
  rewrite LS. clear LS. revert H. generalize (list_sum (map pd_n us)) as t. intros t H.
  assert (W : map (fun q => @div ROps (@ofnat ROps (pd_n q)) (@ofnat ROps (n * t)%nat)) us'
            = map (fun q => @div ROps (@ofnat ROps (pd_n q)) (@ofnat ROps t)) us).
  { clear H. induction F as [|p p' us us' (H & _) R IH]; auto. cbn [map]. rewrite IH. f_equal.
    rewrite H, !ofnat_R, !mult_INR. rops. fold N. apply cancel. }
  rewrite W. clear W.
  assert (WP : forall x : R, In x (map (fun q => @div ROps (@ofnat ROps (pd_n q)) (@ofnat ROps t)) us) -> 0 <= x).
  { intros x I. apply in_map_iff in I. destruct I as (q & <- & _). rewrite !ofnat_R. rops. unfold Rdiv.
    assert (0 <= INR (pd_n q)) by apply pos_INR. assert (0 <= INR t) by apply pos_INR.
    apply Rmult_le_pos; auto. destruct (Req_dec (INR t) 0) as [->|]; [rewrite Rinv_0; lra|]. left. apply Rinv_0_lt_compat. lra. }
  revert WP H. generalize (map (fun q => @div ROps (@ofnat ROps (pd_n q)) (@ofnat ROps t)) us) as w. intros w WP H.
  assert (EB : map pd_b us' = map pd_b us) 
    by (clear -F; induction F as [|? ? ? ? (_ & H & _) ? IH]; cbn [map]; [reflexivity|rewrite H; f_equal; exact IH]).
  assert (ER : map pd_rate us' = map (Rmult N) (map pd_rate us))
    by (clear -F; induction F as [|? ? ? ? (_ & _ & _ & H) ? IH]; cbn [map]; [reflexivity|rewrite H; f_equal; exact IH]).
  rewrite EB, ER. rewrite !sumv_R in *. rops. change (@mul ROps) with Rmult in *. rewrite map2_scaled.
  apply pair_equal_spec in H. destruct H as (H & <-). apply pair_equal_spec in H. destruct H as (H & <-).
  apply pair_equal_spec in H. destruct H as (<- & <-).
  do 2 eexists. split; [reflexivity|].
  assert (G : forall us us', Forall2 prel us us' -> forall w, (forall x, In x w -> 0 <= x) ->
     Rsum (map2 Rmult w (map pd_sb us')) <= Rsum (map2 Rmult w (map pd_sb us)) / sqrt N).
  { clear. induction 1 as [|p p' us us' (_ & _ & H & _) R IH]; intros [|x w] WP; cbn [map map2 Rsum]; try (unfold Rdiv; lra).
    assert (A := IH w (fun y I => WP y (or_intror I))). assert (B := WP x (or_introl eq_refl)).
    unfold Rdiv in *. rewrite Rmult_plus_distr_r, (Rmult_assoc x).
    assert (x * pd_sb p' <= x * (pd_sb p * / sqrt N)) by now apply Rmult_le_compat_l. lra. }
  apply G; auto.
Qed.

Lemma time_outcome : forall (year mag ctime cmag : list R) dmag ref,
  @b_maxlike_time ROps year mag ctime cmag dmag ref
  = match @mle_loop ROps (length ctime) year mag ctime cmag dmag ref 0 with
    | Err e => Err e | Ok [] => Err NameError | Ok ps => Ok (outcome ps) end.
Proof. intros. unfold b_maxlike_time. destruct (mle_loop _ _ _ _ _ _ _ _) as [[|p ps]|]; reflexivity. Qed.

Lemma time_copies : forall (evs : list (R * R)) (ctime cmag : list R) dmag ref,
  let run l := @b_maxlike_time ROps (map fst l) (map snd l) ctime cmag dmag ref in
  (forall e, run evs = Err e -> run (copies n evs) = Err e) /\
  (forall b sb a sa, run evs = Ok (b, sb, a, sa) ->
     exists sb' sa', run (copies n evs) = Ok (b, sb', N * a, sa') /\ sb' <= sb / sqrt N).
Proof.
  intros evs ctime cmag dmag ref. cbv zeta beta. rewrite !time_outcome.
  destruct (loop_copies evs ctime cmag dmag ref (length ctime) 0) as (L1 & L2). cbv zeta in L1, L2. rops.
  match type of L1 with forall e, ?x = _ -> _ => destruct x as [ps|e] end.
  2:{ rewrite (L1 e eq_refl). split; [auto|discriminate]. }
  destruct (L2 ps eq_refl) as (ps' & E & R). rewrite E. clear L1 L2 E.
  destruct R as [|p p' ps ps' R0 R]; [split; [auto|discriminate]|].
  - assert (F : Forall2 prel (p :: ps) (p' :: ps')) by auto. split; [discriminate|]. intros b sb a sa Q.
    assert (Q' : outcome (p :: ps) = (b, sb, a, sa)) by congruence.
    destruct (outcome_copies _ _ F _ _ _ _ Q') as (sb' & sa' & O & B). exists sb', sa'. split; auto. now rewrite O.
Qed.

(** ** Weichert *)

Lemma hist2d_copies : forall (evs : list (R * R)) (g : R -> R) (ti mi : list R),
  @histogram2d ROps (map fst (copies n evs)) (map g (map snd (copies n evs))) ti mi
  = map (map (Nat.mul n)) (@histogram2d ROps (map fst evs) (map g (map snd evs)) ti mi).
Proof.
  intros evs g ti mi. unfold histogram2d. rewrite (map_map _ (map (Nat.mul n))). apply map_ext. intros a.
  rewrite (map_map _ (Nat.mul n)). apply map_ext. intros b.
  assert (E : forall l : list (R * R),
    map2 (fun y m => @in_bin ROps ti a y && @in_bin ROps mi b m)%bool (map fst l) (map g (map snd l))
    = map (fun p => @in_bin ROps ti a (fst p) && @in_bin ROps mi b (g (snd p)))%bool l)
    by (induction l as [|e l IH]; cbn [map map2 fst snd]; [auto|f_equal; exact IH]).
  rewrite !E, map_copies. apply count_copies.
Qed.

Lemma zero_corner_scaled : forall r c m,
  zero_corner r c (map (map (Nat.mul n)) m) = map (map (Nat.mul n)) (zero_corner r c m).
Proof.
  intros r c m. unfold zero_corner. rewrite map_length. generalize (seq 0 (length m)) as js.
  induction m as [|row m IH]; intros [|j js]; cbn [map map2]; auto. rewrite IH. f_equal.
  destruct (Nat.ltb j r); auto. rewrite map_length. generalize (seq 0 (length row)) as ks. clear.
  induction row as [|x row IH]; intros [|k ks]; cbn [map map2]; auto. rewrite IH. f_equal.
  destruct (Nat.ltb k c); lia.
Qed.

Lemma fold_scaled : forall (ti mi : list R) tab m,
  fold_left (@zero_incomplete ROps ti mi) tab (map (map (Nat.mul n)) m)
  = map (map (Nat.mul n)) (fold_left (@zero_incomplete ROps ti mi) tab m).
Proof.
  intros ti mi. induction tab as [|row tab IH]; intros m; cbn [fold_left]; auto. rewrite <- IH. f_equal.
  unfold zero_incomplete. destruct (last_opt _); auto. destruct (last_opt _); auto. apply zero_corner_scaled.
Qed.

Lemma prep_copies : forall (evs tab : list (R * R)) d_m d_t,
  @weichert_prep ROps (map fst (copies n evs)) (map snd (copies n evs)) tab d_m d_t
  = match @weichert_prep ROps (map fst evs) (map snd evs) tab d_m d_t with
    | Ok (cent, tper, obs) => Ok (cent, tper, map (Nat.mul n) obs) | Err e => Err e end.
Proof.
  intros. unfold weichert_prep.
  assert (EY : map fst (copies n evs) = copies n (map fst evs)) by apply map_copies.
  assert (EM : map (@round1 ROps) (map snd (copies n evs)) = copies n (map (@round1 ROps) (map snd evs)))
    by now rewrite !map_copies.
  assert (I1 : @minv ROps (map fst (copies n evs)) = @minv ROps (map fst evs)) by (rewrite EY; apply minv_copies).
  assert (I2 : @maxv ROps (map fst (copies n evs)) = @maxv ROps (map fst evs)) by (rewrite EY; apply maxv_copies).
  assert (I3 : @minv ROps (map (@round1 ROps) (map snd (copies n evs))) = @minv ROps (map (@round1 ROps) (map snd evs)))
    by (rewrite EM; apply minv_copies).
  assert (I4 : @maxv ROps (map (@round1 ROps) (map snd (copies n evs))) = @maxv ROps (map (@round1 ROps) (map snd evs)))
    by (rewrite EM; apply maxv_copies).
  rops. rewrite I1, I2, I3, I4.
  destruct (@minv ROps (map fst evs)) as [ymin|]; cbn [bind]; auto.
  destruct (@maxv ROps (map fst evs)) as [ymax|]; cbn [bind]; auto.
  destruct (@minv ROps (@map R R (@round1 ROps) (@map (R * R) R snd evs))) as [mmin|]; cbn [bind]; auto.
  destruct (@maxv ROps (@map R R (@round1 ROps) (@map (R * R) R snd evs))) as [mmax|]; cbn [bind]; auto.
  assert (H2 := hist2d_copies evs (@round1 ROps)). rops. rewrite H2, fold_scaled.
  destruct (mapM _ _) as [tper|]; cbn [bind]; auto. f_equal. f_equal.
  rops. match goal with |- context [map (map (Nat.mul n)) ?x] => generalize x end. intros h.
  rewrite (map_map _ (Nat.mul n)). apply map_ext. intros i.
  rewrite map_map, <- list_sum_scaled, map_map. f_equal. apply map_ext. intros row.
  rewrite <- (map_nth (Nat.mul n)). f_equal. lia.
Qed.

Lemma sums_copies : forall (tper fmag nobs : list R) beta d1 d2 ratio k,
  @weichert_sums ROps tper fmag nobs beta = (d1, d2, ratio, k) ->
  @weichert_sums ROps tper fmag (map (Rmult N) nobs) beta = (N * d1, N * d2, ratio, N * k) /\ k = Rsum nobs.
Proof.
  intros tper fmag nobs beta d1 d2 ratio k H. unfold weichert_sums in *. cbv zeta in *.
  rewrite !sumv_R in *. rops. change (@mul ROps) with Rmult in *. rewrite map2_scaled_l, Rsum_scaled.
  apply pair_equal_spec in H. destruct H as (H & <-). apply pair_equal_spec in H. destruct H as (H & <-).
  apply pair_equal_spec in H. destruct H as (<- & <-). split; auto.
  f_equal. f_equal. f_equal; ring.
Qed.

Lemma weichert_loop_copies : forall fuel (tper fmag : list R) (obs : list nat) m0 mrate beta itstab,
  let run l := @weichert_loop ROps fuel tper fmag l m0 mrate beta itstab in
  (forall e, run (map INR obs) = Err e -> run (map (Rmult N) (map INR obs)) = Err e) /\
  (forall b sb a sa, run (map INR obs) = Ok (b, sb, a, sa) ->
     run (map (Rmult N) (map INR obs)) = Ok (b, sb / sqrt N, N * a, sqrt N * sa)).
Proof.
  assert (NP := N_pos).
  induction fuel as [|fuel IH]; intros tper fmag obs m0 mrate beta itstab; cbv zeta; cbn [weichert_loop].
  - split; [auto|discriminate].
  - destruct (@weichert_sums ROps tper fmag (map INR obs) beta) as [[[d1 d2] ratio] k] eqn:S.
    destruct (sums_copies _ _ _ _ _ _ _ _ S) as (S' & K). rewrite S'. rops. rewrite cancel.
    assert (KP : 0 <= k). { rewrite K, INR_sum. apply pos_INR. }
    assert (SN : 0 < sqrt N) by now apply sqrt_lt_R0.
    assert (SS : sqrt N * sqrt N = N) by (apply sqrt_sqrt; lra).
    assert (QS : forall x, N * x / sqrt (N * k) = sqrt N * (x / sqrt k)).
    { intros x. rewrite sqrt_mult by lra. rewrite <- SS at 1. unfold Rdiv. rewrite Rinv_mult. set (z := / sqrt k). field. lra. }
    assert (Q1 : sqrt (-1 / (N * d2)) = sqrt (-1 / d2) / sqrt N).
    { rewrite <- sqrt_N. f_equal. unfold Rdiv. rewrite Rinv_mult. ring. }
    change (- (1)) with (-1) in *.
    replace (- 1 / (N * d2)) with (-1 / (N * d2)) by (f_equal; lra).
    replace (- 1 / d2) with (-1 / d2) by (f_equal; lra).
    rewrite Q1.
    destruct (Rleb (Rabs (beta - d1 / d2 - beta)) itstab).
    + destruct (Reqb mrate 0).
      * split; [discriminate|]. intros b sb a sa H. injection H as <- <- <- <-. f_equal. f_equal; [f_equal; [f_equal|]|].
        -- unfold Rdiv. ring.
        -- ring.
        -- rewrite <- QS. f_equal. ring.
      * split; [discriminate|]. intros b sb a sa H. injection H as <- <- <- <-. f_equal. f_equal; [f_equal; [f_equal|]|].
        -- unfold Rdiv. ring.
        -- ring.
        -- rewrite <- QS. f_equal. ring.
    + apply IH.
Qed.

Lemma C110_copies : forall fuel (evs tab : list (R * R)) window alg ref twin,
  let run l := @recurrence_analysis ROps fuel (map fst l) (map snd l) tab window alg ref twin in
  (forall e, run evs = Err e -> run (copies n evs) = Err e) /\
  (forall b sb a sa, run evs = Ok (b, sb, a, sa) -> exists sb' sa',
     run (copies n evs) = Ok (b, sb', N * a, sa') /\
     (alg = "Weichert"%string -> sb' = sb / sqrt N /\ sa' = sqrt N * sa) /\
     (alg <> "Weichert"%string -> sb' <= sb / sqrt N)).
Proof.
  intros fuel evs tab window alg ref twin. cbv zeta. unfold recurrence_analysis.
  destruct (String.eqb_spec alg "Weichert").
  - rewrite prep_copies. rops.
    match goal with |- context [@weichert_prep ROps ?a ?b ?c ?d ?e] =>
      destruct (@weichert_prep ROps a b c d e) as [[[cent tper] obs]|e'] end; cbn [bind].
    2:{ split; [auto|discriminate]. }
    assert (EO : map (@ofnat ROps) (map (Nat.mul n) obs) = map (Rmult N) (map INR obs)).
    { rewrite <- INR_scaled. apply map_ext. exact ofnat_R. }
    assert (EI : map (@ofnat ROps) obs = map INR obs) by (apply map_ext; exact ofnat_R).
    rops. rewrite EO, EI. unfold weichert.
    destruct cent as [|f0 [|f1 rest]]; try (split; [auto|discriminate]).
    destruct (weichert_loop_copies fuel tper (f0 :: f1 :: rest) obs (f0 - (f1 - f0) / 2) ref (@lit ROps 15 10) (@lit ROps 1 100000)) as (W1 & W2).
    rops. split; [exact W1|]. intros b sb a sa H. exists (sb / sqrt N), (sqrt N * sa).
    split; [exact (W2 b sb a sa H)|]. split; [auto|]. contradiction.
  - destruct (time_copies evs (map fst tab) (map snd tab) window ref) as (T1 & T2). split; [exact T1|].
    intros b sb a sa H. destruct (T2 b sb a sa H) as (sb' & sa' & E & L). exists sb', sa'.
    split; [exact E|]. split; [contradiction|auto].
Qed.

End Copies.

Lemma C110_proof : forall n fuel (evs evs' tab : list (R * R)) window alg ref twin, (0 < n)%nat ->
  Permutation evs' (copies n evs) ->
  let run l := @recurrence_analysis ROps fuel (map fst l) (map snd l) tab window alg ref twin in
  (forall e, run evs' = Err e <-> run evs = Err e) /\
  (forall b sb a sa, run evs = Ok (b, sb, a, sa) -> exists sb' sa',
     run evs' = Ok (b, sb', INR n * a, sa') /\
     (alg = "Weichert"%string -> sb' = sb / sqrt (INR n) /\ sa' = sqrt (INR n) * sa) /\
     (alg <> "Weichert"%string -> sb' <= sb / sqrt (INR n))).
Proof.
  intros n fuel evs evs' tab window alg ref twin NP P run.
  destruct (C110_copies n NP fuel evs tab window alg ref twin) as (A & B).
  assert (E : run evs' = run (copies n evs)) by now apply C98_proof.
  rewrite E. split; [|exact B]. intros e. split; [|apply A]. intros H.
  destruct (run evs) as [[[[b sb] a] sa]|e'] eqn:R.
  - destruct (B b sb a sa R) as (sb' & sa' & H' & _). unfold run in H. rewrite H in H'. discriminate.
  - specialize (A e' R). unfold run in H. rewrite H in A. injection A as ->. auto.
Qed.
