(** Proofs for the recurrence properties C35-C43. *)
From Coq Require Import ZArith Arith Bool List Lia Reals Lra Permutation.
From Verif Require Import Base Ops BaseFacts RFacts SteppSpec Completeness Recurrence RecurrenceSpec SteppProofs.
Import ListNotations.
Local Open Scope R_scope.

(** [rops] in the goal only. *)
Ltac ropsg := cbn [T ofZ add sub mul div neg absv ltb leb eqb sqrtv expv lnv log10v sinv cosv
  atan2v powv floorv ceilv rintv toZ piv ROps].

(** ** Histograms *)

Lemma in_bin_grid : forall lo hi w k (x : R), 0 < w -> (k + 1 < @arange_len ROps lo hi w)%nat ->
  x < lo + INR (@arange_len ROps lo hi w - 1) * w ->
  @in_bin ROps (@arange ROps lo hi w) k x = bin_of lo w k x.
Proof.
  intros lo hi w k x Hw Hk Hx. unfold in_bin, bin_of.
  rewrite (nth_of_error _ _ k (lo + INR k * w)) by (apply arange_nth; lia).
  rewrite (nth_of_error _ _ (k + 1) (lo + INR (k + 1) * w)) by (apply arange_nth; lia).
  rops. f_equal. rewrite arange_length.
  destruct (Nat.eqb (k + 2) (@arange_len ROps lo hi w)) eqn:E; auto.
  apply Nat.eqb_eq in E.
  replace (@arange_len ROps lo hi w - 1)%nat with (k + 1)%nat in Hx by lia.
  assert (Rleb x (lo + INR (k + 1) * w) = true) by (apply Rleb_true; lra).
  assert (Rltb x (lo + INR (k + 1) * w) = true) by (apply Rltb_true; lra).
  congruence.
Qed.

Lemma count_true_count : forall A (p : A -> bool) l, count_true (map p l) = count p l.
Proof. intros. rewrite count_true_filter. reflexivity. Qed.

Lemma list_sum_nsum : forall l, list_sum l = nsum l.
Proof. induction l; auto. Qed.

(** The half-open bins k, k+1, ..., k+n-1 hold the values from edge k to edge k+n. *)
Lemma bins_from : forall lo w k n xs, 0 < w ->
  (forall x, In x xs -> x < lo + INR (k + n) * w) ->
  list_sum (map (fun j => count (bin_of lo w j) xs) (seq k n))
  = count (fun x => Rleb (lo + INR k * w) x) xs.
Proof.
  intros lo w k n xs Hw Hx. rewrite list_sum_nsum, nsum_count_swap.
  apply nsum_indicator. intros a Ha. specialize (Hx a Ha).
  destruct (Rleb (lo + INR k * w) a) eqn:E.
  - apply Rleb_true in E.
    assert (B := bins_below (fun j => lo + INR (k + j) * w) a n).
    replace (seq k n) with (map (fun j => (k + j)%nat) (seq 0 n)).
    + rewrite count_map.
      rewrite (count_ext _ _ (fun j => Rleb (lo + INR (k + j) * w) a && Rltb a (lo + INR (k + S j) * w))%bool).
      * rewrite B.
        -- assert (Q : Rltb a (lo + INR (k + n) * w) = true) by (apply Rltb_true; auto).
           rewrite Q. auto.
        -- intros j. rewrite <- plus_n_Sm, S_INR. nra.
        -- rewrite Nat.add_0_r. auto.
      * intros j _. unfold bin_of. replace (k + j + 1)%nat with (k + S j)%nat by lia. auto.
    + clear. revert k. induction n; intros; simpl; auto. rewrite Nat.add_0_r. f_equal.
      rewrite <- (IHn (S k)). rewrite <- seq_shift, map_map. apply map_ext. intros. lia.
  - apply Rleb_false in E. apply count_none. intros j Hj. apply in_seq in Hj.
    unfold bin_of. apply andb_false_iff. left. apply Rleb_false.
    assert (INR k <= INR j) by (apply le_INR; lia). nra.
Qed.

Lemma nth_error_suffix_sums : forall l k, (k < length l)%nat ->
  nth_error (suffix_sums l) k = Some (list_sum (skipn k l)).
Proof.
  induction l; intros k H; simpl in H; [lia|]. destruct k; auto. simpl. apply IHl. lia.
Qed.

Lemma length_suffix_sums : forall l, length (suffix_sums l) = length l.
Proof. induction l; simpl; auto. Qed.

Lemma skipn_seq_map : forall A (f : nat -> A) n k s,
  skipn k (map f (seq s n)) = map f (seq (s + k) (n - k)).
Proof.
  intros A f n. induction n; intros k s; destruct k; simpl; auto.
  - rewrite Nat.add_0_r. auto.
  - rewrite IHn. f_equal. f_equal. lia.
Qed.

Lemma nth_error_combine : forall A B (l : list A) (m : list B) k a b,
  nth_error l k = Some a -> nth_error m k = Some b -> nth_error (combine l m) k = Some (a, b).
Proof.
  induction l; intros m k x y H1 H2; destruct k, m; simpl in *; try discriminate; auto.
  congruence.
Qed.

Lemma nth_error_removelast : forall A (l : list A) k, (k + 1 < length l)%nat ->
  nth_error (removelast l) k = nth_error l k.
Proof.
  induction l as [|a l IH]; intros k H; simpl in H; [lia|].
  destruct l as [|b l]; [simpl in H; lia|].
  change (removelast (a :: b :: l)) with (a :: removelast (b :: l)).
  destruct k; auto. cbn [nth_error]. apply IH. simpl in *. lia.
Qed.

Lemma length_removelast : forall A (l : list A), length (removelast l) = (length l - 1)%nat.
Proof.
  induction l as [|a l IH]; auto. destruct l as [|b l]; auto.
  change (removelast (a :: b :: l)) with (a :: removelast (b :: l)).
  simpl length in *. lia.
Qed.

(** The edges of the recurrence table: they start at a tenth below the smallest magnitude
    and the last one is above every magnitude. *)
Lemma rec_edges : forall (mag : list R) dmag, 0 < dmag -> mag <> [] ->
  exists lo hi, @rec_mag_range ROps mag dmag = Ok (@arange ROps lo hi dmag) /\
    tenth_below mag lo /\ (1 < @arange_len ROps lo hi dmag)%nat /\
    forall m, In m mag -> lo <= m <= lo + INR (@arange_len ROps lo hi dmag - 2) * dmag.
Proof.
  intros mag dmag Hd Hm. unfold rec_mag_range.
  set (cs := map (fun m : R => IZR (Rceil (10 * m)) / 10) mag).
  set (fs := map (fun m : R => IZR (Rfloor (10 * m)) / 10) mag).
  destruct (maxv_ok cs) as [up Hup]. { unfold cs. destruct mag; simpl; congruence. }
  destruct (minv_ok fs) as [lo Hlo]. { unfold fs. destruct mag; simpl; congruence. }
  unfold cs in Hup. unfold fs in Hlo. rops. rewrite Hup, Hlo. fold cs in Hup. fold fs in Hlo. cbn [bind].
  exists lo, (up + (2 * dmag)). split; [reflexivity|].
  apply maxv_spec in Hup. apply minv_spec in Hlo. destruct Hup as [U1 U2], Hlo as [L1 L2].
  assert (LO : forall m, In m mag -> lo <= m).
  { intros m H. specialize (L2 (IZR (Rfloor (10 * m)) / 10)).
    assert (lo <= IZR (Rfloor (10 * m)) / 10).
    { apply L2. unfold fs. apply in_map_iff. exists m. split; auto. }
    destruct (Rfloor_spec (10 * m)). lra. }
  assert (UP : forall m, In m mag -> m <= up).
  { intros m H. specialize (U2 (IZR (Rceil (10 * m)) / 10)).
    assert (IZR (Rceil (10 * m)) / 10 <= up).
    { apply U2. unfold cs. apply in_map_iff. exists m. split; auto. }
    destruct (Rceil_spec (10 * m)). lra. }
  destruct mag as [|m0 mag']; [congruence|].
  assert (lo <= up) by (specialize (LO m0 (or_introl eq_refl)); specialize (UP m0 (or_introl eq_refl)); lra).
  assert (L : (1 < @arange_len ROps lo (up + 2 * dmag)%R dmag)%nat).
  { apply arange_len_lt; auto. simpl. lra. }
  split; [|split; auto].
  - destruct (minv_ok (m0 :: mag')) as [mm Hmm]; [congruence|].
    apply minv_spec in Hmm. destruct Hmm as [M1 M2].
    unfold fs in L1. apply in_map_iff in L1. destruct L1 as [m1 [E1 I1]].
    exists mm, (Rfloor (10 * m1)). split; [split; auto|]. rops. split; auto.
    split. { apply LO; auto. }
    destruct (Rfloor_spec (10 * m1)). specialize (M2 m1 I1). rops. lra.
  - intros m H1. split. { apply LO; auto. }
    specialize (UP m H1).
    set (n := @arange_len ROps lo (up + 2 * dmag)%R dmag) in *.
    assert (N : ~ (n < @arange_len ROps lo (up + 2 * dmag)%R dmag)%nat) by (unfold n; lia).
    rewrite arange_len_lt in N by auto.
    assert (INR n = INR (n - 2) + 2). { replace n with (S (S (n - 2))) at 1 by lia. rewrite !S_INR. lra. }
    rops. rewrite H0 in N. lra.
Qed.

Definition rec_spec (mag year : list R) (dmag : R) (tab : list (@rec_row ROps)) (lo : R) : Prop :=
  exists first last, is_min first year /\ is_max last year /\
  (forall k row, nth_error tab k = Some row ->
     rc_mag row = lo + (INR k + 1 / 2) * dmag /\
     rc_n row = INR (count (bin_of lo dmag k) mag) /\
     rc_cum row = INR (count (fun m => Rleb (lo + INR k * dmag) m) mag) /\
     rc_n_annual row = rc_n row / (last - first + 1) /\
     rc_cum_annual row = rc_cum row / (last - first + 1)) /\
  (exists row, nth_error tab 0 = Some row /\ rc_cum row = INR (length mag)) /\
  (forall m, In m mag -> lo <= m <= lo + INR (length tab - 1) * dmag) /\
  (forall m, In m mag -> lo <= m < lo + INR (length tab) * dmag).

Lemma C35_core : forall (mag year : list R) dmag, 0 < dmag -> mag <> [] -> year <> [] ->
  exists tab lo, @recurrence_table ROps mag dmag year = Ok tab /\
    tenth_below mag lo /\ rec_spec mag year dmag tab lo.
Proof.
  intros mag year dmag Hd Hm Hy.
  destruct (maxv_ok year Hy) as [ly HL]. destruct (minv_ok year Hy) as [fy HF].
  destruct (rec_edges mag dmag Hd Hm) as (lo & hi & E & TB & L & B2).
  assert (B : forall m, In m mag -> lo <= m < lo + INR (@arange_len ROps lo hi dmag - 1) * dmag).
  { intros m Im. destruct (B2 m Im).
    replace (@arange_len ROps lo hi dmag - 1)%nat with (S (@arange_len ROps lo hi dmag - 2)) by lia.
    rewrite S_INR. lra. }
  unfold recurrence_table. rewrite HL, HF. cbn [bind]. rewrite E. cbn [bind].
  set (n := @arange_len ROps lo hi dmag) in *.
  set (edges := @arange ROps lo hi dmag) in *.
  assert (LE : length edges = n) by apply arange_length.
  set (h := @histogram ROps mag edges).
  assert (LH : length h = (n - 1)%nat). { unfold h, histogram. rewrite map_length, seq_length, LE. auto. }
  assert (H1 : h = map (fun k => count (bin_of lo dmag k) mag) (seq 0 (n - 1))).
  { unfold h, histogram. rewrite LE. apply map_ext_in. intros k Hk. apply in_seq in Hk.
    rewrite count_true_count. apply count_ext. intros m Im.
    apply in_bin_grid; auto. fold n. lia. apply B; auto. }
  eexists. exists lo. split; [reflexivity|]. split; auto.
  apply maxv_spec in HL. apply minv_spec in HF.
  exists fy, ly. split; auto. split; auto.
  assert (MAIN : forall k, (k < n - 1)%nat ->
    nth_error (map2 (fun m nc => mkRec (AR := ROps) m (@ofnat ROps (fst nc)) (@ofnat ROps (snd nc))
              (@ofnat ROps (fst nc) / (ly - fy + 1)) (@ofnat ROps (snd nc) / (ly - fy + 1)))
      (map (fun m => m + dmag / 2) (removelast edges)) (combine h (suffix_sums h))) k
    = Some (mkRec (AR := ROps) (lo + (INR k + 1/2) * dmag) (INR (count (bin_of lo dmag k) mag))
         (INR (count (fun m => Rleb (lo + INR k * dmag) m) mag))
         (INR (count (bin_of lo dmag k) mag) / (ly - fy + 1))
         (INR (count (fun m => Rleb (lo + INR k * dmag) m) mag) / (ly - fy + 1)))).
  { intros k Hk.
    rewrite (nth_error_map2 _ _ _ _ _ _ k (lo + (INR k + 1/2) * dmag)
      (count (bin_of lo dmag k) mag, count (fun m => Rleb (lo + INR k * dmag) m) mag)).
    - cbn [fst snd]. rewrite !ofnat_R. reflexivity.
    - rewrite nth_error_map. rewrite nth_error_removelast by lia.
      unfold edges. rewrite arange_nth by (fold n; lia). simpl. f_equal. field.
    - apply nth_error_combine.
      + rewrite H1, nth_error_map, nth_error_seq by lia. auto.
      + rewrite nth_error_suffix_sums by lia. f_equal.
        rewrite H1, skipn_seq_map. rewrite bins_from; auto.
        intros x Hx. simpl plus. replace (k + (n - 1 - k))%nat with (n - 1)%nat by lia. apply B; auto. }
  rops.
  match goal with |- context [map2 ?f ?a ?b] => set (tab := map2 f a b) in * end.
  assert (LT : length tab = (n - 1)%nat).
  { unfold tab. rewrite length_map2, map_length, length_removelast, combine_length,
      length_suffix_sums, LE, LH. lia. }
  split; [|split; [|split]].
  - intros k row Hk. assert (Hk' := nth_error_lt _ _ _ _ Hk). rewrite LT in Hk'.
    rewrite MAIN in Hk by auto. injection Hk. intros <-. cbn. auto.
  - eexists. split. { apply MAIN. lia. }
    cbn [rc_cum]. f_equal. apply count_all. intros m Im. apply Rleb_true.
    simpl. specialize (B m Im). lra.
  - intros m Im. rewrite LT. replace (n - 1 - 1)%nat with (n - 2)%nat by lia. apply B2; auto.
  - intros m Im. rewrite LT. apply B; auto.
Qed.

Lemma bin_exists_unique : forall lo w n x, 0 < w -> lo <= x < lo + INR n * w ->
  exists k, (k < n)%nat /\ bin_of lo w k x = true /\
    forall k', bin_of lo w k' x = true -> k' = k.
Proof.
  intros lo w n x Hw. induction n; intros H.
  - simpl in H. lra.
  - destruct (Rlt_dec x (lo + INR n * w)).
    + destruct IHn as (k & H1 & H2 & H3). lra. exists k. split; [lia|auto].
    + exists n. split; [lia|].
      assert (B : bin_of lo w n x = true).
      { unfold bin_of. apply andb_true_iff. rewrite Rleb_true, Rltb_true.
        replace (n + 1)%nat with (S n) by lia. lra. }
      split; auto. intros k' Hk'. unfold bin_of in *.
      apply andb_true_iff in Hk', B. rewrite Rleb_true, Rltb_true in *.
      assert (INR k' < INR (n + 1)) by nra. assert (INR n < INR (k' + 1)) by nra.
      apply INR_lt in H0, H1. lia.
Qed.

Lemma C35_proof : forall (mag year : list R) dmag, 0 < dmag -> mag <> [] -> year <> [] ->
  exists tab lo first last,
    @recurrence_table ROps mag dmag year = Ok tab /\
    tenth_below mag lo /\ is_min first year /\ is_max last year /\
    (forall k row, nth_error tab k = Some row ->
       rc_mag row = lo + (INR k + 1 / 2) * dmag /\
       rc_n row = INR (count (bin_of lo dmag k) mag) /\
       rc_cum row = INR (count (fun m => Rleb (lo + INR k * dmag) m) mag) /\
       rc_n_annual row = rc_n row / (last - first + 1) /\
       rc_cum_annual row = rc_cum row / (last - first + 1)) /\
    (exists row, nth_error tab 0 = Some row /\ rc_cum row = INR (length mag)) /\
    (forall m, In m mag -> exists k, (k < length tab)%nat /\ bin_of lo dmag k m = true /\
       forall k', bin_of lo dmag k' m = true -> k' = k).
Proof.
  intros mag year dmag Hd Hm Hy.
  destruct (C35_core mag year dmag Hd Hm Hy) as (tab & lo & E & TB & first & last & F & L & R & Z & _ & B).
  exists tab, lo, first, last. repeat (split; auto).
  intros m Im. apply bin_exists_unique; auto.
Qed.

(** The events in bins k, k+1, ... of the table add up to the cumulative column. *)
Lemma C35_cumulative_proof : forall (mag year : list R) dmag tab, 0 < dmag ->
  @recurrence_table ROps mag dmag year = Ok tab ->
  (forall k row, nth_error tab k = Some row -> rc_cum row = Rsum (skipn k (map rc_n tab))) /\
  (forall k row row', nth_error tab k = Some row -> nth_error tab (k + 1) = Some row' ->
     rc_cum row' <= rc_cum row).
Proof.
  intros mag year dmag tab Hd E.
  assert (Hm : mag <> []).
  { intros ->. unfold recurrence_table in E. destruct (@maxv ROps year); [|discriminate].
    destruct (@minv ROps year); discriminate. }
  assert (Hy : year <> []). { intros ->. discriminate. }
  destruct (C35_core mag year dmag Hd Hm Hy) as (tab' & lo & E' & TB & first & last & F & L & R & Z & _ & B).
  rewrite E in E'. injection E'. intros <-. clear E'.
  split.
  - intros k row Hk.
    assert (T1 : map rc_n tab = map (fun j => INR (count (bin_of lo dmag j) mag)) (seq 0 (length tab))).
    { apply list_ext. rewrite !map_length, seq_length. auto. intros i a b H1 H2.
      apply nth_error_map_inv in H1. destruct H1 as [r [H1 ->]].
      assert (Li := nth_error_lt _ _ _ _ H1).
      rewrite nth_error_map, nth_error_seq in H2 by auto. injection H2. intros <-.
      apply R in H1. simpl. tauto. }
    rewrite T1, skipn_seq_map. simpl plus.
    assert (Lk := nth_error_lt _ _ _ _ Hk). apply R in Hk. destruct Hk as (_ & _ & -> & _).
    rewrite <- (bins_from lo dmag k (length tab - k)); auto.
    + clear. generalize (length tab - k)%nat. intros n. revert k. induction n; intros; auto.
      cbn [seq map list_sum Rsum fold_right]. rewrite plus_INR. f_equal. apply IHn.
    + intros x Hx. replace (k + (length tab - k))%nat with (length tab) by lia. apply B; auto.
  - intros k row row' H1 H2. apply R in H1, H2.
    destruct H1 as (_ & _ & -> & _), H2 as (_ & _ & -> & _). apply le_INR.
    apply count_le. intros m _. rewrite !Rleb_true, plus_INR. simpl. lra.
Qed.

(** ** Maximum likelihood b-value *)

Lemma mask_get_combine_snd : forall A B (p : A -> bool) (l : list A) (m : list B),
  length l = length m ->
  mask_get (map p l) m = map snd (filter (fun q => p (fst q)) (combine l m)).
Proof.
  induction l; intros m H; destruct m; simpl in *; try discriminate; auto.
  destruct (p a); simpl; rewrite IHl; auto.
Qed.

Lemma mask_get_combine_fst : forall A B (p : A -> bool) (l : list A) (m : list B),
  length l = length m ->
  mask_get (map p l) l = map fst (filter (fun q => p (fst q)) (combine l m)).
Proof.
  induction l; intros m H; destruct m; simpl in *; try discriminate; auto.
  destruct (p a); simpl; rewrite (IHl m); auto.
Qed.

Lemma map2_fst_snd : forall A B C (f : A -> B -> C) (ev : list (A * B)),
  map2 f (map fst ev) (map snd ev) = map (fun p => f (fst p) (snd p)) ev.
Proof. induction ev; simpl; auto. rewrite IHev. auto. Qed.

Lemma map2_map_r : forall A B C D (f : A -> B -> C) (g : D -> B) l m,
  map2 f l (map g m) = map2 (fun a d => f a (g d)) l m.
Proof. induction l; destruct m; simpl; auto. rewrite IHl. auto. Qed.

Lemma map2_flip : forall A B C (f : A -> B -> C) l m,
  map2 f l m = map2 (fun b a => f a b) m l.
Proof. induction l; destruct m; simpl; auto. rewrite IHl. auto. Qed.

(** The histogram bins at or above the completeness magnitude, with their counts. *)
Definition complete_bins (m_c : R) (mval nobs : list R) : list (R * R) :=
  filter (fun p => Rleb m_c (fst p)) (combine mval nobs).

Lemma bml_eval : forall mval nobs dmag m_c mmin, length mval = length nobs ->
  let ev := complete_bins m_c mval nobs in
  is_min mmin (map fst ev) ->
  @b_max_likelihood ROps mval nobs dmag m_c =
  let b := Rlog10 (exp 1) / (wmean ev - mmin + dmag / 2) in
  Ok (b, 23 / 10 * (b * b) * sqrt (wsum (fun m => (m - wmean ev) * (m - wmean ev)) ev
                                   / (wtotal ev * (wtotal ev - 1)))).
Proof.
  intros mval nobs dmag m_c mmin L ev M. unfold b_max_likelihood.
  rewrite (mask_get_combine_snd _ _ _ _ nobs L), (mask_get_combine_fst _ _ _ _ nobs L).
  rops. change (filter (fun q : R * R => Rleb m_c (fst q)) (combine mval nobs)) with ev.
  apply minv_spec in M. rewrite M. cbn [bind].
  rewrite !sumv_R. rops.
  assert (E1 : Rsum (map2 Rmult (map fst ev) (map snd ev)) = wsum (fun m => m) ev).
  { rewrite map2_fst_snd. unfold wsum. f_equal. apply map_ext. intros; ring. }
  rewrite E1. change (Rsum (map snd ev)) with (wtotal ev).
  change (wsum (fun m : R => m) ev / wtotal ev) with (wmean ev).
  unfold lit, sq. rops. cbv zeta. repeat f_equal.
  rewrite map2_map_r, map2_flip, map2_fst_snd. reflexivity.
Qed.

Lemma wsum_nonneg : forall f ev, (forall p, In p ev -> 0 <= snd p) ->
  (forall p, In p ev -> 0 <= f (fst p)) -> 0 <= wsum f ev.
Proof.
  intros. unfold wsum. apply Rsum_nonneg. intros x Hx. apply in_map_iff in Hx.
  destruct Hx as [p [<- Hp]]. apply Rmult_le_pos; auto.
Qed.

Lemma wsum_const : forall c ev, wsum (fun _ => c) ev = c * wtotal ev.
Proof. intros. unfold wsum, wtotal. induction ev; simpl; [lra|]. rewrite IHev. lra. Qed.

Lemma wsum_minus : forall c ev, wsum (fun m => m - c) ev = wsum (fun m => m) ev - c * wtotal ev.
Proof. intros. unfold wsum, wtotal. induction ev; simpl; [lra|]. rewrite IHev. lra. Qed.

Lemma wsum_lin : forall a b f g ev, wsum (fun m => a * f m + b * g m) ev = a * wsum f ev + b * wsum g ev.
Proof. intros. unfold wsum. induction ev; simpl; [lra|]. rewrite IHev. lra. Qed.

Lemma wsum_ext : forall f g ev, (forall p, In p ev -> f (fst p) = g (fst p)) -> wsum f ev = wsum g ev.
Proof.
  intros. unfold wsum. f_equal. apply map_ext_in. intros p Hp. rewrite H; auto.
Qed.

Lemma wmean_ge : forall ev mmin, (forall p, In p ev -> 0 <= snd p) -> 0 < wtotal ev ->
  (forall p, In p ev -> mmin <= fst p) -> mmin <= wmean ev.
Proof.
  intros ev mmin H1 H2 H3. unfold wmean.
  assert (0 <= wsum (fun m => m - mmin) ev).
  { apply wsum_nonneg; auto. intros p Hp. specialize (H3 p Hp). lra. }
  rewrite wsum_minus in H. apply (Rmult_le_reg_r (wtotal ev)); auto.
  unfold Rdiv. rewrite Rmult_assoc, Rinv_l by lra. lra.
Qed.

Lemma log10e_pos : 0 < Rlog10 (exp 1).
Proof. unfold Rlog10. rewrite ln_exp. apply Rdiv_lt_0_compat. lra. apply ln10_pos. Qed.

Lemma bins_weights : forall m_c mval nobs p, (forall n, In n nobs -> 0 <= n) ->
  In p (complete_bins m_c mval nobs) -> 0 <= snd p /\ m_c <= fst p.
Proof.
  intros. unfold complete_bins in *. apply filter_In in H0. destruct H0. apply Rleb_true in H1.
  destruct p as [m n]. apply in_combine_r in H0. simpl in *. auto.
Qed.

Lemma C36_proof : forall (mval nobs : list R) (dmag m_c : R),
  length mval = length nobs -> (forall n, In n nobs -> 0 <= n) -> 0 < dmag ->
  let ev := filter (fun p => Rleb m_c (fst p)) (combine mval nobs) in
  0 < wtotal ev ->
  exists mmin b s, @b_max_likelihood ROps mval nobs dmag m_c = Ok (b, s) /\
    is_min mmin (map fst ev) /\
    b = Rlog10 (exp 1) / (wmean ev - mmin + dmag / 2) /\
    0 < b <= Rlog10 (exp 1) / (dmag / 2) /\
    s = 23 / 10 * (b * b) * sqrt (wsum (fun m => (m - wmean ev) * (m - wmean ev)) ev
                                  / (wtotal ev * (wtotal ev - 1))) /\
    (forall beta, 0 < beta ->
       exp_loglik (mmin - dmag / 2) beta ev <= exp_loglik (mmin - dmag / 2) (b * ln 10) ev).
Proof.
  intros mval nobs dmag m_c L N D ev W.
  change ev with (complete_bins m_c mval nobs) in *. clear ev.
  set (ev := complete_bins m_c mval nobs) in *.
  assert (Hne : ev <> []). { intros E. rewrite E in W. unfold wtotal in W. simpl in W. lra. }
  destruct (minv_ok (map fst ev)) as [mmin HM]. { destruct ev; simpl; congruence. }
  apply minv_spec in HM.
  set (b := Rlog10 (exp 1) / (wmean ev - mmin + dmag / 2)).
  exists mmin, b. eexists. split. { rewrite (bml_eval mval nobs dmag m_c mmin L HM). reflexivity. }
  split; [exact HM|]. split; [reflexivity|].
  assert (WP : forall p, In p ev -> 0 <= snd p).
  { intros p Hp. apply (bins_weights m_c mval nobs p); auto. }
  assert (G : mmin <= wmean ev).
  { apply wmean_ge; auto. intros p Hp. apply HM. apply in_map. auto. }
  assert (LE := log10e_pos).
  set (d := wmean ev - mmin + dmag / 2) in *. assert (Dp : dmag / 2 <= d) by (unfold d; lra).
  split; [|split; auto].
  - split. { unfold b. apply Rdiv_lt_0_compat; lra. }
    unfold b, Rdiv at 1. unfold Rdiv at 2. apply Rmult_le_compat_l; [lra|].
    apply Rinv_le_contravar; lra.
  - intros beta Hb.
    assert (E : b * ln 10 = / d).
    { unfold b, Rlog10. rewrite ln_exp. assert (H := ln10_pos). field. split; lra. }
    rewrite E.
    assert (F : forall be, 0 < be -> exp_loglik (mmin - dmag / 2) be ev = wtotal ev * (ln be - be * d)).
    { intros be _. unfold exp_loglik.
      rewrite (wsum_ext _ (fun m => (ln be + be * (mmin - dmag / 2)) * 1 + (- be) * m)).
      - rewrite (wsum_lin _ _ (fun _ => 1) (fun m => m)), wsum_const.
        assert (wsum (fun m => m) ev = wmean ev * wtotal ev). { unfold wmean. field. lra. }
        rewrite H. unfold d. ring.
      - intros. ring. }
    rewrite !F; auto. 2: { apply Rinv_0_lt_compat. lra. }
    apply Rmult_le_compat_l; [lra|].
    rewrite Rinv_l, ln_Rinv by lra.
    assert (X : ln (beta * d) <= beta * d - 1).
    { assert (0 < beta * d) by (apply Rmult_lt_0_compat; lra).
      assert (Y := exp_ineq1_le (ln (beta * d))). rewrite exp_ln in Y by auto. lra. }
    rewrite ln_mult in X by lra. lra.
Qed.

Lemma combine_shift : forall c (l m : list R),
  combine (map (fun x => x + c) l) m = map (fun p => (fst p + c, snd p)) (combine l m).
Proof. induction l; destruct m; simpl; auto. rewrite IHl. auto. Qed.

Lemma complete_bins_shift : forall c m_c (l m : list R),
  complete_bins (m_c + c) (map (fun x => x + c) l) m
  = map (fun p => (fst p + c, snd p)) (complete_bins m_c l m).
Proof.
  intros. unfold complete_bins. rewrite combine_shift. induction (combine l m) as [|p r IH]; auto.
  simpl. replace (Rleb (m_c + c) (fst p + c)) with (Rleb m_c (fst p)).
  - destruct (Rleb m_c (fst p)); simpl; rewrite IH; auto.
  - destruct (Rleb m_c (fst p)) eqn:E; symmetry.
    + apply Rleb_true. apply Rleb_true in E. lra.
    + apply Rleb_false. apply Rleb_false in E. lra.
Qed.

Lemma wtotal_shift : forall c ev, wtotal (map (fun p : R * R => (fst p + c, snd p)) ev) = wtotal ev.
Proof. intros. unfold wtotal. rewrite map_map. reflexivity. Qed.

Lemma wsum_shift : forall f c ev,
  wsum f (map (fun p => (fst p + c, snd p)) ev) = wsum (fun m => f (m + c)) ev.
Proof. intros. unfold wsum. rewrite map_map. reflexivity. Qed.

Lemma C36_shift_proof : forall (mval nobs : list R) (dmag m_c c : R),
  length mval = length nobs ->
  0 < wtotal (filter (fun p => Rleb m_c (fst p)) (combine mval nobs)) ->
  @b_max_likelihood ROps (map (fun x => x + c) mval) nobs dmag (m_c + c)
  = @b_max_likelihood ROps mval nobs dmag m_c.
Proof.
  intros mval nobs dmag m_c c L W.
  change (filter _ _) with (complete_bins m_c mval nobs) in W.
  set (ev := complete_bins m_c mval nobs) in *.
  assert (Hne : ev <> []). { intros E. rewrite E in W. unfold wtotal in W. simpl in W. lra. }
  destruct (minv_ok (map fst ev)) as [mmin HM]. { destruct ev; simpl; congruence. }
  apply minv_spec in HM.
  assert (CB := complete_bins_shift c m_c mval nobs). fold ev in CB.
  rewrite (bml_eval mval nobs dmag m_c mmin L HM). fold ev.
  rewrite (bml_eval (map (fun x => x + c) mval) nobs dmag (m_c + c) (mmin + c)).
  - rewrite CB.
    assert (WM : wmean (map (fun p => (fst p + c, snd p)) ev) = wmean ev + c).
    { unfold wmean. rewrite wtotal_shift, wsum_shift.
      rewrite (wsum_ext _ (fun m => 1 * m + c * 1)) by (intros; ring).
      rewrite (wsum_lin 1 c (fun m => m) (fun _ => 1)), wsum_const. field. lra. }
    rewrite WM, wtotal_shift, wsum_shift.
    replace (wmean ev + c - (mmin + c) + dmag / 2) with (wmean ev - mmin + dmag / 2) by ring.
    rewrite (wsum_ext (fun m => (m + c - (wmean ev + c)) * (m + c - (wmean ev + c)))
                      (fun m => (m - wmean ev) * (m - wmean ev))) by (intros; ring).
    reflexivity.
  - rewrite map_length. auto.
  - rewrite CB, map_map. cbn [fst]. destruct HM as [H1 H2]. split.
    + apply in_map_iff in H1. destruct H1 as [p [E I]]. apply in_map_iff. exists p. rewrite E. auto.
    + intros y Hy. apply in_map_iff in Hy. destruct Hy as [p [E I]].
      assert (mmin <= fst p) by (apply H2; apply in_map; auto). rops. lra.
Qed.

(** ** Time-varying b-value *)

(** A completeness table whose rows of one year are listed together. *)
Definition by_year (groups : list (R * nat)) (ctime : list R) : Prop :=
  ctime = flat_map (fun g => repeat (fst g) (snd g)) groups /\
  NoDup (map fst groups) /\ (forall g, In g groups -> (0 < snd g)%nat) /\
  (forall g g', In g groups -> In g' groups -> Rabs (fst g - fst g') < 1 / 100000 -> fst g = fst g').

(** Estimate for the events since completeness year cy: number of events, b-value and its
    standard deviation, rate at the reference magnitude and its spread factor. *)
Definition period_estimate (year mag ctime cmag : list R) (dmag ref_mag cy : R)
    (n : nat) (b sb rate sigrate : R) : Prop :=
  exists m_c tab first last,
    is_min m_c (map snd (filter (fun r => Reqb (fst r) cy) (combine ctime cmag))) /\
    let ev := filter (fun e => Rleb cy (fst e) && Rleb (m_c - 1 / 100000) (snd e))%bool
                     (combine year mag) in
    n = length ev /\ (0 < n)%nat /\
    is_min first (map fst ev) /\ is_max last (map fst ev) /\
    @recurrence_table ROps (map snd ev) dmag (map fst ev) = Ok tab /\
    @b_max_likelihood ROps (map rc_mag tab) (map rc_n tab) dmag m_c = Ok (b, sb) /\
    rate = INR n / (last - first + 1) * Rpower 10 (b * (m_c - ref_mag)) /\
    sigrate = Rpower 10 (Rabs ((b + sb) * ref_mag - b * m_c)).

Lemma mask_get_map2_fst : forall A B (p : A -> B -> bool) l m, length l = length m ->
  mask_get (map2 p l m) l = map fst (filter (fun e => p (fst e) (snd e)) (combine l m)).
Proof.
  induction l; intros m H; destruct m; simpl in *; try discriminate; auto.
  destruct (p a b); simpl; rewrite IHl; auto.
Qed.

Lemma mask_get_map2_snd : forall A B (p : A -> B -> bool) l m, length l = length m ->
  mask_get (map2 p l m) m = map snd (filter (fun e => p (fst e) (snd e)) (combine l m)).
Proof.
  induction l; intros m H; destruct m; simpl in *; try discriminate; auto.
  destruct (p a b); simpl; rewrite IHl; auto.
Qed.

Lemma count_true_map2 : forall A B (p : A -> B -> bool) l m,
  count_true (map2 p l m) = length (filter (fun e => p (fst e) (snd e)) (combine l m)).
Proof.
  induction l; intros m; destruct m; simpl; auto. destruct (p a b); simpl; rewrite IHl; auto.
Qed.

Lemma Rpower_log10 : forall x, 0 < x -> Rpower 10 (Rlog10 x) = x.
Proof.
  intros. unfold Rpower, Rlog10. assert (P := ln10_pos).
  replace (ln x / ln 10 * ln 10) with (ln x) by (field; lra). apply exp_ln; auto.
Qed.

Lemma Rlog10_power : forall x, Rlog10 (Rpower 10 x) = x.
Proof.
  intros. unfold Rpower, Rlog10. rewrite ln_exp. assert (P := ln10_pos). field. lra.
Qed.

Lemma mle_period_spec : forall (year mag ctime cmag : list R) dmag ref_mag cy p,
  length year = length mag -> length ctime = length cmag ->
  (forall y, In y ctime -> Rabs (y - cy) < 1 / 100000 -> y = cy) ->
  @mle_period ROps year mag ctime cmag dmag ref_mag cy = Ok p ->
  period_estimate year mag ctime cmag dmag ref_mag cy
    (pd_n p) (pd_b p) (pd_sb p) (pd_rate p) (pd_sigrate p).
Proof.
  intros year mag ctime cmag dmag ref_mag cy p L1 L2 SEP H. unfold mle_period in H.
  apply bind_ok in H. destruct H as [m_c [HMC H]].
  apply bind_ok in H. destruct H as [ymax [HX H]].
  apply bind_ok in H. destruct H as [ymin [HN H]].
  apply bind_ok in H. destruct H as [tab [HT H]].
  apply bind_ok in H. destruct H as [[b sb] [HB H]].
  injection H as Hp.
  apply minv_spec in HMC. apply maxv_spec in HX. apply minv_spec in HN.
  unfold same_year in HMC. rewrite (mask_get_combine_snd _ _ _ ctime cmag L2) in HMC.
  rewrite (filter_ext_in _ (fun r => Reqb (fst r) cy)) in HMC.
  2: { intros [y c] I. cbn [fst]. apply in_combine_l in I. 
       unfold mag_eq_tolerance, lit. ropsg.
       destruct (Reqb y cy) eqn:E.
       - apply Reqb_true in E. subst. apply Rltb_true. rewrite Rminus_diag_eq, Rabs_R0 by auto. lra.
       - apply Rltb_false. apply Reqb_false in E. destruct (Rle_dec (1 / 100000) (Rabs (y - cy))); auto.
         exfalso. apply E. apply SEP; auto. lra. }
  rewrite mask_get_map2_fst in HX, HN, HT by auto. rewrite mask_get_map2_snd in HT by auto.
  rewrite count_true_map2 in Hp.
  set (ev := filter (fun e : R * R => Rleb cy (fst e) && Rleb (m_c - 1 / 100000) (snd e))%bool (combine year mag)).
  change (filter (fun e : @T ROps * @T ROps => @in_period ROps cy m_c (fst e) (snd e)) (combine year mag))
    with ev in *.
  change (filter (fun e : R * R => @in_period ROps cy m_c (fst e) (snd e)) (combine year mag))
    with ev in *.
  assert (Hn : (0 < length ev)%nat).
  { destruct HX as [HX _]. destruct ev; simpl in *; [contradiction|lia]. }
  exists m_c, tab, ymin, ymax. split; [exact HMC|]. fold ev.
  subst p. cbn [pd_n pd_b pd_sb pd_rate pd_sigrate].
  split; auto. split; auto. split; auto. split; auto. split; auto. split; auto.
  assert (Y : 0 < ymax - ymin + 1).
  { destruct HX as [HX _], HN as [_ HN]. specialize (HN ymax HX). rops. lra. }
  assert (Q : 0 < INR (length ev) / (ymax - ymin + 1)).
  { apply Rdiv_lt_0_compat; auto. apply lt_0_INR. auto. }
  rops. rewrite <- !INR_IZR_INZ. split.
  - rewrite <- (Rpower_log10 (INR (length ev) / (ymax - ymin + 1))) at 2 by auto.
    rewrite <- Rpower_plus. f_equal. ring.
  - f_equal. rewrite Rlog10_power.
    set (x := Rlog10 _).
    replace (x + (b + sb) * ref_mag - (x + b * m_c)) with ((b + sb) * ref_mag - b * m_c) by ring.
    ring.
Qed.

Lemma count_true_app : forall x y, count_true (x ++ y) = (count_true x + count_true y)%nat.
Proof. induction x; intros; simpl; auto. rewrite IHx. lia. Qed.

Lemma same_year_count : forall (G1 G2 : list (R * nat)) cy k ctime,
  by_year (G1 ++ (cy, k) :: G2) ctime ->
  count_true (@same_year ROps ctime cy) = k.
Proof.
  intros G1 G2 cy k ctime (E & ND & P & SEP). subst ctime.
  match goal with |- context [same_year ?l cy] =>
    change (@same_year ROps l cy) with (map (fun c : R => Rltb (Rabs (c - cy)) (1 / 100000)) l) end.
  rewrite flat_map_app. cbn [flat_map fst snd].
  assert (OTHER : forall G, incl G (G1 ++ (cy, k) :: G2) -> (forall g, In g G -> fst g <> cy) ->
    count_true (map (fun c : R => Rltb (Rabs (c - cy)) (1 / 100000))
                    (flat_map (fun g : R * nat => repeat (fst g) (snd g)) G)) = 0%nat).
  { intros G IN NE. rewrite count_true_count. apply count_none. intros a Ha.
    apply in_flat_map in Ha. destruct Ha as [g [Hg Ha]]. apply repeat_spec in Ha. subst a.
    apply Rltb_false.
    destruct (Rle_dec (1 / 100000) (Rabs (fst g - cy))); auto. exfalso.
    apply (NE g Hg). apply (SEP g (cy, k)).
    - apply IN; auto.
    - apply in_or_app. right. simpl. auto.
    - cbn [fst]. lra. }
  rewrite map_app in ND. cbn [map fst] in ND. apply NoDup_remove_2 in ND.
  rewrite map_app, count_true_app, map_app, count_true_app.
  rewrite (OTHER G1), (OTHER G2).
  - rewrite Nat.add_0_r, Nat.add_0_l.
    assert (Q : Rltb (Rabs (cy - cy)) (1 / 100000) = true).
    { apply Rltb_true. rewrite Rminus_diag_eq, Rabs_R0 by auto. lra. }
    clear - Q. induction k; cbn [repeat map count_true]; auto. rewrite Q. auto.
  - intros g Hg. apply in_or_app. right. right. auto.
  - intros g Hg E. apply ND. apply in_or_app. right. rewrite <- E. apply in_map. auto.
  - intros g Hg. apply in_or_app. auto.
  - intros g Hg E. apply ND. apply in_or_app. left. rewrite <- E. apply in_map. auto.
Qed.

Lemma length_flat : forall (G : list (R * nat)), (forall g, In g G -> (0 < snd g)%nat) ->
  (length G <= length (flat_map (fun g => repeat (fst g) (snd g)) G))%nat.
Proof.
  induction G; intros; simpl; auto. rewrite app_length, repeat_length.
  assert (0 < snd a)%nat by (apply H; simpl; auto).
  assert (length G <= length (flat_map (fun g => repeat (fst g) (snd g)) G))%nat.
  { apply IHG. intros. apply H. simpl. auto. }
  lia.
Qed.

(** The loop visits the years of the table one after the other. *)
Lemma mle_loop_years : forall (year mag ctime cmag : list R) dmag ref_mag (G2 G1 : list (R * nat)) fuel,
  by_year (G1 ++ G2) ctime -> (length G2 <= fuel)%nat ->
  @mle_loop ROps fuel year mag ctime cmag dmag ref_mag
    (length (flat_map (fun g => repeat (fst g) (snd g)) G1))
  = mapM (@mle_period ROps year mag ctime cmag dmag ref_mag) (map fst G2).
Proof.
  intros year mag ctime cmag dmag ref_mag G2. induction G2 as [|[cy k] G2 IH]; intros G1 fuel BY F.
  - assert (Q : nth_error ctime (length (flat_map (fun g => repeat (fst g) (snd g)) G1)) = None).
    { apply nth_error_None. destruct BY as [-> _]. rewrite app_nil_r. auto. }
    destruct fuel; cbn [mle_loop]; rops; rewrite Q; reflexivity.
  - destruct fuel as [|fuel]; [simpl in F; lia|].
    assert (Pk : (0 < k)%nat).
    { destruct BY as (_ & _ & P & _). apply (P (cy, k)). apply in_or_app. right. simpl. auto. }
    assert (Q : nth_error ctime (length (flat_map (fun g => repeat (fst g) (snd g)) G1)) = Some cy).
    { destruct BY as [-> _]. rewrite flat_map_app, nth_error_app2 by lia.
      rewrite Nat.sub_diag. cbn [flat_map fst snd]. destruct k; [lia|]. reflexivity. }
    cbn [mle_loop]. rops. rewrite Q. cbn [map fst mapM].
    rewrite (same_year_count G1 G2 cy k ctime BY).
    replace (length (flat_map (fun g => repeat (fst g) (snd g)) G1) + k)%nat
      with (length (flat_map (fun g => repeat (fst g) (snd g)) (G1 ++ [(cy, k)]))).
    + rewrite (IH (G1 ++ [(cy, k)]) fuel). reflexivity. rewrite <- app_assoc. exact BY.
      simpl in F. lia.
    + rewrite flat_map_app, app_length. cbn [flat_map fst snd]. rewrite app_nil_r, repeat_length. auto.
Qed.

Lemma b_maxlike_time_eq : forall (year mag ctime cmag : list R) dmag ref_mag groups,
  by_year groups ctime ->
  @b_maxlike_time ROps year mag ctime cmag dmag ref_mag
  = bind (mapM (@mle_period ROps year mag ctime cmag dmag ref_mag) (map fst groups)) (fun ps =>
    match ps with
    | [] => Err NameError
    | _ =>
      let total := INR (list_sum (map pd_n ps)) in
      let mean f := Rsum (map (fun p => INR (pd_n p) / total * f p) ps) in
      Ok (mean pd_b, mean pd_sb, mean pd_rate, mean pd_sigrate)
    end).
Proof.
  intros year mag ctime cmag dmag ref_mag groups BY. unfold b_maxlike_time.
  assert (E := mle_loop_years year mag ctime cmag dmag ref_mag groups [] (length ctime) BY).
  cbn [flat_map length] in E. rops. rewrite E.
  - match goal with |- bind ?a _ = bind ?b _ => change b with a; destruct a as [ps|e] end; [|reflexivity].
    cbn [bind]. destruct ps as [|p0 ps0]; [reflexivity|]. set (ps := p0 :: ps0).
    cbv zeta. rewrite !sumv_R. rewrite !ofnat_R.
    assert (MM : forall (f : @period ROps -> R),
      map2 (@mul ROps) (map (fun p => @div ROps (@ofnat ROps (pd_n p)) (INR (list_sum (map pd_n ps)))) ps) (map f ps)
      = map (fun p => INR (pd_n p) / INR (list_sum (map pd_n ps)) * f p) ps).
    { intros f. generalize (INR (list_sum (map pd_n ps))). intros t. clearbody ps. clear.
      induction ps; cbn [map map2]; auto. rewrite ofnat_R. f_equal. apply IHps. }
    rewrite !MM. reflexivity.
  - destruct BY as (-> & _ & P & _). apply length_flat. auto.
Qed.

Lemma weighted_between : forall A (w f : A -> R) l, l <> [] ->
  (forall a, In a l -> 0 <= w a) -> Rsum (map w l) = 1 ->
  exists lo hi, In lo l /\ In hi l /\ f lo <= Rsum (map (fun a => w a * f a) l) <= f hi.
Proof.
  intros A w f l Hne W S.
  destruct (maxv_ok (map f l)) as [hi Hhi]. { destruct l; simpl; congruence. }
  destruct (minv_ok (map f l)) as [lo Hlo]. { destruct l; simpl; congruence. }
  apply maxv_spec in Hhi. apply minv_spec in Hlo. destruct Hhi as [H1 H2], Hlo as [H3 H4].
  apply in_map_iff in H1, H3. destruct H1 as [a [<- Ia]], H3 as [b [<- Ib]].
  exists b, a. split; auto. split; auto.
  assert (LO : Rsum (map (fun a => f b * w a) l) <= Rsum (map (fun a => w a * f a) l)).
  { apply Rsum_le. intros x Hx. assert (f b <= f x) by (apply H4; apply in_map; auto).
    specialize (W x Hx). nra. }
  assert (HI : Rsum (map (fun a => w a * f a) l) <= Rsum (map (fun x => f a * w x) l)).
  { apply Rsum_le. intros x Hx. assert (f x <= f a) by (apply H2; apply in_map; auto).
    specialize (W x Hx). nra. }
  rewrite Rsum_map_scal, S in LO. rewrite Rsum_map_scal, S in HI. lra.
Qed.

(** Weight of a period: its share of the total number of events. *)
Definition share (ns : list nat) (n : nat) : R := INR n / INR (list_sum ns).

Lemma shares_sum : forall A (n : A -> nat) l, l <> [] -> (forall a, In a l -> (0 < n a)%nat) ->
  Rsum (map (fun a => INR (n a) / INR (list_sum (map n l))) l) = 1.
Proof.
  intros A n l Hne P.
  assert (T : 0 < INR (list_sum (map n l))).
  { apply lt_0_INR. destruct l; [congruence|]. simpl. assert (0 < n a)%nat by (apply P; simpl; auto). lia. }
  assert (E : Rsum (map (fun a => INR (n a)) l) = INR (list_sum (map n l))).
  { clear. induction l; auto. simpl map. cbn [Rsum fold_right list_sum]. rewrite plus_INR.
    simpl in IHl. f_equal. apply IHl. }
  rewrite (map_ext _ (fun a => / INR (list_sum (map n l)) * INR (n a))) by (intros; field; lra).
  rewrite Rsum_map_scal, E. field. lra.
Qed.

Lemma mapM_forall2 : forall A B (f : A -> res B) l r, mapM f l = Ok r ->
  Forall2 (fun a b => f a = Ok b) l r.
Proof.
  induction l; intros r H; simpl in H. injection H. intros <-. constructor.
  apply bind_ok in H. destruct H as [b [Hb H]]. apply bind_ok in H. destruct H as [bs [Hbs H]].
  injection H. intros <-. constructor; auto.
Qed.

Lemma C37_proof : forall (year mag ctime cmag : list R) (dmag ref_mag : R) groups (b sb a sa : R),
  length year = length mag -> length ctime = length cmag -> by_year groups ctime ->
  @b_maxlike_time ROps year mag ctime cmag dmag ref_mag = Ok (b, sb, a, sa) ->
  exists ps : list (@period ROps),
    Forall2 (fun cy (p : @period ROps) => period_estimate year mag ctime cmag dmag ref_mag cy
       (pd_n p) (pd_b p) (pd_sb p) (pd_rate p) (pd_sigrate p)) (map fst groups) ps /\
    let mean f := Rsum (map (fun p => INR (pd_n p) / INR (list_sum (map pd_n ps)) * f p) ps) in
    b = mean pd_b /\ sb = mean pd_sb /\ a = mean pd_rate /\ sa = mean pd_sigrate /\
    exists lo hi, In lo ps /\ In hi ps /\ pd_b lo <= b <= pd_b hi.
Proof.
  intros year mag ctime cmag dmag ref_mag groups b sb a sa L1 L2 BY H.
  rewrite (b_maxlike_time_eq _ _ _ _ _ _ groups BY) in H.
  apply bind_ok in H. destruct H as [ps [HP H]].
  assert (F := mapM_forall2 _ _ _ _ _ HP).
  assert (F2 : Forall2 (fun cy (p : @period ROps) => period_estimate year mag ctime cmag dmag ref_mag cy
       (pd_n p) (pd_b p) (pd_sb p) (pd_rate p) (pd_sigrate p)) (map fst groups) ps).
  { assert (SEP : forall cy, In cy (map fst groups) -> forall y, In y ctime -> Rabs (y - cy) < 1 / 100000 -> y = cy).
    { intros cy Hcy y Hy D. apply in_map_iff in Hcy. destruct Hcy as [g [<- Hg]].
      destruct BY as (E & _ & _ & SEP). rewrite E in Hy. apply in_flat_map in Hy.
      destruct Hy as [g' [Hg' Hy]]. apply repeat_spec in Hy. subst y. apply SEP; auto. }
    clear HP H. revert SEP. induction F; intros; constructor; auto.
    - apply mle_period_spec; auto. apply SEP. simpl; auto.
    - apply IHF. intros. apply (SEP cy); simpl; auto. }
  exists ps. split; auto.
  assert (NP : forall p, In p ps -> (0 < pd_n p)%nat).
  { clear - F2. induction F2; intros p I; [destruct I|]. destruct I as [<-|I]; auto.
    destruct H as (m_c & tab & first & last & _ & H). destruct H as (_ & H & _). exact H. }
  destruct ps as [|p0 ps0] eqn:EP; [discriminate|]. rewrite <- EP in *.
  injection H. intros <- <- <- <-. cbv zeta.
  repeat (split; [reflexivity|]).
  apply (weighted_between (@period ROps) (fun p => INR (pd_n p) / INR (list_sum (map pd_n ps))) (@pd_b ROps)).
  - rewrite EP. congruence.
  - intros p I. apply Rmult_le_pos. apply pos_INR.
    apply Rlt_le, Rinv_0_lt_compat. apply lt_0_INR. rewrite EP. simpl.
    assert (0 < pd_n p0)%nat by (apply NP; rewrite EP; simpl; auto). lia.
  - apply shares_sum; auto. rewrite EP. congruence.
Qed.

(** When a period has events, its estimate exists. *)
Lemma mle_period_ok : forall (year mag ctime cmag : list R) dmag ref_mag cy m_c,
  length year = length mag -> length ctime = length cmag ->
  (forall y, In y ctime -> Rabs (y - cy) < 1 / 100000 -> y = cy) ->
  1 / 50000 <= dmag ->
  is_min m_c (map snd (filter (fun r => Reqb (fst r) cy) (combine ctime cmag))) ->
  (exists y m, In (y, m) (combine year mag) /\ cy <= y /\ m_c <= m) ->
  exists p, @mle_period ROps year mag ctime cmag dmag ref_mag cy = Ok p.
Proof.
  intros year mag ctime cmag dmag ref_mag cy m_c L1 L2 SEP D HMC (y0 & m0 & I0 & Y0 & M0).
  unfold mle_period.
  assert (E1 : @minv ROps (mask_get (@same_year ROps ctime cy) cmag) = Ok m_c).
  { apply minv_spec. unfold same_year. rewrite (mask_get_combine_snd _ _ _ ctime cmag L2).
    rewrite (filter_ext_in _ (fun r => Reqb (fst r) cy)). exact HMC.
    intros [y c] I. cbn [fst]. apply in_combine_l in I. unfold mag_eq_tolerance, lit. ropsg.
    destruct (Reqb y cy) eqn:E.
    - apply Reqb_true in E. subst. apply Rltb_true. rewrite Rminus_diag_eq, Rabs_R0 by auto. lra.
    - apply Rltb_false. apply Reqb_false in E. destruct (Rle_dec (1 / 100000) (Rabs (y - cy))); auto.
      exfalso. apply E. apply SEP; auto. lra. }
  rops. rewrite E1. cbn [bind].
  rewrite mask_get_map2_fst, mask_get_map2_snd by auto.
  set (ev := filter (fun e : R * R => Rleb cy (fst e) && Rleb (m_c - 1 / 100000) (snd e))%bool (combine year mag)).
  change (filter (fun e : @T ROps * @T ROps => @in_period ROps cy m_c (fst e) (snd e)) (combine year mag))
    with ev in *.
  change (filter (fun e : R * R => @in_period ROps cy m_c (fst e) (snd e)) (combine year mag))
    with ev in *.
  assert (IE : In (y0, m0) ev).
  { unfold ev. apply filter_In. split; auto. cbn [fst snd]. apply andb_true_iff.
    rewrite !Rleb_true. lra. }
  assert (N1 : map fst ev <> []). { destruct ev; [destruct IE|]; simpl; congruence. }
  assert (N2 : map snd ev <> []). { destruct ev; [destruct IE|]; simpl; congruence. }
  destruct (maxv_ok _ N1) as [ymax HX]. destruct (minv_ok _ N1) as [ymin HN].
  rops. rewrite HX, HN. cbn [bind].
  destruct (C35_core (map snd ev) (map fst ev) dmag) as (tab & lo & ET & TB & first & last & F & L & RR & Z & B & _); auto; try lra.
  rops. rewrite ET. cbn [bind].
  assert (LT : (0 < length tab)%nat). { destruct Z as (r & Z & _). apply nth_error_lt in Z. auto. }
  destruct (nth_error_ex _ tab (length tab - 1)) as [row Hrow]; [lia|].
  assert (RM : m_c <= rc_mag row).
  { destruct (RR _ _ Hrow) as [-> _]. specialize (B m0 (in_map snd _ _ IE)). rops. cbn [snd] in B. nra. }
  set (evb := complete_bins m_c (map rc_mag tab) (map rc_n tab)).
  assert (NE : evb <> []).
  { intros E. assert (In (rc_mag row, rc_n row) evb).
    { unfold evb, complete_bins. apply filter_In. split; [|apply Rleb_true; auto].
      apply nth_error_In in Hrow. clear - Hrow. induction tab; simpl in *; auto.
      destruct Hrow as [->|H]; auto. }
    rewrite E in H. destruct H. }
  destruct (minv_ok (map fst evb)) as [mmin HMIN]. { destruct evb; simpl; congruence. }
  apply minv_spec in HMIN.
  assert (EB := bml_eval (map rc_mag tab) (map rc_n tab) dmag m_c mmin). cbv zeta in EB.
  match type of EB with ?A -> ?B -> ?l = ?r => assert (EB' : l = r) end.
  { apply EB. rewrite !map_length. auto. exact HMIN. }
  rops. rewrite EB'. cbn [bind]. eauto.
Qed.

Lemma C37_succeeds_proof : forall (year mag ctime cmag : list R) (dmag ref_mag : R) groups,
  length year = length mag -> length ctime = length cmag -> by_year groups ctime ->
  groups <> [] -> 1 / 50000 <= dmag ->
  (forall cy, In cy ctime -> exists c y m, In (cy, c) (combine ctime cmag) /\
     In (y, m) (combine year mag) /\ cy <= y /\ c <= m) ->
  exists r, @b_maxlike_time ROps year mag ctime cmag dmag ref_mag = Ok r.
Proof.
  intros year mag ctime cmag dmag ref_mag groups L1 L2 BY NE D EV.
  rewrite (b_maxlike_time_eq _ _ _ _ _ _ groups BY).
  destruct (mapM_ok _ _ (@mle_period ROps year mag ctime cmag dmag ref_mag) (map fst groups)) as [ps HP].
  - intros cy Hcy. apply in_map_iff in Hcy. destruct Hcy as [g [<- Hg]].
    destruct BY as (E & _ & P & SEP).
    assert (IC : In (fst g) ctime).
    { rewrite E. apply in_flat_map. exists g. split; auto. specialize (P g Hg).
      destruct (snd g); [lia|]. simpl. auto. }
    destruct (EV _ IC) as (c & y & m & H1 & H2 & H3 & H4).
    set (cs := map snd (filter (fun r => Reqb (fst r) (fst g)) (combine ctime cmag))).
    assert (In c cs).
    { unfold cs. apply in_map_iff. exists (fst g, c). split; auto. apply filter_In. split; auto.
      apply Reqb_true. auto. }
    destruct (minv_ok cs) as [m_c HM]. { intros E0. rewrite E0 in H. destruct H. }
    apply minv_spec in HM.
    apply (mle_period_ok _ _ _ _ _ _ _ m_c); auto.
    + intros y' Hy' Dy. rewrite E in Hy'. apply in_flat_map in Hy'.
      destruct Hy' as [g' [Hg' Hy']]. apply repeat_spec in Hy'. subst y'. apply SEP; auto.
    + exists y, m. split; auto. split; auto. destruct HM as [_ HM]. specialize (HM c H). rops. lra.
  - change (map fst groups) with (map fst groups : list (@T ROps)) in *. rewrite HP. cbn [bind].
    destruct ps; eauto.
    apply mapM_length in HP. destruct groups; simpl in *; congruence.
Qed.

(** Tables in which rows of one year are adjacent have the form [by_year]. *)
Lemma adjacent_by_year : forall ctime : list R,
  (forall y y', In y ctime -> In y' ctime -> Rabs (y - y') < 1 / 100000 -> y = y') ->
  (forall i j k x y, (i < j < k)%nat -> nth_error ctime i = Some x -> nth_error ctime j = Some y ->
     nth_error ctime k = Some x -> y = x) ->
  exists groups, by_year groups ctime /\ (forall y, In y (map fst groups) <-> In y ctime) /\
    (forall y0 l, ctime = y0 :: l -> exists k g, groups = (y0, k) :: g).
Proof.
  induction ctime as [|y l IH]; intros SEP ADJ.
  - exists []. split; [|split].
    + split; [reflexivity|]. split; [constructor|]. split; [intros g []|intros g g' []].
    + simpl. tauto.
    + discriminate.
  - destruct IH as (G & (E & ND & P & SP) & IFF & HD).
    + intros. apply SEP; auto; right; auto.
    + intros i j k x z H H1 H2 H3. apply (ADJ (S i) (S j) (S k)); auto. lia.
    + destruct l as [|z l'].
      * assert (G = []).
        { destruct G as [|g G]; auto. exfalso. apply (IFF (fst g)). simpl. auto. }
        subst G. exists [(y, 1%nat)]. split; [|split].
        -- split; [reflexivity|]. split; [repeat constructor; intros []|].
           split; [intros g [<-|[]]; simpl; lia|]. intros g g' [<-|[]] [<-|[]]; auto.
        -- simpl. tauto.
        -- intros y0 l E0. injection E0. intros <- <-. eauto.
      * destruct (HD z l' eq_refl) as (k & G' & EG).
        destruct (Req_EM_T z y) as [->|NE].
        -- exists ((y, S k) :: G'). subst G. split; [|split].
           ++ split. { cbn [flat_map fst snd] in E. cbn [flat_map fst snd repeat]. rewrite E. reflexivity. }
              split; [exact ND|]. split.
              ** intros g [<-|Hg]. simpl. lia. apply P. simpl. auto.
              ** intros g g' H1 H2. 
                 assert (C : forall q, In q ((y, S k) :: G') -> exists q', In q' ((y, k) :: G') /\ fst q = fst q').
                 { intros q [<-|Hq]. exists (y, k). simpl. auto. exists q. simpl; auto. }
                 destruct (C g H1) as (q & Q1 & Q2). destruct (C g' H2) as (q' & Q3 & Q4).
                 rewrite Q2, Q4. apply SP; auto.
           ++ intros w. cbn [map fst]. specialize (IFF w).
              cbn [map fst] in IFF. cbn [In] in *. tauto.
           ++ intros y0 l0 E0. injection E0. intros _ <-. eauto.
        -- exists ((y, 1%nat) :: G). split; [|split].
           ++ split. { cbn [flat_map fst snd repeat]. rewrite <- E. reflexivity. }
              assert (NI : ~ In y (map fst G)).
              { intros HI. apply IFF in HI. apply In_nth_error in HI. destruct HI as [j Hj].
                destruct j as [|j]. simpl in Hj. congruence.
                apply NE. apply (ADJ 0%nat 1%nat (S (S j)) y z); auto. lia. }
              split. { cbn [map fst]. constructor; auto. }
              split. { intros g [<-|Hg]. simpl. lia. apply P. auto. }
              intros g g' [<-|H1] [<-|H2] D; auto; apply SEP; auto; cbn [fst];
                try (left; reflexivity); right; apply IFF; apply in_map; auto.
           ++ intros w. cbn [map fst In]. rewrite IFF. cbn [In]. tauto.
           ++ intros y0 l0 E0. injection E0. intros _ <-. eauto.
Qed.

Lemma C38_partial_proof : forall (year mag ctime cmag : list R) (dmag ref_mag b sb a sa : R),
  length year = length mag -> length ctime = length cmag ->
  (forall y y', In y ctime -> In y' ctime -> Rabs (y - y') < 1 / 100000 -> y = y') ->
  (forall i j k x y, (i < j < k)%nat -> nth_error ctime i = Some x -> nth_error ctime j = Some y ->
     nth_error ctime k = Some x -> y = x) ->
  @b_maxlike_time ROps year mag ctime cmag dmag ref_mag = Ok (b, sb, a, sa) ->
  exists (ys : list R) (ps : list (@period ROps)),
    NoDup ys /\ (forall y, In y ys <-> In y ctime) /\
    Forall2 (fun cy (p : @period ROps) => period_estimate year mag ctime cmag dmag ref_mag cy
       (pd_n p) (pd_b p) (pd_sb p) (pd_rate p) (pd_sigrate p)) ys ps /\
    let mean f := Rsum (map (fun p => INR (pd_n p) / INR (list_sum (map pd_n ps)) * f p) ps) in
    b = mean pd_b /\ sb = mean pd_sb /\ a = mean pd_rate /\ sa = mean pd_sigrate.
Proof.
  intros year mag ctime cmag dmag ref_mag b sb a sa L1 L2 SEP ADJ H.
  destruct (adjacent_by_year ctime SEP ADJ) as (G & BY & IFF & _).
  destruct (C37_proof _ _ _ _ _ _ G _ _ _ _ L1 L2 BY H) as (ps & F & E1 & E2 & E3 & E4 & _).
  exists (map fst G), ps. split. { apply BY. } repeat (split; auto).
Qed.

(** A table whose middle row is skipped: events of 1995 and 1996 only. *)
Definition w38_year : list R := [1995; 1996].
Definition w38_mag : list R := [5; 6].
Definition w38_ctime : list R := [1990; 1980; 1990].

Lemma w38_same_year : @same_year ROps w38_ctime 1990 = [true; false; true].
Proof.
  unfold same_year, w38_ctime, mag_eq_tolerance, lit. cbn [map]. rops.
  replace (1990 - 1990) with 0 by lra. rewrite Rabs_R0.
  rewrite (Rabs_left (1980 - 1990)) by lra. rdec. reflexivity.
Qed.

Lemma w38_indep : forall m, @mle_period ROps w38_year w38_mag w38_ctime [4; m; 4] (1/10) 5 1990
  = @mle_period ROps w38_year w38_mag w38_ctime [4; 4; 4] (1/10) 5 1990.
Proof. intros. unfold mle_period. rewrite w38_same_year. reflexivity. Qed.

Lemma C38_refuted_proof : exists (year mag ctime : list R) (cmag : R -> list R) dmag ref_mag r,
  length year = length mag /\ In 1980 ctime /\
  (forall m, length ctime = length (cmag m) /\ In (1980, m) (combine ctime (cmag m))) /\
  (forall m, @b_maxlike_time ROps year mag ctime (cmag m) dmag ref_mag = Ok r) /\
  (forall n b sb rate sigrate,
     ~ period_estimate year mag ctime (cmag 9) dmag ref_mag 1980 n b sb rate sigrate).
Proof.
  exists w38_year, w38_mag, w38_ctime, (fun m => [4; m; 4]), (1/10), 5.
  destruct (mle_period_ok w38_year w38_mag w38_ctime [4; 4; 4] (1/10) 5 1990 4) as [p HP]; auto.
  - intros y [<-|[<-|[<-|[]]]] H; auto. rewrite Rabs_left in H by lra. lra.
  - lra.
  - unfold w38_ctime. cbn [combine filter fst].
    replace (Reqb 1990 1990) with true by (symmetry; apply Reqb_true; auto).
    replace (Reqb 1980 1990) with false by (symmetry; apply Reqb_false; lra).
    cbn [map snd]. split. simpl. auto. intros y [<-|[<-|[]]]; lra.
  - exists 1995, 5. split. simpl. auto. lra.
  - eexists. split; [reflexivity|]. split; [simpl; auto|].
    split. { intros m. split; [reflexivity|]. simpl. auto. }
    split.
    + intros m. unfold b_maxlike_time.
      assert (E : @mle_loop ROps (length w38_ctime) w38_year w38_mag w38_ctime [4; m; 4] (1/10) 5 0 = Ok [p; p]).
      { assert (W := w38_indep m). assert (S38 := w38_same_year). rops. rewrite HP in W.
        change (length w38_ctime) with 3%nat. cbn [mle_loop].
        change (nth_error w38_ctime 0) with (Some 1990). cbv iota beta.
        rops. rewrite W. cbn [bind]. rewrite S38. cbn [count_true Nat.add].
        change (nth_error w38_ctime 2) with (Some 1990). cbv iota beta. rewrite W. cbn [bind].
        rewrite S38. reflexivity. }
      rops. rewrite E. cbn [bind]. reflexivity.
    + intros n b sb rate sigrate (m_c & tab & first & last & HM & H).
      assert (m_c = 9).
      { destruct HM as [HM _]. unfold w38_ctime in HM. cbn [combine filter fst] in HM.
        replace (Reqb 1990 1980) with false in HM by (symmetry; apply Reqb_false; lra).
        replace (Reqb 1980 1980) with true in HM by (symmetry; apply Reqb_true; auto).
        cbn in HM. destruct HM as [HM|[]]; auto. }
      subst m_c. destruct H as (Hn & Hp & _). revert Hn. unfold w38_year, w38_mag.
      cbn [combine filter fst snd]. rdec. cbn. lia.
Qed.

(** Every table that the Stepp analysis with the increment lock produces lists the rows of
    one year together. *)
Lemma C38_stepp_proof : forall (year mw : list R) (dm dt ttol : R) tab,
  0 < dm -> 1 / 100000 <= dt -> year <> [] -> mw <> [] ->
  @stepp_analysis ROps year mw dm dt ttol true = Ok tab ->
  let ctime := map fst tab in
  (forall y y', In y ctime -> In y' ctime -> Rabs (y - y') < 1 / 100000 -> y = y') /\
  (forall i j k x y, (i < j < k)%nat -> nth_error ctime i = Some x -> nth_error ctime j = Some y ->
     nth_error ctime k = Some x -> y = x).
Proof.
  intros year mw dm dt ttol tab Hdm Hdt Hy Hm H ctime. split.
  - destruct (C30_proof year mw dm dt ttol true Hdm ltac:(lra) Hy Hm)
      as (rm & lowm & endt & n & nt & _ & Z1 & Z2 & Z3).
    assert (V : forall y, In y ctime -> exists i, y = endt - INR i * dt).
    { intros y Iy. destruct (Nat.eq_dec n 0) as [->|Nn].
      { rewrite Z1 in H by auto. injection H. intros <-. destruct Iy. }
      destruct (Nat.eq_dec nt 0) as [->|Nt].
      { rewrite Z2 in H by lia. discriminate. }
      destruct Z3 as (tab' & E & L & R); [lia|lia|]. rewrite H in E. injection E. intros <-.
      unfold ctime in Iy. apply in_map_iff in Iy. destruct Iy as [[a b] [<- I]].
      apply In_nth_error in I. destruct I as [k Hk]. assert (Lk := nth_error_lt _ _ _ _ Hk).
      destruct (R k) as (i & _ & Hi). lia. rewrite Hk in Hi. injection Hi. intros -> ->.
      exists (i + 1)%nat. auto. }
    intros y y' I I' D. destruct (V y I) as [i ->], (V y' I') as [j ->].
    destruct (Nat.eq_dec i j) as [->|N]; auto. exfalso.
    assert (Q : 1 <= Rabs (INR j - INR i)).
    { destruct (le_lt_dec i j).
      - assert (INR (i + 1) <= INR j) by (apply le_INR; lia). rewrite plus_INR in H0. simpl in H0.
        rewrite Rabs_right; lra.
      - assert (INR (j + 1) <= INR i) by (apply le_INR; lia). rewrite plus_INR in H0. simpl in H0.
        rewrite Rabs_left; lra. }
    replace (endt - INR i * dt - (endt - INR j * dt)) with ((INR j - INR i) * dt) in D by ring.
    rewrite Rabs_mult in D. rewrite (Rabs_right dt) in D by lra. nra.
  - intros i j k x y Hijk Hi Hj Hk. unfold ctime in *.
    apply nth_error_map_inv in Hi, Hj, Hk.
    destruct Hi as [[xi mi] [Hi ->]], Hj as [[xj mj] [Hj ->]], Hk as [[xk mk] [Hk Ek]]. cbn [fst] in *. subst xk.
    destruct (stepp_lock_proof year mw dm dt ttol tab i j xi mi xj mj) as [_ A1]; auto; try lra; try lia.
    destruct (stepp_lock_proof year mw dm dt ttol tab j k xj mj xi mk) as [_ A2]; auto; try lra; try lia.
Qed.
