(** Proofs about afteran_decluster, any arithmetic. *)
From Coq Require Import ZArith List Bool Arith Lia Permutation.
From Verif Require Import Base Ops BaseFacts CatUtil Decluster DeclusterSpec DeclusterProofs.
Import ListNotations.

(** ** Ranks in a mask *)

Definition rank (m : list bool) (j : nat) : nat := count_true (firstn j m).

Lemma nth_mask_put : forall A m vals (d : A) l j, length m = length l ->
  length vals = count_true m -> j < length l ->
  nth j (mask_put m vals l) d = if nth j m false then nth (rank m j) vals d else nth j l d.
Proof.
  unfold rank. induction m; intros vals d l j HL HV Hj; destruct l; simpl in *; try lia.
  destruct a.
  - destruct vals as [|v vals]; simpl in HV; [lia|]. destruct j; simpl; auto.
    rewrite IHm; auto; lia.
  - destruct j; simpl; auto. rewrite IHm; auto; lia.
Qed.

Lemma rank_bound : forall m j, nth j m false = true -> rank m j < count_true m.
Proof.
  unfold rank. induction m; intros j H; destruct j; simpl in *; try discriminate.
  - rewrite H. lia.
  - specialize (IHm j H). lia.
Qed.

Lemma rank_mono : forall m j k, j < k -> nth j m false = true -> rank m j < rank m k.
Proof.
  unfold rank. induction m; intros j k Hjk H; destruct j, k; simpl in *; try discriminate; try lia.
  - subst. simpl. lia.
  - specialize (IHm j k ltac:(lia) H). lia.
Qed.

Lemma rank_onto : forall m q, q < count_true m -> exists j, nth j m false = true /\ rank m j = q.
Proof.
  unfold rank. induction m; intros q H; simpl in H. lia.
  destruct a.
  - destruct q. exists 0; auto. destruct (IHm q ltac:(lia)) as (j & H1 & H2).
    exists (S j). simpl. split; auto; lia.
  - destruct (IHm q H) as (j & H1 & H2). exists (S j). simpl. auto.
Qed.

Lemma nth_mask_get : forall A m (l : list A) j a, length m = length l ->
  nth j m false = true -> nth_error l j = Some a -> nth_error (mask_get m l) (rank m j) = Some a.
Proof.
  unfold rank. induction m; intros l j x HL H Hx; destruct l; simpl in *; try discriminate.
  - destruct j; discriminate.
  - destruct j; simpl in *.
    + subst. simpl. auto.
    + destruct a; simpl; apply (IHm l j); auto.
Qed.

Section Generic.
Context {AR : Ops}.

(** ** The two searches *)

Definition after_crit (tw p d : T) : bool := leb (ofZ 0) (sub d p) && leb (sub d p) tw.
Definition fore_crit (tw p d : T) : bool := leb (sub d p) (ofZ 0) && leb (neg tw) (sub d p).

Lemma fa_from_len : forall tw l init, length (find_aftershocks_from init tw l) = length l.
Proof. induction l; intros; simpl; auto. Qed.

Lemma fa_from_spec : forall tw l init j d,
  let v := find_aftershocks_from init tw l in
  nth_error l j = Some d ->
  ((forall q, q < j -> nth q v false = false) -> nth j v false = after_crit tw init d) /\
  (forall p dp, p < j -> nth_error l p = Some dp -> nth p v false = true ->
     (forall q, p < q < j -> nth q v false = false) -> nth j v false = after_crit tw dp d).
Proof.
  induction l as [|x l IH]; intros init j d v Hj. destruct j; discriminate.
  unfold v. simpl. fold (after_crit tw init x).
  destruct j; simpl in Hj.
  - injection Hj; intros ->. split; auto. intros; lia.
  - destruct (after_crit tw init x) eqn:E.
    + destruct (IH x j d Hj) as [I1 I2]. split.
      * intros H. specialize (H 0 ltac:(lia)). simpl in H. congruence.
      * intros p dp Hp Hdp Vp B. destruct p; simpl in *.
        -- injection Hdp; intros <-. apply I1. intros q Hq. apply (B (S q)). lia.
        -- apply (I2 p); auto. lia. intros q Hq. apply (B (S q)). lia.
    + destruct (IH init j d Hj) as [I1 I2]. split.
      * intros H. simpl. apply I1. intros q Hq. apply (H (S q)). lia.
      * intros p dp Hp Hdp Vp B. destruct p; simpl in *; [congruence|].
        apply (I2 p); auto. lia. intros q Hq. apply (B (S q)). lia.
Qed.

Lemma fa_spec : forall tw l v, find_aftershocks l tw = Ok v ->
  length v = length l /\ nth 0 v false = true /\
  forall p j dp d, p < j -> nth_error l p = Some dp -> nth_error l j = Some d ->
    nth p v false = true -> (forall q, p < q < j -> nth q v false = false) ->
    nth j v false = after_crit tw dp d.
Proof.
  intros tw l v H. destruct l as [|d0 l]; simpl in H; [discriminate|].
  injection H; intros <-. simpl. rewrite fa_from_len. split; auto. split; auto.
  intros p j dp d Hp Hdp Hd Vp B. destruct j; [lia|]. simpl in Hd.
  destruct (fa_from_spec tw l d0 j d Hd) as [I1 I2].
  destruct p; simpl in *.
  - injection Hdp; intros <-. apply I1. intros q Hq. apply (B (S q)). lia.
  - apply (I2 p); auto. lia. intros q Hq. apply (B (S q)). lia.
Qed.

Lemma fa_ok : forall tw l, l <> [] -> exists v, find_aftershocks l tw = Ok v.
Proof. intros. destruct l; [congruence|]. simpl. eauto. Qed.

Lemma ff_from_len : forall n tw l a init, length l <= n -> length a = length l ->
  length (find_foreshocks_from init tw l a) = length l.
Proof.
  induction n; intros tw l a init Hn Ha; destruct l as [|d l], a as [|b a]; simpl in *; try lia.
  destruct b.
  - destruct l as [|d' l], a as [|b' a]; simpl in *; try lia. rewrite IHn; lia.
  - simpl. rewrite IHn; lia.
Qed.

Lemma ff_from_spec : forall n tw l a init j d, length l <= n -> length a = length l ->
  nth_error l j = Some d ->
  let v := find_foreshocks_from init tw l a in
  (nth j v false = true -> nth j a false = false) /\
  ((forall q, q < j -> nth q v false = false) ->
     (nth j v false = true -> fore_crit tw init d = true) /\
     (nth j a false = false -> (j = 0 \/ nth (j - 1) a false = false) ->
        nth j v false = fore_crit tw init d)) /\
  (forall p dp, p < j -> nth_error l p = Some dp -> nth p v false = true ->
     (forall q, p < q < j -> nth q v false = false) ->
     (nth j v false = true -> fore_crit tw dp d = true) /\
     (nth j a false = false -> nth (j - 1) a false = false ->
        nth j v false = fore_crit tw dp d)).
Proof.
  induction n; intros tw l a init j d Hn Ha Hj v; destruct l as [|x l], a as [|b a];
    simpl in Hn, Ha; try lia; try (destruct j; discriminate).
  unfold v. clear v. cbn [find_foreshocks_from]. destruct b.
  - destruct l as [|x' l], a as [|b' a]; simpl in Hn, Ha; try lia.
    + destruct j; simpl in Hj; [|destruct j; discriminate].
      simpl. repeat split; intros; try discriminate; try lia.
    + destruct j as [|[|j]]; simpl in Hj.
      * simpl. repeat split; intros; try discriminate; try lia.
      * cbn [nth]. repeat split; intros; try discriminate; try lia.
        -- destruct H1; [lia|discriminate].
      * destruct (IHn tw l a init j d ltac:(lia) ltac:(lia) Hj) as (I0 & I1 & I2).
        cbn [nth]. split; auto. split.
        -- intros H. destruct I1 as [I1a I1b].
           { intros q Hq. apply (H (S (S q))). lia. }
           split; auto. intros HA Hprev. apply I1b; auto.
           destruct Hprev as [|Hprev]; [lia|].
           replace (S (S j) - 1) with (S j) in Hprev by lia. simpl in Hprev.
           destruct j; auto. right. simpl in *. rewrite Nat.sub_0_r. auto.
        -- intros p dp Hp Hdp Vp B. destruct p as [|[|p]]; simpl in Vp; try discriminate.
           simpl in Hdp. destruct (I2 p dp ltac:(lia) Hdp Vp) as [I2a I2b].
           { intros q Hq. apply (B (S (S q))). lia. }
           split; auto. intros HA Hprev. apply I2b; auto.
           replace (S (S j) - 1) with (S j) in Hprev by lia. simpl in Hprev.
           destruct j; [lia|]. simpl. rewrite Nat.sub_0_r. auto.
  - fold (fore_crit tw init x). destruct j; simpl in Hj.
    + injection Hj; intros ->. cbn [nth]. repeat split; intros; auto; try lia.
    + cbn [nth]. destruct (fore_crit tw init x) eqn:E.
      * destruct (IHn tw l a x j d ltac:(lia) ltac:(lia) Hj) as (I0 & I1 & I2).
        split; auto. split.
        -- intros H. specialize (H 0 ltac:(lia)). simpl in H. congruence.
        -- intros p dp Hp Hdp Vp B. destruct p; simpl in *.
           ++ injection Hdp; intros <-. destruct I1 as [I1a I1b].
              { intros q Hq. apply (B (S q)). lia. }
              split; auto. intros HA Hprev. apply I1b; auto.
              destruct j; auto. right. simpl in *. rewrite Nat.sub_0_r. auto.
           ++ destruct (I2 p dp ltac:(lia) Hdp Vp) as [I2a I2b].
              { intros q Hq. apply (B (S q)). lia. }
              split; auto. intros HA Hprev. apply I2b; auto.
              destruct j; [lia|]. simpl in *. rewrite Nat.sub_0_r. auto.
      * destruct (IHn tw l a init j d ltac:(lia) ltac:(lia) Hj) as (I0 & I1 & I2).
        split; auto. split.
        -- intros H. destruct I1 as [I1a I1b].
           { intros q Hq. apply (H (S q)). lia. }
           split; auto. intros HA Hprev. apply I1b; auto.
           destruct j; auto. right. destruct Hprev as [|Hprev]; [lia|]. simpl in *.
           rewrite Nat.sub_0_r. auto.
        -- intros p dp Hp Hdp Vp B. destruct p; simpl in *; [congruence|].
           destruct (I2 p dp ltac:(lia) Hdp Vp) as [I2a I2b].
           { intros q Hq. apply (B (S q)). lia. }
           split; auto. intros HA Hprev. apply I2b; auto.
           destruct j; [lia|]. simpl in *. rewrite Nat.sub_0_r. auto.
Qed.

(** The most recently marked event is p: either the first event, with no mark since, or a
    marked event with no mark since. *)
Lemma ff_spec : forall tw l a v, find_foreshocks l tw a = Ok v -> length a = length l ->
  length v = length l /\ nth 0 v false = false /\
  forall p j dp d, p < j -> nth_error l p = Some dp -> nth_error l j = Some d ->
    (p = 0 \/ nth p v false = true) -> (forall q, p < q < j -> nth q v false = false) ->
    (nth j v false = true -> nth j a false = false /\ fore_crit tw dp d = true) /\
    (nth j a false = false -> (j = 1 \/ nth (j - 1) a false = false) ->
       nth j v false = fore_crit tw dp d).
Proof.
  intros tw l a v H Ha. destruct l as [|d0 l], a as [|b a]; simpl in H, Ha; try discriminate.
  injection H; intros <-. injection Ha; intros Ha'.
  simpl. rewrite (ff_from_len (length l)) by auto. split; auto. split; auto.
  intros p j dp d Hp Hdp Hd Vp B. destruct j; [lia|]. simpl in Hd.
  destruct (ff_from_spec (length l) tw l a d0 j d (Nat.le_refl _) Ha' Hd) as (I0 & I1 & I2).
  destruct p; simpl in *.
  - injection Hdp; intros <-. destruct I1 as [I1a I1b].
    { intros q Hq. apply (B (S q)). lia. }
    split; auto. intros HA Hprev. apply I1b; auto. rewrite Nat.sub_0_r in Hprev.
    destruct j; auto. destruct Hprev as [|Hprev]; [lia|]. right. simpl in *.
    rewrite Nat.sub_0_r. auto.
  - destruct Vp as [|Vp]; [lia|]. destruct (I2 p dp ltac:(lia) Hdp Vp) as [I2a I2b].
    { intros q Hq. apply (B (S q)). lia. }
    split; auto. intros HA Hprev. rewrite Nat.sub_0_r in Hprev.
    destruct Hprev as [|Hprev]; [lia|]. apply I2b; auto.
    destruct j; [lia|]. simpl in *. rewrite Nat.sub_0_r. auto.
Qed.

(** ** One step *)

Definition rnear (ri r : srow AR) : bool := leb (event_dist (s_ev r) (s_ev ri)) (s_space ri).

Lemma af_step_spec : forall tw rows st i ri st',
  length (d_vcl st) = length rows -> length (d_flag st) = length rows ->
  nth_error rows i = Some ri ->
  af_step tw rows (Ok st) i = Ok st' ->
  st' = st \/
  exists vcl flag s0,
    st' = mkD vcl flag (S (d_ci st)) /\
    length vcl = length rows /\ length flag = length rows /\
    s0 < length rows /\ nth s0 vcl 0 = S (d_ci st) /\ nth s0 (d_vcl st) 0 = 0 /\
    nth s0 flag 0%Z = nth s0 (d_flag st) 0%Z /\
    (rnear ri ri = true -> nth i (d_vcl st) 0 = 0 -> s0 <= i) /\
    (exists j, j <> s0 /\ j < length rows /\ nth j vcl 0 = S (d_ci st)) /\
    (forall j r, nth_error rows j = Some r ->
       (nth j vcl 0 = S (d_ci st) /\ nth j (d_vcl st) 0 = 0 /\ rnear ri r = true /\
        (j = s0 \/ s0 < j /\ (nth j flag 0%Z = 1%Z \/ nth j flag 0%Z = (-1)%Z)))
       \/ (nth j vcl 0 = nth j (d_vcl st) 0 /\ nth j flag 0%Z = nth j (d_flag st) 0%Z)).
Proof.
  intros tw rows st i ri st' LV LF Hi H. unfold af_step in H. cbn [bind] in H. rewrite Hi in H.
  destruct (Nat.eqb_spec (nth i (d_vcl st) 0) 0) as [E|E].
  2:{ left. congruence. }
  rewrite haversine_col_map, map_map in H.
  set (m := map2 (fun d c => leb d (s_space ri) && Nat.eqb c 0)
              (map (fun x => event_dist (s_ev x) (s_ev ri)) rows) (d_vcl st)) in *.
  assert (Lm : length m = length rows).
  { unfold m. rewrite length_map2, map_length. lia. }
  assert (Pm : forall j r, nth_error rows j = Some r ->
     nth j m false = rnear ri r && Nat.eqb (nth j (d_vcl st) 0) 0).
  { intros j r Hr. assert (Hj := nth_error_lt _ _ _ _ Hr).
    apply nth_error_nth. unfold m.
    erewrite nth_error_map2 with (b := nth j (d_vcl st) 0).
    2:{ apply map_nth_error; eauto. } 2:{ apply nth_error_nth'. lia. } reflexivity. }
  apply bind_ok in H. destruct H as (v1 & H1 & H). apply bind_ok in H. destruct H as (v2 & H2 & H).
  set (dtime := map (fun r => sub (s_time r) (s_time ri)) (mask_get m rows)) in *.
  assert (Ld : length dtime = count_true m).
  { unfold dtime. rewrite map_length. apply length_mask_get; auto. }
  destruct (fa_spec _ _ _ H1) as (L1 & V10 & _).
  destruct (ff_spec _ _ _ _ H2 L1) as (L2 & V20 & _).
  set (V := mask_put m (map2 orb v1 v2) m) in *.
  assert (LVV : length V = length rows). { unfold V. rewrite length_mask_put. auto. }
  assert (L12 : length (map2 orb v1 v2) = count_true m). { rewrite length_map2. lia. }
  destruct (Nat.ltb_spec 1 (count_true V)) as [C|C].
  2:{ left. congruence. }
  right.
  assert (N12 : forall q, q < count_true m -> nth q (map2 orb v1 v2) false = nth q v1 false || nth q v2 false).
  { intros q Hq. apply nth_error_nth.
    apply nth_error_map2 with (a := nth q v1 false) (b := nth q v2 false); apply nth_error_nth'; lia. }
  assert (NV : forall j, j < length rows -> nth j V false
     = if nth j m false then nth (rank m j) v1 false || nth (rank m j) v2 false else false).
  { intros j Hj. unfold V. rewrite nth_mask_put by lia.
    destruct (nth j m false) eqn:Ej; auto. apply N12. apply rank_bound; auto. }
  assert (C0 : 0 < count_true m).
  { destruct dtime; simpl in *; [discriminate|]. lia. }
  destruct (rank_onto m 0 C0) as (s0 & Ms0 & Rs0).
  assert (S0 : s0 < length rows).
  { destruct (le_lt_dec (length rows) s0); auto. rewrite nth_overflow in Ms0 by lia. discriminate. }
  destruct (nth_error_ex _ rows s0 S0) as [rs0 Hrs0].
  assert (Rpos : forall j, nth j m false = true -> j <> s0 -> s0 < j /\ 0 < rank m j).
  { intros j Hj Hne. destruct (le_lt_dec j s0).
    - assert (j < s0) by lia. assert (Q := rank_mono m j s0 H0 Hj). lia.
    - split; auto. assert (Q := rank_mono m s0 j l Ms0). lia. }
  eexists. eexists. exists s0. split; [rewrite Nat.add_1_r in H; injection H; intros <-; reflexivity|].
  assert (Q0 := Pm s0 rs0 Hrs0). rewrite Ms0 in Q0. symmetry in Q0.
  apply andb_true_iff in Q0. destruct Q0 as [Q0 Q1]. apply Nat.eqb_eq in Q1.
  split; [rewrite length_mask_set; auto|].
  split; [rewrite !length_mask_set; auto|].
  split; auto.
  assert (Vs0 : nth s0 V false = true).
  { rewrite NV by auto. rewrite Ms0, Rs0, V10. auto. }
  split. { rewrite nth_mask_set by lia. rewrite Vs0. auto. }
  split; auto.
  assert (LM1 : forall X, length (mask_put m X m) = length rows) by (intros; rewrite length_mask_put; auto).
  assert (NF : forall j, j < length rows ->
     nth j (mask_set (mask_put m v2 m) (-1)%Z
              (mask_set (mask_put m (set_nth 0 false v1) m) 1%Z (d_flag st))) 0%Z
     = if nth j m false then
         if nth (rank m j) v2 false then (-1)%Z
         else if nth (rank m j) (set_nth 0 false v1) false then 1%Z else nth j (d_flag st) 0%Z
       else nth j (d_flag st) 0%Z).
  { intros j Hj. rewrite nth_mask_set by (rewrite ?length_mask_set, ?LM1; lia).
    rewrite nth_mask_set by (rewrite ?length_mask_set, ?LM1; lia).
    rewrite !nth_mask_put by (rewrite ?length_set_nth; lia).
    destruct (nth j m false); auto. }
  split. { rewrite NF by auto. rewrite Ms0, Rs0, V20. destruct v1; auto. }
  split.
  { intros Hself _. assert (Mi : nth i m false = true).
    { rewrite (Pm i ri Hi), Hself, E. auto. }
    destruct (Nat.eq_dec i s0); [lia|]. destruct (Rpos i Mi n). lia. }
  split.
  { destruct (rank_onto V 1 C) as (j1 & Vj1 & Rj1).
    destruct (rank_onto V 0 ltac:(lia)) as (j0 & Vj0 & Rj0).
    assert (B : forall j, nth j V false = true -> j < length rows).
    { intros j Hj. destruct (le_lt_dec (length rows) j); auto.
      rewrite nth_overflow in Hj by lia. discriminate. }
    assert (G : forall j, nth j V false = true -> nth j (mask_set V (d_ci st + 1) (d_vcl st)) 0 = S (d_ci st)).
    { intros j Hj. rewrite nth_mask_set by (rewrite ?LVV; auto; specialize (B j Hj); lia).
      rewrite Hj. lia. }
    replace (S (d_ci st)) with (d_ci st + 1) in * by lia.
    destruct (Nat.eq_dec j1 s0).
    - exists j0. split; [congruence|]. split; auto.
    - exists j1. split; auto. }
  intros j r Hr. assert (Hj := nth_error_lt _ _ _ _ Hr).
  rewrite NF by auto. rewrite nth_mask_set by lia. rewrite NV by auto. rewrite (Pm j r Hr) in *.
  destruct (rnear ri r && Nat.eqb (nth j (d_vcl st) 0) 0) eqn:Ej.
  2:{ right. auto. }
  apply andb_true_iff in Ej. destruct Ej as [Ej1 Ej2]. apply Nat.eqb_eq in Ej2.
  destruct (Nat.eq_dec j s0).
  { subst j. left. rewrite Rs0, V10. simpl. auto. }
  assert (Mj : nth j m false = true). { rewrite (Pm j r Hr), Ej1, Ej2. auto. }
  destruct (Rpos j Mj n) as [Gt Rk].
  assert (NS : nth (rank m j) (set_nth 0 false v1) false = nth (rank m j) v1 false).
  { destruct v1; auto. destruct (rank m j); [lia|]. auto. }
  rewrite NS.
  destruct (nth (rank m j) v1 false) eqn:F1, (nth (rank m j) v2 false) eqn:F2; simpl.
  - left. repeat split; auto.
  - left. repeat split; auto.
  - left. repeat split; auto.
  - right. auto.
Qed.

(** ** Invariant *)

Record af_inv (rows : list (srow AR)) (st : dstate) : Prop := {
  ai_lv : length (d_vcl st) = length rows;
  ai_lf : length (d_flag st) = length rows;
  ai_flag : forall j, nth j (d_flag st) 0%Z = 0%Z \/ nth j (d_flag st) 0%Z = 1%Z
                      \/ nth j (d_flag st) 0%Z = (-1)%Z;
  ai_ci : forall j, nth j (d_vcl st) 0 <= d_ci st;
  ai_zero : forall j, nth j (d_vcl st) 0 = 0 -> nth j (d_flag st) 0%Z = 0%Z;
  ai_main : forall c, 0 < c <= d_ci st -> exists s0 i ri,
     s0 < length rows /\ nth_error rows i = Some ri /\
     (rnear ri ri = true -> s0 <= i) /\
     nth s0 (d_vcl st) 0 = c /\ nth s0 (d_flag st) 0%Z = 0%Z /\
     (exists j, j <> s0 /\ j < length rows /\ nth j (d_vcl st) 0 = c) /\
     (forall j r, nth_error rows j = Some r -> nth j (d_vcl st) 0 = c ->
        rnear ri r = true /\ (j = s0 \/ s0 < j /\ nth j (d_flag st) 0%Z <> 0%Z))
}.

Lemma af_inv_init : forall rows,
  af_inv rows (mkD (repeat 0 (length rows)) (repeat 0%Z (length rows)) 0).
Proof.
  intros rows. constructor; simpl; try (intros; lia);
    try (rewrite repeat_length; auto); intros; rewrite ?nth_repeat_0 in *; auto.
Qed.

Lemma af_inv_step : forall tw rows st i st', i < length rows -> af_inv rows st ->
  af_step tw rows (Ok st) i = Ok st' -> af_inv rows st'.
Proof.
  intros tw rows st i st' Hi I H. destruct (nth_error_ex _ rows i Hi) as [ri Hri].
  assert (I' := I). destruct I' as [Lv Lf Fl Ci Z0 Mn].
  destruct (Nat.eq_dec (nth i (d_vcl st) 0) 0) as [V0|V0].
  2:{ unfold af_step in H. cbn [bind] in H. rewrite Hri in H.
      destruct (Nat.eqb_spec (nth i (d_vcl st) 0) 0); [congruence|]. injection H; intros <-. auto. }
  destruct (af_step_spec _ _ _ _ _ _ Lv Lf Hri H)
    as [->|(vcl & flag & s0 & -> & LV & LF & S0 & Vs & Ov & Fs & Le & (j1 & J1 & J2 & J3) & Pt)]; auto.
  assert (OutV : forall j, length rows <= j -> nth j vcl 0 = 0) by (intros; apply nth_overflow; lia).
  assert (OutF : forall j, length rows <= j -> nth j flag 0%Z = 0%Z) by (intros; apply nth_overflow; lia).
  assert (Fs0 : nth s0 flag 0%Z = 0%Z). { rewrite Fs. apply Z0. auto. }
  constructor; simpl; auto.
  - intros j. destruct (le_lt_dec (length rows) j). rewrite OutF; auto.
    destruct (nth_error_ex _ rows j l) as [r Hr].
    destruct (Pt j r Hr) as [(_ & _ & _ & [->|(_ & [->| ->])])|(_ & ->)]; auto.
  - intros j. destruct (le_lt_dec (length rows) j). rewrite OutV; auto. lia.
    destruct (nth_error_ex _ rows j l) as [r Hr]. specialize (Ci j).
    destruct (Pt j r Hr) as [(-> & _)|(-> & _)]; lia.
  - intros j. destruct (le_lt_dec (length rows) j). rewrite OutF; auto.
    destruct (nth_error_ex _ rows j l) as [r Hr].
    destruct (Pt j r Hr) as [(-> & _)|(-> & ->)]; [lia|]. apply Z0.
  - intros c Hc. destruct (Nat.eq_dec c (S (d_ci st))) as [->|Hne].
    + exists s0, i, ri. repeat split; auto.
      * exists j1. auto.
      * destruct (Pt j r H0) as [(_ & _ & W & _)|(Ev & _)]; auto.
        exfalso. specialize (Ci j). lia.
      * destruct (Pt j r H0) as [(_ & _ & W & [?|(? & F)])|(Ev & _)]; auto.
        -- right. split; auto. destruct F; lia.
        -- exfalso. specialize (Ci j). lia.
    + destruct (Mn c ltac:(lia)) as (q0 & i' & ri' & Q0 & Hi' & Le' & Vq & Fq & (j2 & K1 & K2 & K3) & M).
      assert (Keep : forall j, j < length rows -> nth j (d_vcl st) 0 = c ->
         nth j vcl 0 = c /\ nth j flag 0%Z = nth j (d_flag st) 0%Z).
      { intros j Hj Hv. destruct (nth_error_ex _ rows j Hj) as [r Hr].
        destruct (Pt j r Hr) as [(_ & Z & _)|(-> & ->)]; auto. lia. }
      exists q0, i', ri'. split; auto. split; auto. split; auto.
      destruct (Keep q0 Q0 Vq) as [Kv Kf]. split; auto. split; [congruence|].
      split. { exists j2. split; auto. split; auto. apply (Keep j2 K2 K3). }
      intros j r Hr Hv. assert (Hj := nth_error_lt _ _ _ _ Hr).
      destruct (Pt j r Hr) as [(E & _)|(E & F)]; [lia|]. rewrite E in Hv. rewrite F.
      apply M; auto.
Qed.

Lemma af_fold_err : forall tw rows l e, fold_left (af_step tw rows) l (Err e) = Err e.
Proof. induction l; simpl; auto. Qed.

Lemma af_inv_loop : forall tw rows m st, m <= length rows ->
  fold_left (af_step tw rows) (seq 0 m)
            (Ok (mkD (repeat 0 (length rows)) (repeat 0%Z (length rows)) 0)) = Ok st ->
  af_inv rows st.
Proof.
  induction m; intros st Hm H.
  - simpl in H. injection H; intros <-. apply af_inv_init.
  - rewrite seq_S, fold_left_app in H. cbn [fold_left Nat.add] in H.
    destruct (fold_left (af_step tw rows) (seq 0 m) _) as [st1|e] eqn:E; [|discriminate].
    eapply af_inv_step with (i := m); eauto. apply IHm; auto. lia.
Qed.

(** ** The whole function *)

Variable argsort : list T -> list nat.
Hypothesis AS : is_argsort argsort.

Lemma af_run : forall cat w tw vcl vmain flag,
  afteran_decluster argsort cat w tw = Ok (vcl, vmain, flag) ->
  cat <> [] /\
  exists id0 rows st, prep cat w id0 rows /\ id0 = rev (argsort (map ev_mw cat)) /\
    af_inv rows st /\
    length vcl = length cat /\ length flag = length cat /\
    vmain = mask_get (map (fun z => Z.eqb z 0) flag) cat /\
    forall k, k < length cat ->
      nth_error vcl k = Some (nth (spos id0 k) (d_vcl st) 0) /\
      nth_error flag k = Some (nth (spos id0 k) (d_flag st) 0%Z).
Proof.
  intros cat w tw vcl vmain flag H. unfold afteran_decluster in H.
  destruct cat as [|e0 cat0]; [discriminate|]. set (cat := e0 :: cat0) in *.
  split; [discriminate|].
  apply bind_ok in H. destruct H as (years & HY & H).
  apply bind_ok in H. destruct H as (f & HW & H).
  apply bind_ok in H. destruct H as (st & HF & H).
  set (id0 := rev (argsort (map ev_mw cat))) in *.
  set (rows := sorted_rows cat years f id0) in *.
  assert (P : prep cat w id0 rows) by (apply prep_ok; auto).
  assert (PP := pr_perm _ _ _ _ P). assert (PL := pr_len _ _ _ _ P).
  rewrite (eqid_id0 (length cat)) in H by auto.
  rewrite <- PL in HF. apply af_inv_loop in HF; [|lia].
  injection H; intros H1 H2 H3. clear H.
  exists id0, rows, st. split; auto. split; auto. split; auto.
  split. { rewrite <- H3. apply unsort_len; auto. }
  split. { rewrite <- H1. apply unsort_len; auto. }
  split. { rewrite <- H1, <- H2. f_equal. apply (pr_unsort _ _ _ _ P). }
  intros k Hk. rewrite <- H1, <- H3.
  rewrite !(unsort_nth (length cat)); auto.
  - split; apply nth_error_nth'.
    + rewrite (ai_lv _ _ HF), PL. apply spos_lt; auto.
    + rewrite (ai_lf _ _ HF), PL. apply spos_lt; auto.
  - rewrite (ai_lf _ _ HF). auto.
  - rewrite (ai_lv _ _ HF). auto.
Qed.

Lemma C23_proof : forall cat w tw vcl vmain flag,
  afteran_decluster argsort cat w tw = Ok (vcl, vmain, flag) ->
  length vcl = length cat /\ length flag = length cat /\
  (forall z, In z flag -> z = 0%Z \/ z = 1%Z \/ z = (-1)%Z) /\
  vmain = map fst (filter (fun p => Z.eqb (snd p) 0) (combine cat flag)) /\
  (forall k, nth_error vcl k = Some 0 -> nth_error flag k = Some 0%Z) /\
  vmain <> [].
Proof.
  intros cat w tw vcl vmain flag H.
  destruct (af_run _ _ _ _ _ _ H) as (NE & id0 & rows & st & P & _ & I & Lv & Lf & Em & Pt).
  assert (PP := pr_perm _ _ _ _ P). assert (PL := pr_len _ _ _ _ P).
  split; auto. split; auto. split; [|split; [|split]].
  - intros z Hz. apply In_nth_error in Hz. destruct Hz as [k Hk].
    assert (k < length cat) by (rewrite <- Lf; eapply nth_error_lt; eauto).
    destruct (Pt k H0) as [_ E]. rewrite E in Hk. injection Hk; intros <-.
    apply (ai_flag _ _ I).
  - rewrite Em. apply mask_get_combine_flag. auto.
  - intros k Hk. assert (k < length cat) by (rewrite <- Lv; eapply nth_error_lt; eauto).
    destruct (Pt k H0) as [E1 E2]. rewrite E2. f_equal.
    apply (ai_zero _ _ I). congruence.
  - assert (exists j, j < length rows /\ nth j (d_flag st) 0%Z = 0%Z) as (j & Hj & Fj).
    { destruct (Nat.eq_dec (nth 0 (d_vcl st) 0) 0) as [E|E].
      - exists 0. split. { destruct cat; simpl in *; [congruence|lia]. } apply (ai_zero _ _ I). auto.
      - destruct (ai_main _ _ I (nth 0 (d_vcl st) 0)) as (s0 & i & ri & S0 & _ & _ & _ & F0 & _).
        { split; [lia|]. apply (ai_ci _ _ I). }
        exists s0. auto. }
    destruct (spos_onto _ _ PP j) as (k & Hk & Sk). lia.
    destruct (Pt k Hk) as [_ E]. rewrite Sk, Fj in E.
    destruct (nth_error_ex _ cat k Hk) as [e He].
    assert (In e vmain).
    { rewrite Em. apply in_mask_get. exists k. rewrite nth_error_map, E. auto. }
    intros Z. rewrite Z in H0. destruct H0.
Qed.

(** Structure of the clusters: numbers 1..n all used, one kept event per cluster, first of
    its cluster in the processing order, all members near a common event. *)
Lemma C22_generic : forall cat w tw vcl vmain flag,
  afteran_decluster argsort cat w tw = Ok (vcl, vmain, flag) ->
  exists n, (forall c, In c vcl -> c <= n) /\
    forall c, 0 < c <= n ->
      exists k main centre, nth_error cat k = Some main /\
        nth_error vcl k = Some c /\ nth_error flag k = Some 0%Z /\
        In centre cat /\
        (exists k', k' <> k /\ nth_error vcl k' = Some c) /\
        (in_space_window w centre centre = true -> exists kc, nth_error cat kc = Some centre /\
           spos (rev (argsort (map ev_mw cat))) k <= spos (rev (argsort (map ev_mw cat))) kc) /\
        forall k' e', nth_error cat k' = Some e' -> nth_error vcl k' = Some c ->
          in_space_window w centre e' = true /\
          (k' = k \/ nth_error flag k' <> Some 0%Z /\
             spos (rev (argsort (map ev_mw cat))) k < spos (rev (argsort (map ev_mw cat))) k').
Proof.
  intros cat w tw vcl vmain flag H.
  destruct (af_run _ _ _ _ _ _ H) as (NE & id0 & rows & st & P & Id & I & Lv & Lf & Em & Pt).
  assert (PP := pr_perm _ _ _ _ P). assert (PL := pr_len _ _ _ _ P).
  exists (d_ci st). split.
  { intros c Hc. apply In_nth_error in Hc. destruct Hc as [k Hk].
    assert (k < length cat) by (rewrite <- Lv; eapply nth_error_lt; eauto).
    destruct (Pt k H0) as [E _]. rewrite E in Hk. injection Hk; intros <-. apply (ai_ci _ _ I). }
  intros c Hc.
  destruct (ai_main _ _ I c Hc) as (s0 & i & ri & S0 & Hi & Le & Vs & Fs & (j & J1 & J2 & J3) & M).
  destruct (spos_onto _ _ PP s0) as (k & Hk & Sk). lia.
  destruct (spos_onto _ _ PP i) as (kc & Hkc & Skc). { rewrite <- PL. eapply nth_error_lt; eauto. }
  destruct (spos_onto _ _ PP j) as (kj & Hkj & Skj). lia.
  destruct (nth_error_ex _ cat k Hk) as [main Hmain].
  destruct (nth_error_ex _ cat kc Hkc) as [centre Hcentre].
  assert (NR : forall q e r, nth_error cat q = Some e -> nth_error rows (spos id0 q) = Some r ->
     in_space_window w centre e = rnear ri r).
  { intros q e r He Hr. destruct (pr_row _ _ _ _ P _ _ He) as (f & t & HW & _ & R1).
    destruct (pr_row _ _ _ _ P _ _ Hcentre) as (f' & t' & HW' & _ & R2).
    rewrite Hr in R1. rewrite Skc, Hi in R2. injection R1; injection R2; intros -> ->.
    unfold in_space_window, rnear. rewrite HW'. reflexivity. }
  exists k, main, centre. split; auto.
  destruct (Pt k Hk) as [E1 E2]. rewrite Sk, Vs in E1. rewrite Sk, Fs in E2.
  split; auto. split; auto. split; [eapply nth_error_In; eauto|].
  split. { exists kj. split; [congruence|]. destruct (Pt kj Hkj) as [E _]. congruence. }
  rewrite <- Id. split.
  { intros Self. exists kc. split; auto. rewrite Sk, Skc. apply Le.
    rewrite <- (NR kc centre ri); auto. congruence. }
  intros k' e' He' Hv. assert (Hk' := nth_error_lt _ _ _ _ He').
  destruct (Pt k' Hk') as [E1' E2']. rewrite E1' in Hv. injection Hv; intros Hv'.
  destruct (nth_error_ex _ rows (spos id0 k')) as [r Hr]. { rewrite PL. apply spos_lt; auto. }
  destruct (M _ _ Hr Hv') as [W D]. split.
  { rewrite (NR k' e' r); auto. }
  destruct D as [D|[D1 D2]].
  - left. rewrite <- Sk in D. apply (spos_inj _ _ PP); auto.
  - right. split; [congruence|]. rewrite Sk. auto.
Qed.

End Generic.
