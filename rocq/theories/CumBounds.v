(** Bounds and symmetries of the cumulative-moment estimate (C119, C120). *)
From Coq Require Import ZArith Arith Bool List Permutation Lia Reals Lra.
From Verif Require Import Base Ops RFacts BaseFacts MaxMag GeoProofs SteppProofs MomentSpec MomentProofs.
Import ListNotations.
Local Open Scope R_scope.

Lemma released_mono : forall cat y y', (y <= y')%Z -> released cat y <= released cat y'.
Proof.
  intros cat y y' H. rewrite !released_R. apply Rsum_le. intros [z m] _. cbn [fst snd].
  assert (P := moment_pos m). destruct (Z.leb_spec z y), (Z.leb_spec z y'); lra || lia.
Qed.

Lemma released_nonneg : forall cat y, 0 <= released cat y.
Proof.
  intros. unfold released. apply Rsum_nonneg. intros x Hx. apply in_map_iff in Hx.
  destruct Hx as ([z m] & <- & _). left. apply moment_pos.
Qed.

(** An event adds its moment in its year. *)
Lemma released_jump : forall cat z m, In (z, m) cat -> seismic_moment m <= released cat z - released cat (z - 1).
Proof.
  induction cat as [|[z' m'] cat IH]; intros z m I; [destruct I|]. rewrite !released_R in *. cbn [map Rsum fst snd].
  rewrite <- !released_R. destruct I as [E|I].
  - injection E. intros -> ->. assert (R1 := released_mono cat (z - 1) z ltac:(lia)).
    destruct (Z.leb_spec z z); [|lia]. destruct (Z.leb_spec z (z - 1)); [lia|]. lra.
  - specialize (IH z m I). assert (P := moment_pos m').
    destruct (Z.leb_spec z' z), (Z.leb_spec z' (z - 1)); lra || lia.
Qed.

Lemma excess_last : forall cat f l, (f <= l)%Z -> excess cat f l l = 0.
Proof. intros. unfold excess, Rdiv. rewrite Rinv_r. lra. apply not_0_IZR. lia. Qed.

(** The share of the period that has passed. *)
Lemma share : forall f l y y', (f <= y <= y')%Z -> (y' <= l)%Z ->
  0 <= IZR (y - f + 1) / IZR (l - f + 1) <= IZR (y' - f + 1) / IZR (l - f + 1) /\
  IZR (y' - f + 1) / IZR (l - f + 1) <= 1.
Proof.
  intros f l y y' H H'. assert (P : 0 < IZR (l - f + 1)) by (apply IZR_lt; lia).
  assert (A : 0 <= IZR (y - f + 1)) by (apply IZR_le; lia).
  assert (B : IZR (y - f + 1) <= IZR (y' - f + 1)) by (apply IZR_le; lia).
  assert (C : IZR (y' - f + 1) <= IZR (l - f + 1)) by (apply IZR_le; lia).
  assert (I := Rinv_0_lt_compat _ P). unfold Rdiv. split; [split|].
  - apply Rmult_le_pos; lra.
  - apply Rmult_le_compat_r; lra.
  - rewrite <- (Rinv_r (IZR (l - f + 1))) by lra. apply Rmult_le_compat_r; lra.
Qed.

Lemma width_total : forall cat f l hi lo, (f <= hi <= l)%Z -> (f <= lo <= l)%Z ->
  excess cat f l hi - excess cat f l lo <= released cat l.
Proof.
  intros cat f l hi lo H1 H2. assert (T0 := released_nonneg cat l).
  assert (L1 := released_nonneg cat lo). assert (U1 := released_mono cat hi l ltac:(lia)).
  unfold excess. destruct (Z.le_ge_cases lo hi) as [O|O].
  - assert (S := share f l lo hi ltac:(lia) ltac:(lia)). nra.
  - assert (S := share f l hi lo ltac:(lia) ltac:(lia)). assert (M := released_mono cat hi lo O). nra.
Qed.

Lemma width_jump : forall cat f l hi lo z m, In (z, m) cat -> (f <= z <= l)%Z ->
  (forall y, (f <= y <= l)%Z -> excess cat f l lo <= excess cat f l y <= excess cat f l hi) ->
  seismic_moment m - released cat l / IZR (l - f + 1) <= excess cat f l hi - excess cat f l lo.
Proof.
  intros cat f l hi lo z m I Z W. assert (J := released_jump cat z m I).
  assert (P : 0 < IZR (l - f + 1)) by (apply IZR_lt; lia).
  assert (Wz := W z Z). destruct (Z.eq_dec z f) as [->|N].
  - assert (Wl := W l ltac:(lia)). rewrite excess_last in Wl by lia.
    assert (R0 := released_nonneg cat (f - 1)).
    assert (E : excess cat f l f = released cat f - released cat l / IZR (l - f + 1)).
    { unfold excess. replace (f - f + 1)%Z with 1%Z by lia. field. lra. }
    lra.
  - assert (Wp := W (z - 1)%Z ltac:(lia)).
    assert (E : excess cat f l z - excess cat f l (z - 1)
                = released cat z - released cat (z - 1) - released cat l / IZR (l - f + 1)).
    { unfold excess. replace (z - f + 1)%Z with ((z - 1 - f + 1) + 1)%Z by lia.
      rewrite (plus_IZR (z - 1 - f + 1) 1). field. lra. }
    lra.
Qed.

Lemma moment_of_estimate : forall w, 0 < w -> seismic_moment (2 / 3 * (ln w / ln 10 - 905 / 100)) = w.
Proof.
  intros w H. unfold seismic_moment.
  replace (905 / 100 + 15 / 10 * (2 / 3 * (ln w / ln 10 - 905 / 100))) with (ln w / ln 10) by lra.
  unfold Rpower. replace (ln w / ln 10 * ln 10) with (ln w). apply exp_ln; auto.
  field. assert (X := ln10_pos). lra.
Qed.

(** The width is positive unless the release is uniform. *)
Lemma width_positive : forall cat f l hi lo y, (f <= y <= l)%Z -> excess cat f l y <> 0 ->
  (forall y, (f <= y <= l)%Z -> excess cat f l lo <= excess cat f l y <= excess cat f l hi) ->
  0 < excess cat f l hi - excess cat f l lo.
Proof.
  intros cat f l hi lo y Y N W. assert (A := W y Y). assert (B := W l ltac:(lia)). rewrite excess_last in B by lia. lra.
Qed.

Lemma C119_partial_proof : forall (zs : list Z) (mag : list R) first last v y, length zs = length mag ->
  In first zs -> In last zs -> (forall z, In z zs -> (first <= z <= last)%Z) ->
  (first <= y <= last)%Z -> excess (combine zs mag) first last y <> 0 ->
  @cumulative_moment ROps (map IZR zs) mag = Ok v ->
  seismic_moment v <= Rsum (map seismic_moment mag) /\
  forall m, In m mag ->
    seismic_moment m - Rsum (map seismic_moment mag) / IZR (last - first + 1) <= seismic_moment v.
Proof.
  intros zs mag f l v y L H1 H2 H3 HY NZ HV.
  destruct (C49_proof zs mag f l L H1 H2 H3) as (hi & lo & A1 & A2 & A3 & E).
  assert (EV : v = 2 / 3 * (ln (excess (combine zs mag) f l hi - excess (combine zs mag) f l lo) / ln 10 - 905 / 100)) by congruence.
  assert (P := width_positive _ _ _ _ _ _ HY NZ A3).
  assert (SM := moment_of_estimate _ P). rewrite <- EV in SM. rewrite SM.
  assert (TOT : released (combine zs mag) l = Rsum (map seismic_moment mag)).
  { rewrite released_R. clear - L H3. revert mag L. induction zs as [|z zs IH]; intros [|m mag] L; try discriminate; auto.
    cbn [combine map Rsum fst snd]. destruct (Z.leb_spec z l). f_equal. apply IH. intros; apply H3; simpl; auto.
    simpl in L. congruence. specialize (H3 z (or_introl eq_refl)). lia. }
  rewrite <- TOT. split. apply width_total; auto.
  intros m Im. destruct (In_nth_error _ _ Im) as [k Hk].
  assert (EZ : exists z, nth_error zs k = Some z).
  { destruct (nth_error zs k) eqn:Q; eauto. apply nth_error_None in Q. assert (k < length mag)%nat by (apply nth_error_Some; congruence). lia. }
  destruct EZ as [z Hz]. apply width_jump with (z := z); auto.
  - clear - Hz Hk. revert zs mag Hz Hk. induction k as [|k IH]; intros [|z0 zs] [|m0 mag] Hz Hk; simpl in *; try discriminate.
    left. congruence. right. auto.
  - apply H3. eapply nth_error_In. eauto.
Qed.

(** ** Every event listed n times *)

Lemma released_copies : forall n cat y, released (concat (repeat cat n)) y = INR n * released cat y.
Proof.
  intros n cat y. rewrite !released_R. induction n as [|n IH].
  - simpl. lra.
  - cbn [repeat concat]. rewrite map_app, Rsum_app, IH, S_INR. lra.
Qed.

Lemma scaled_width : forall (zs zs' : list Z) (mag mag' : list R) f l c v y, 0 < c ->
  length zs = length mag -> length zs' = length mag' ->
  In f zs -> In l zs -> (forall z, In z zs -> (f <= z <= l)%Z) ->
  In f zs' -> In l zs' -> (forall z, In z zs' -> (f <= z <= l)%Z) ->
  (forall z, released (combine zs' mag') z = c * released (combine zs mag) z) ->
  (f <= y <= l)%Z -> excess (combine zs mag) f l y <> 0 ->
  @cumulative_moment ROps (map IZR zs) mag = Ok v ->
  @cumulative_moment ROps (map IZR zs') mag' = Ok (v + 2 / 3 * (ln c / ln 10)).
Proof.
  intros zs zs' mag mag' f l c v y SP L L' H1 H2 H3 I1 I2 I3 RE HY NZ HV.
  destruct (C49_proof zs mag f l L H1 H2 H3) as (hi & lo & A1 & A2 & A3 & E).
  destruct (C49_proof zs' mag' f l L' I1 I2 I3) as (hi' & lo' & B1 & B2 & B3 & E').
  rewrite E'. rewrite HV in E. injection E. intros ->. clear E. f_equal.
  assert (EE : forall z, excess (combine zs' mag') f l z = c * excess (combine zs mag) f l z).
  { intros z. unfold excess. rewrite !RE. ring. }
  assert (P := width_positive _ _ _ _ _ _ HY NZ A3).
  assert (X1 := A3 hi' B1). assert (X2 := A3 lo' B2). assert (Y1 := B3 hi A1). assert (Y2 := B3 lo A2).
  rewrite !EE in *.
  set (e1 := excess (combine zs mag) f l hi) in *. set (e2 := excess (combine zs mag) f l lo) in *.
  set (e3 := excess (combine zs mag) f l hi') in *. set (e4 := excess (combine zs mag) f l lo') in *.
  assert (W1 : e1 <= e3) by (apply (Rmult_le_reg_l c); lra).
  assert (W2 : e4 <= e2) by (apply (Rmult_le_reg_l c); lra).
  replace (c * e3 - c * e4) with (c * (e1 - e2)) by (replace e3 with e1 by lra; replace e4 with e2 by lra; ring).
  rewrite ln_mult by lra. field. assert (X := ln10_pos). lra.
Qed.

Lemma in_copies : forall A (x : A) n l, (0 < n)%nat -> (In x (concat (repeat l n)) <-> In x l).
Proof.
  intros A x n l H. rewrite in_concat. split.
  - intros (y & Hy & I). apply repeat_spec in Hy. congruence.
  - intros I. exists l. split; auto. destruct n; [lia|]. left. auto.
Qed.

Lemma combine_fst_snd : forall A B (l : list (A * B)), combine (map fst l) (map snd l) = l.
Proof. induction l as [|[a b] l IH]; simpl; auto. rewrite IH. auto. Qed.

Lemma C120_copies_proof : forall n (evs evs' : list (Z * R)) first last v y, (0 < n)%nat ->
  Permutation evs' (concat (repeat evs n)) ->
  In first (map fst evs) -> In last (map fst evs) -> (forall z, In z (map fst evs) -> (first <= z <= last)%Z) ->
  (first <= y <= last)%Z -> excess evs first last y <> 0 ->
  @cumulative_moment ROps (map IZR (map fst evs)) (map snd evs) = Ok v ->
  @cumulative_moment ROps (map IZR (map fst evs')) (map snd evs') = Ok (v + 2 / 3 * (ln (INR n) / ln 10)).
Proof.
  intros n evs evs' f l v y N P H1 H2 H3 HY NZ HV.
  assert (IFF : forall z, In z (map fst evs') <-> In z (map fst evs)).
  { intros z. rewrite !in_map_iff. split; intros (e & <- & I); exists e; split; auto.
    - apply (in_copies _ e n evs N). eapply Permutation_in; eauto.
    - eapply Permutation_in; [symmetry; exact P|]. apply in_copies; auto. }
  eapply scaled_width with (zs := map fst evs) (mag := map snd evs) (f := f) (l := l) (y := y); auto;
    rewrite ?map_length, ?combine_fst_snd; auto.
  - apply lt_0_INR. auto.
  - apply IFF; auto.
  - apply IFF; auto.
  - intros z I. apply H3, IFF, I.
  - intros z. rewrite (released_perm _ _ z P). apply released_copies.
Qed.

(** ** Reversed time *)

Lemma released_rev : forall c evs y, released (map (fun e => ((c - fst e)%Z, snd e)) evs) y
  = Rsum (map (fun e => seismic_moment (snd e)) evs) - released evs (c - y - 1).
Proof.
  intros c evs y. rewrite !released_R, map_map. induction evs as [|[z m] evs IH]; cbn [map Rsum fst snd] in *; [lra|].
  rewrite IH. destruct (Z.leb_spec (c - z) y), (Z.leb_spec z (c - y - 1)); lra || lia.
Qed.

Lemma C120_reversed_proof : forall c (evs : list (Z * R)),
  @cumulative_moment ROps (map IZR (map (fun e => (c - fst e)%Z) evs)) (map snd evs)
  = @cumulative_moment ROps (map IZR (map fst evs)) (map snd evs).
Proof.
  intros c evs. destruct evs as [|e0 evs0] eqn:EE; [reflexivity|]. rewrite <- EE in *.
  destruct (Z_extremes (map fst evs)) as (f & l & H1 & H2 & H3); [subst; discriminate|]. clear EE e0 evs0.
  set (evs' := map (fun e => ((c - fst e)%Z, snd e)) evs).
  assert (M1 : map (fun e => (c - fst e)%Z) evs = map fst evs') by (unfold evs'; rewrite map_map; reflexivity).
  assert (M2 : map snd evs = map snd evs') by (unfold evs'; rewrite map_map; reflexivity).
  rewrite M1. rewrite M2 at 1.
  destruct (C49_proof (map fst evs) (map snd evs) f l) as (hi & lo & A1 & A2 & A3 & E); auto. { now rewrite !map_length. }
  destruct (C49_proof (map fst evs') (map snd evs') (c - l) (c - f)) as (hi' & lo' & B1 & B2 & B3 & E').
  { now rewrite !map_length. }
  { rewrite <- M1. apply in_map_iff in H2. destruct H2 as (e & <- & I). apply in_map_iff. eauto. }
  { rewrite <- M1. apply in_map_iff in H1. destruct H1 as (e & <- & I). apply in_map_iff. eauto. }
  { rewrite <- M1. intros z I. apply in_map_iff in I. destruct I as (e & <- & I). specialize (H3 (fst e) (in_map fst _ _ I)). lia. }
  rewrite E, E'. rewrite !combine_fst_snd in *.
  assert (FL := H3 _ H2).
  assert (P : 0 < IZR (l - f + 1)) by (apply IZR_lt; lia).
  assert (TOT : Rsum (map (fun e => seismic_moment (snd e)) evs) = released evs l).
  { rewrite released_R. apply Rsum_ext. intros e I. specialize (H3 (fst e) (in_map fst _ _ I)).
    destruct (Z.leb_spec (fst e) l); [auto|lia]. }
  assert (BEFORE : released evs (f - 1) = 0).
  { rewrite released_R. transitivity (Rsum (map (fun _ : Z * R => 0) evs)); [|rewrite Rsum_const; lra]. apply Rsum_ext.
    intros e I. specialize (H3 (fst e) (in_map fst _ _ I)). destruct (Z.leb_spec (fst e) (f - 1)); [lia|auto]. }
  assert (X : forall y, excess evs' (c - l) (c - f) y = - excess evs f l (c - y - 1)).
  { intros y. unfold excess, evs'. rewrite !released_rev, TOT. replace (c - (c - f) - 1)%Z with (f - 1)%Z by lia.
    rewrite BEFORE. replace (c - f - (c - l) + 1)%Z with (l - f + 1)%Z by lia.
    replace (y - (c - l) + 1)%Z with ((l - f + 1) - (c - y - 1 - f + 1))%Z by lia. rewrite (minus_IZR (l - f + 1)). field. lra. }
  assert (Z0 : excess evs f l (f - 1) = 0).
  { unfold excess. rewrite BEFORE. replace (f - 1 - f + 1)%Z with 0%Z by lia. field. lra. }
  assert (ZL := excess_last evs f l ltac:(lia)).
  assert (ZL' := excess_last evs' (c - l) (c - f) ltac:(lia)).
  (* every excess of one is minus one of the other *)
  assert (U : forall y, (f <= y <= l)%Z -> - excess evs' (c - l) (c - f) hi' <= excess evs f l y <= - excess evs' (c - l) (c - f) lo').
  { intros y Y. destruct (Z.eq_dec y l) as [->|N].
    - rewrite ZL. specialize (B3 (c - f)%Z ltac:(lia)). rewrite ZL' in B3. lra.
    - specialize (B3 (c - y - 1)%Z ltac:(lia)). rewrite (X (c - y - 1)%Z) in B3.
      replace (c - (c - y - 1) - 1)%Z with y in B3 by lia. lra. }
  assert (V : forall y, (c - l <= y <= c - f)%Z -> - excess evs f l hi <= excess evs' (c - l) (c - f) y <= - excess evs f l lo).
  { intros y Y. rewrite X. destruct (Z.eq_dec y (c - f)) as [->|N].
    - replace (c - (c - f) - 1)%Z with (f - 1)%Z by lia. rewrite Z0. specialize (A3 l ltac:(lia)). rewrite ZL in A3. lra.
    - specialize (A3 (c - y - 1)%Z ltac:(lia)). lra. }
  assert (U1 := U hi A1). assert (U2 := U lo A2). assert (V1 := V hi' B1). assert (V2 := V lo' B2).
  replace (excess evs' (c - l) (c - f) hi' - excess evs' (c - l) (c - f) lo') with (excess evs f l hi - excess evs f l lo) by lra.
  reflexivity.
Qed.
