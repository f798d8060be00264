(** Cumulative moment (C49), its bootstrap (C50), quantiles (C51), dispatch (C52). *)
From Coq Require Import String ZArith Arith Bool List Lia Reals Lra Permutation Sorted.
From Verif Require Import Base Ops BaseFacts RFacts SteppSpec MaxMag SteppProofs GeoProofs RecurrenceProofs
  MaxMagProofs KijkoProofs KijkoWitness MomentSpec.
Import ListNotations.
Local Open Scope R_scope.

(** ** Sums *)

Lemma Rsum_filter : forall A (p : A -> bool) (f : A -> R) l,
  Rsum (map f (filter p l)) = Rsum (map (fun a => if p a then f a else 0) l).
Proof. induction l; simpl; auto. destruct (p a); simpl; rewrite IHl; lra. Qed.

Lemma Rsum_swap : forall A B (f : A -> B -> R) l m,
  Rsum (map (fun a => Rsum (map (f a) m)) l) = Rsum (map (fun b => Rsum (map (fun a => f a b) l)) m).
Proof.
  induction l; intros m; simpl.
  - assert (H := Rsum_const B 0 m). simpl in H. rewrite Rmult_0_r in H. symmetry. exact H.
  - rewrite IHl, <- Rsum_map_plus. reflexivity.
Qed.

Lemma Rsum_ext : forall A (f g : A -> R) l, (forall a, In a l -> f a = g a) -> Rsum (map f l) = Rsum (map g l).
Proof. intros. f_equal. apply map_ext_in. auto. Qed.

Lemma cumsum_from_nth : forall l acc k x, nth_error l k = Some x ->
  nth_error (@cumsum_from ROps acc l) k = Some (acc + Rsum (firstn (S k) l)).
Proof.
  induction l; intros acc k x H; destruct k; simpl in *; try discriminate.
  - f_equal. rops. lra.
  - rops. rewrite (IHl _ _ _ H). f_equal. simpl. lra.
Qed.

Lemma cumsum_nth : forall l k x, nth_error l k = Some x ->
  nth_error (@cumsum ROps l) k = Some (Rsum (firstn (S k) l)).
Proof.
  intros l k x H. destruct l as [|a l]; [destruct k; discriminate|]. destruct k; simpl.
  - f_equal. lra.
  - simpl in H. rewrite (cumsum_from_nth _ _ _ _ H). reflexivity.
Qed.

Lemma cumsum_length : forall l : list R, length (@cumsum ROps l) = length l.
Proof.
  assert (F : forall l acc, length (@cumsum_from ROps acc l) = length l) by (induction l; simpl; auto).
  destruct l; simpl; auto.
Qed.

(** ** Moments *)

Lemma moment_R : forall m, @moment ROps m = seismic_moment m.
Proof. reflexivity. Qed.
Lemma moment_pos : forall m, 0 < seismic_moment m.
Proof. intros. apply Rpower_pos. Qed.

Lemma year_moment_R : forall (year mag : list R) t, length year = length mag ->
  @year_moment ROps year mag t
  = Rsum (map (fun e => if Rltb (Rabs (fst e - t)) (1 / 100000) then seismic_moment (snd e) else 0) (combine year mag)).
Proof.
  intros year mag t L. unfold year_moment, lit. rops. rewrite mask_get_map.
  rewrite (mask_get_combine_snd _ _ (fun y => Rltb (Rabs (y - t)) (1 / 100000)) year mag L).
  rewrite <- (Rsum_filter _ (fun e => Rltb (Rabs (fst e - t)) (1 / 100000)) (fun e => seismic_moment (snd e))).
  rewrite map_map.
  match goal with |- (if ?c then ?a else 0) = ?b => assert (E : a = b) by apply sumv_R; destruct c eqn:C end; [exact E|].
  apply Nat.ltb_ge in C. 
  assert (Z : filter (fun e : R * R => Rltb (Rabs (fst e - t)) (1 / 100000)) (combine year mag) = []).
  { assert (LM := length_mask_get R (map (fun y => Rltb (Rabs (y - t)) (1 / 100000)) year) mag).
    rewrite map_length in LM. specialize (LM L).
    rewrite (mask_get_combine_snd _ _ (fun y => Rltb (Rabs (y - t)) (1 / 100000)) year mag L), map_length in LM.
    destruct (filter _ _); auto. simpl in LM. rops. lia. }
  rewrite Z. reflexivity.
Qed.

(** dev of moment_deviation as a function. *)
Definition dev_list (year mag rng : list R) : list R :=
  map2 Rminus (@cumsum ROps (map (@year_moment ROps year mag) rng))
    (@cumsum ROps (map (fun _ => Rsum (map (@year_moment ROps year mag) rng) / INR (length rng) * 1) rng)).

Lemma moment_deviation_R : forall (year mag : list R) ymin ymax mx mn,
  @minv ROps year = Ok ymin -> @maxv ROps year = Ok ymax ->
  let d := dev_list year mag (@arange ROps ymin (ymax + 1) 1) in
  @maxv ROps d = Ok mx -> @minv ROps d = Ok mn ->
  @moment_deviation ROps year mag = Ok (Rabs mx + Rabs mn).
Proof.
  intros year mag ymin ymax mx mn H1 H2 d H3 H4. unfold moment_deviation. rops. rewrite H1, H2. cbn [bind].
  assert (E : map2 Rminus (@cumsum ROps (map (@year_moment ROps year mag) (@arange ROps ymin (ymax + 1) 1)))
     (@cumsum ROps (map (fun _ => @sumv ROps (map (@year_moment ROps year mag) (@arange ROps ymin (ymax + 1) 1)) /
       @ofnat ROps (length (@arange ROps ymin (ymax + 1) 1)) * 1) (@arange ROps ymin (ymax + 1) 1))) = d).
  { unfold d, dev_list. rewrite sumv_R, ofnat_R. reflexivity. }
  rops. rewrite E, H3, H4. reflexivity.
Qed.

Lemma dev_nth : forall (year mag rng : list R) k t, nth_error rng k = Some t ->
  nth_error (dev_list year mag rng) k
  = Some (Rsum (map (@year_moment ROps year mag) (firstn (S k) rng))
          - INR (S k) / INR (length rng) * Rsum (map (@year_moment ROps year mag) rng)).
Proof.
  intros year mag rng k t H. unfold dev_list.
  assert (A := cumsum_nth (map (@year_moment ROps year mag) rng) k _ (map_nth_error _ _ _ H)).
  assert (B := cumsum_nth (map (fun _ => Rsum (map (@year_moment ROps year mag) rng) / INR (length rng) * 1) rng) k _ (map_nth_error _ _ _ H)).
  rewrite <- firstn_map in *.
  assert (C := nth_error_map2 _ _ _ Rminus _ _ _ _ _ A B). rops. rewrite C. f_equal.
  assert (D : Rsum (firstn (S k) (map (fun _ : R => Rsum (map (@year_moment ROps year mag) rng) / INR (length rng) * 1) rng))
     = INR (S k) * (Rsum (map (@year_moment ROps year mag) rng) / INR (length rng) * 1)).
  { rewrite firstn_map, Rsum_const, firstn_length_le; auto.
    assert (X := nth_error_lt _ _ _ _ H). rops. lia. }
  rops. rewrite D. unfold Rdiv. lra.
Qed.

Lemma dev_length : forall year mag rng : list R, length (dev_list year mag rng) = length rng.
Proof.
  intros. unfold dev_list. rewrite length_map2.
  assert (A := cumsum_length (map (@year_moment ROps year mag) rng)).
  assert (B := cumsum_length (map (fun _ => Rsum (map (@year_moment ROps year mag) rng) / INR (length rng) * 1) rng)).
  rewrite map_length in A, B. rops. lia.
Qed.

(** ** Integer years *)

Lemma year_eq_test : forall a b : Z, Rltb (Rabs (IZR a - IZR b)) (1 / 100000) = Z.eqb a b.
Proof.
  intros a b. rewrite <- minus_IZR, <- abs_IZR. destruct (Z.eqb a b) eqn:E.
  - apply Z.eqb_eq in E. subst. rewrite Z.sub_diag. simpl. apply Rltb_true. lra.
  - apply Z.eqb_neq in E. apply Rltb_false. assert (H : (1 <= Z.abs (a - b))%Z) by lia. apply IZR_le in H. lra.
Qed.

Lemma combine_map_fst : forall A B C (f : A -> B) (l : list A) (m : list C),
  combine (map f l) m = map (fun e => (f (fst e), snd e)) (combine l m).
Proof. induction l; destruct m; simpl; auto. rewrite IHl. auto. Qed.

Lemma year_moment_Z : forall (zs : list Z) (mag : list R) t, length zs = length mag ->
  @year_moment ROps (map IZR zs) mag (IZR t)
  = Rsum (map (fun e => if Z.eqb (fst e) t then seismic_moment (snd e) else 0) (combine zs mag)).
Proof.
  intros zs mag t L. rewrite year_moment_R by (rewrite map_length; auto).
  rewrite combine_map_fst, map_map. apply Rsum_ext. intros [z m] _. cbn [fst snd]. rewrite year_eq_test. auto.
Qed.

Lemma year_steps : forall (first z : Z) (M : R) n, (first <= z)%Z ->
  Rsum (map (fun k => if Z.eqb z (first + Z.of_nat k) then M else 0) (seq 0 n))
  = if Z.ltb z (first + Z.of_nat n) then M else 0.
Proof.
  intros first z M n H. induction n.
  - simpl. destruct (Z.ltb z (first + 0)) eqn:E; auto. apply Z.ltb_lt in E. lia.
  - rewrite seq_S, map_app, Rsum_app, IHn. cbn [map Rsum]. rewrite Nat.add_0_l.
    destruct (Z.ltb_spec z (first + Z.of_nat n)); destruct (Z.eqb_spec z (first + Z.of_nat n));
      destruct (Z.ltb_spec z (first + Z.of_nat (S n))); try lia; lra.
Qed.

Lemma released_R : forall cat y, released cat y
  = Rsum (map (fun e => if Z.leb (fst e) y then seismic_moment (snd e) else 0) cat).
Proof. intros. unfold released. apply Rsum_filter. Qed.

Lemma year_sums : forall (zs : list Z) (mag : list R) first n, length zs = length mag ->
  (forall z, In z zs -> (first <= z)%Z) ->
  Rsum (map (fun k => @year_moment ROps (map IZR zs) mag (IZR (first + Z.of_nat k))) (seq 0 n))
  = released (combine zs mag) (first + Z.of_nat n - 1).
Proof.
  intros zs mag first n L H.
  rewrite (Rsum_ext _ _ (fun k => Rsum (map (fun e => if Z.eqb (fst e) (first + Z.of_nat k) then seismic_moment (snd e) else 0) (combine zs mag)))).
  2:{ intros k _. apply year_moment_Z. auto. }
  rewrite Rsum_swap, released_R. apply Rsum_ext. intros [z m] I. cbn [fst snd].
  rewrite year_steps. 2:{ apply H. apply in_combine_l in I. auto. }
  destruct (Z.ltb_spec z (first + Z.of_nat n)); destruct (Z.leb_spec z (first + Z.of_nat n - 1)); lia || auto.
Qed.

Lemma year_range_Z : forall first last : Z, (first <= last)%Z ->
  @arange ROps (IZR first) (IZR last + 1) 1
  = map (fun k => IZR (first + Z.of_nat k)) (seq 0 (Z.to_nat (last - first + 1))).
Proof.
  intros first last H.
  assert (AL : @arange_len ROps (IZR first) (IZR last + 1) 1 = Z.to_nat (last - first + 1)).
  { unfold arange_len. rops. replace ((IZR last + 1 - IZR first) / 1) with (IZR (last - first + 1)).
    2:{ rewrite plus_IZR, minus_IZR. field. }
    rewrite Rceil_IZR. rewrite Rtrunc_IZR. auto. }
  unfold arange. rewrite AL. apply map_ext. intros k. rewrite arange_at_R. rewrite plus_IZR, <- INR_IZR_INZ. lra.
Qed.

Lemma C49_proof : forall (zs : list Z) (mag : list R) first last, length zs = length mag ->
  In first zs -> In last zs -> (forall z, In z zs -> (first <= z <= last)%Z) ->
  exists hi lo, (first <= hi <= last)%Z /\ (first <= lo <= last)%Z /\
    (forall y, (first <= y <= last)%Z ->
       excess (combine zs mag) first last lo <= excess (combine zs mag) first last y
       <= excess (combine zs mag) first last hi) /\
    @cumulative_moment ROps (map IZR zs) mag
    = Ok (2 / 3 * (ln (excess (combine zs mag) first last hi - excess (combine zs mag) first last lo) / ln 10 - 905 / 100)).
Proof.
  intros zs mag first last L IF IL B.
  assert (FL := B _ IL). set (cat := combine zs mag). set (n := Z.to_nat (last - first + 1)).
  assert (MN : @minv ROps (map IZR zs) = Ok (IZR first)).
  { apply minv_spec. split. apply in_map; auto. intros y I. apply in_map_iff in I. destruct I as (z & <- & I).
    apply IZR_le. apply B; auto. }
  assert (MX : @maxv ROps (map IZR zs) = Ok (IZR last)).
  { apply maxv_spec. split. apply in_map; auto. intros y I. apply in_map_iff in I. destruct I as (z & <- & I).
    apply IZR_le. apply B; auto. }
  assert (RE : exists rng : list R, rng = @arange ROps (IZR first) (IZR last + 1) 1) by eauto.
  destruct RE as [rng RE].
  assert (RG : rng = map (fun k => IZR (first + Z.of_nat k)) (seq 0 n)) by (rewrite RE; apply year_range_Z; lia).
  assert (LR : @length R rng = n) by (rewrite RG, map_length, seq_length; auto).
  assert (DN : forall k, (k < n)%nat -> nth_error (dev_list (map IZR zs) mag rng) k = Some (excess cat first last (first + Z.of_nat k))).
  { intros k Hk.
    assert (NK : nth_error rng k = Some (IZR (first + Z.of_nat k))).
    { rewrite RG. erewrite map_nth_error; [reflexivity|]. rewrite nth_error_nth' with (d := 0%nat) by (rewrite seq_length; auto).
      rewrite seq_nth; auto. }
    rewrite (dev_nth _ _ _ _ _ NK). f_equal. rewrite LR.
    assert (F : firstn (S k) rng = map (fun k => IZR (first + Z.of_nat k)) (seq 0 (S k))).
    { rewrite RG, firstn_map. f_equal. replace n with (S k + (n - S k))%nat by lia. rewrite seq_app, firstn_app.
      rewrite firstn_all2 by (rewrite seq_length; lia). rewrite seq_length, Nat.sub_diag, firstn_O, app_nil_r. auto. }
    rewrite F, RG, !map_map. rewrite !year_sums by (auto; intros z Iz; apply B; auto).
    fold cat. unfold excess. f_equal; [f_equal; lia|]. f_equal.
    - rewrite !INR_IZR_INZ. f_equal; f_equal; try lia.
    - f_equal. unfold n. lia. }
  assert (LD : length (dev_list (map IZR zs) mag rng) = n) by (rewrite dev_length; auto).
  assert (INV : forall x, In x (dev_list (map IZR zs) mag rng) -> exists y, (first <= y <= last)%Z /\ x = excess cat first last y).
  { intros x I. apply In_nth_error in I. destruct I as [k Hk]. assert (Lk := nth_error_lt _ _ _ _ Hk). rewrite LD in Lk.
    rewrite DN in Hk by auto. injection Hk. intros <-. exists (first + Z.of_nat k)%Z. split; auto. unfold n in Lk. lia. }
  assert (ALL : forall y, (first <= y <= last)%Z -> In (excess cat first last y) (dev_list (map IZR zs) mag rng)).
  { intros y Hy. apply (nth_error_In _ (Z.to_nat (y - first))). rewrite DN by (unfold n; lia). f_equal. f_equal. lia. }
  assert (NE : dev_list (map IZR zs) mag rng <> []). { intros E. specialize (ALL first ltac:(lia)). rewrite E in ALL. destruct ALL. }
  destruct (maxv_ok _ NE) as [mx EX]. destruct (minv_ok _ NE) as [mn EN].
  assert (D := moment_deviation_R (map IZR zs) mag (IZR first) (IZR last) mx mn MN MX).
  cbv zeta in D. rops. rewrite <- RE in D. specialize (D EX EN).
  apply maxv_spec in EX. apply minv_spec in EN. destruct EX as [X1 X2], EN as [N1 N2].
  destruct (INV _ X1) as (hi & H1 & H2). destruct (INV _ N1) as (lo & H3 & H4).
  exists hi, lo. split; auto. split; auto. split.
  { intros y Hy. rewrite <- H2, <- H4. split; [apply N2|apply X2]; apply ALL; auto. }
  assert (Z0 : excess cat first last last = 0).
  { unfold excess. unfold Rdiv. rewrite Rinv_r. lra. apply not_0_IZR. lia. }
  assert (P := ALL last ltac:(lia)). rewrite Z0 in P. assert (P1 := X2 _ P). assert (P2 := N2 _ P).
  unfold cumulative_moment, lit. rops. rewrite D. cbn [bind].
  rewrite Rabs_right, Rabs_left1 by lra. rewrite <- H2, <- H4. unfold Rminus. reflexivity.
Qed.

Lemma released_perm : forall cat cat' y, Permutation cat cat' -> released cat y = released cat' y.
Proof. intros cat cat' y H. rewrite !released_R. apply Rsum_perm, Permutation_map, H. Qed.

Lemma seismic_shift : forall m c, seismic_moment (m + c) = Rpower 10 (15 / 10 * c) * seismic_moment m.
Proof. intros. unfold seismic_moment. rewrite <- Rpower_plus. f_equal. lra. Qed.

Lemma released_shift : forall cat c y,
  released (map (fun e => (fst e, snd e + c)) cat) y = Rpower 10 (15 / 10 * c) * released cat y.
Proof.
  intros. rewrite !released_R, map_map, <- Rsum_map_scal. apply Rsum_ext. intros [z m] _. cbn [fst snd].
  destruct (Z.leb z y); [apply seismic_shift|lra].
Qed.

Lemma combine_map_snd : forall A B C (f : B -> C) (l : list A) (m : list B),
  combine l (map f m) = map (fun e => (fst e, f (snd e))) (combine l m).
Proof. induction l; destruct m; simpl; auto. rewrite IHl. auto. Qed.

Lemma Z_extremes : forall zs : list Z, zs <> [] ->
  exists first last, In first zs /\ In last zs /\ forall z, In z zs -> (first <= z <= last)%Z.
Proof.
  induction zs as [|a zs IH]; [contradiction|]. intros _. destruct zs as [|b zs].
  - exists a, a. simpl. intuition lia.
  - destruct IH as (f & l & H1 & H2 & H3); [discriminate|].
    exists (Z.min a f), (Z.max a l). split; [|split].
    + destruct (Z.min_spec a f) as [[_ ->]|[_ ->]]; [left|right]; auto.
    + destruct (Z.max_spec a l) as [[_ ->]|[_ ->]]; [right|left]; auto.
    + intros z [<-|I]; [lia|]. specialize (H3 z I). lia.
Qed.

Lemma C49_order_proof : forall (zs zs' : list Z) (mag mag' : list R), length zs = length mag -> length zs' = length mag' ->
  Permutation (combine zs mag) (combine zs' mag') ->
  @cumulative_moment ROps (map IZR zs) mag = @cumulative_moment ROps (map IZR zs') mag'.
Proof.
  intros zs zs' mag mag' L L' P.
  assert (PZ : Permutation zs zs') by (eapply Permutation_combine_fst; [| |eauto]; auto).
  destruct zs as [|z0 zs0] eqn:EZ.
  - apply Permutation_nil in PZ. subst zs'. reflexivity.
  - rewrite <- EZ in *. destruct (Z_extremes zs) as (f & l & H1 & H2 & H3); [subst; discriminate|].
    assert (I1 := Permutation_in _ PZ H1). assert (I2 := Permutation_in _ PZ H2).
    assert (H4 : forall z, In z zs' -> (f <= z <= l)%Z).
    { intros z I. apply H3. eapply Permutation_in; [symmetry; exact PZ|auto]. }
    destruct (C49_proof zs mag f l L H1 H2 H3) as (hi & lo & A1 & A2 & A3 & ->).
    destruct (C49_proof zs' mag' f l L' I1 I2 H4) as (hi' & lo' & B1 & B2 & B3 & ->).
    assert (EE : forall y, excess (combine zs mag) f l y = excess (combine zs' mag') f l y).
    { intros y. unfold excess. rewrite !(released_perm _ _ _ P). auto. }
    assert (X1 := A3 hi' B1). assert (X2 := A3 lo' B2). assert (Y1 := B3 hi A1). assert (Y2 := B3 lo A2).
    rewrite <- !EE in *.
    replace (excess (combine zs mag) f l hi' - excess (combine zs mag) f l lo')
      with (excess (combine zs mag) f l hi - excess (combine zs mag) f l lo) by lra. reflexivity.
Qed.

Lemma C49_shift_proof : forall (zs : list Z) (mag : list R) first last c v y, length zs = length mag ->
  In first zs -> In last zs -> (forall z, In z zs -> (first <= z <= last)%Z) ->
  (first <= y <= last)%Z -> excess (combine zs mag) first last y <> 0 ->
  @cumulative_moment ROps (map IZR zs) mag = Ok v ->
  @cumulative_moment ROps (map IZR zs) (map (fun m => m + c) mag) = Ok (v + c).
Proof.
  intros zs mag f l c v y L H1 H2 H3 HY NZ HV.
  destruct (C49_proof zs mag f l L H1 H2 H3) as (hi & lo & A1 & A2 & A3 & E).
  destruct (C49_proof zs (map (fun m => m + c) mag) f l) as (hi' & lo' & B1 & B2 & B3 & E'); auto.
  { rewrite map_length. auto. }
  rewrite E' . rewrite HV in E. injection E. intros ->. clear E. f_equal.
  set (s := Rpower 10 (15 / 10 * c)).
  assert (SP : 0 < s) by apply Rpower_pos.
  assert (EE : forall z, excess (combine zs (map (fun m => m + c) mag)) f l z = s * excess (combine zs mag) f l z).
  { intros z. unfold excess. rewrite combine_map_snd, !released_shift. fold s. unfold Rdiv. ring. }
  assert (FL := H3 _ H2).
  assert (Z0 : excess (combine zs mag) f l l = 0).
  { unfold excess. unfold Rdiv. rewrite Rinv_r. lra. apply not_0_IZR. lia. }
  assert (Q0 := A3 l ltac:(lia)). rewrite Z0 in Q0. assert (QY := A3 y HY).
  assert (X1 := A3 hi' B1). assert (X2 := A3 lo' B2). assert (Y1 := B3 hi A1). assert (Y2 := B3 lo A2).
  rewrite !EE in *. 
  set (e1 := excess (combine zs mag) f l hi) in *. set (e2 := excess (combine zs mag) f l lo) in *.
  set (e3 := excess (combine zs mag) f l hi') in *. set (e4 := excess (combine zs mag) f l lo') in *.
  assert (W1 : e1 <= e3) by (apply (Rmult_le_reg_l s); lra).
  assert (W2 : e4 <= e2) by (apply (Rmult_le_reg_l s); lra).
  replace (s * e3 - s * e4) with (s * (e1 - e2)) by (replace e3 with e1 by lra; replace e4 with e2 by lra; ring).
  assert (P : 0 < e1 - e2) by lra.
  rewrite ln_mult by lra. unfold s, Rpower. rewrite ln_exp. field. assert (X := ln10_pos). lra.
Qed.

(** ** Bootstrap *)

Lemma C50_proof : forall (year mag : list R) (normals : list (list R)) v,
  @cumulative_moment ROps year mag = Ok v -> (2 <= length normals)%nat ->
  (forall z, In z normals -> length z = length mag) ->
  @cum_mo_uncertainty ROps year mag (map (fun _ => 0) mag) normals = Ok (v, 0).
Proof.
  intros year mag normals v HV HN HL. unfold cum_mo_uncertainty.
  assert (E : forall z, length z = length mag -> map2 Rplus mag (map2 Rmult (map (fun _ => 0) mag) z) = mag).
  { clear. induction mag; destruct z; simpl; intros H; try discriminate; auto. rewrite IHmag by lia. f_equal. lra. }
  assert (S : @mapM (list R) R (fun z => @cumulative_moment ROps year (map2 Rplus mag (map2 Rmult (map (fun _ => 0) mag) z))) normals
     = Ok (map (fun _ => v) normals)).
  { clear HN. induction normals as [|z normals IH]; simpl; auto. rewrite E by (apply HL; simpl; auto). rewrite HV. cbn [bind].
    rewrite IH. reflexivity. intros w Hw. apply HL. simpl. auto. }
  rops. rewrite S. cbn [bind].
  assert (PN : 0 < INR (length normals)). { apply lt_0_INR. lia. }
  assert (M : @mean ROps (map (fun _ => v) normals) = v).
  { unfold mean. rewrite sumv_R, ofnat_R. rops. rewrite Rsum_const, map_length. field. lra. }
  f_equal. f_equal; [exact M|].
  unfold std1. rewrite M, sumv_R, ofnat_R. rops. rewrite map_map.
  rewrite (Rsum_ext _ _ (fun _ => 0)). 2:{ intros a _. unfold sq. rops. ring. }
  rewrite Rsum_const, Rmult_0_r. unfold Rdiv. rewrite Rmult_0_l. apply sqrt_0.
Qed.

(** ** Quantiles *)

Ltac rcase := repeat match goal with |- context [Rltb ?x ?y] => let E := fresh in destruct (Rltb x y) eqn:E;
  [apply Rltb_true in E|apply Rltb_false in E] end; lra.

Lemma quantile_mid : forall (mag : list R) p i, (1 <= i)%nat -> (i < length mag)%nat ->
  plotting_position (length mag) i <= p <= plotting_position (length mag) (i + 1) ->
  let x := @sortv ROps mag in
  @mquantile ROps mag p
  = nth (i - 1) x 0 + (p - plotting_position (length mag) i) / (plotting_position (length mag) (i + 1) - plotting_position (length mag) i)
      * (nth i x 0 - nth (i - 1) x 0).
Proof.
  intros mag p i Hi HL [P1 P2] x.
  assert (LX : length mag = length x) by apply Permutation_length, sortv_perm.
  set (n := length mag) in *. unfold plotting_position in *.
  assert (I1 : 1 <= INR i). { change 1 with (INR 1). apply le_INR. auto. }
  assert (IN : INR i + 1 <= INR n). { rewrite <- S_INR. apply le_INR. auto. }
  rewrite plus_INR in *. change (INR 1) with 1 in *.
  assert (D : 0 < INR n + 2 / 10) by lra.
  assert (Q1 : INR i - 4/10 <= p * (INR n + 2/10)).
  { apply (Rmult_le_compat_r (INR n + 2/10)) in P1; [|lra]. unfold Rdiv at 1 in P1. rewrite Rmult_assoc, Rinv_l in P1 by lra. lra. }
  assert (Q2 : p * (INR n + 2/10) <= INR i + 1 - 4/10).
  { apply (Rmult_le_compat_r (INR n + 2/10)) in P2; [|lra]. unfold Rdiv at 2 in P2. rewrite Rmult_assoc, Rinv_l in P2 by lra. lra. }
  replace ((p - (INR i - 4 / 10) / (INR n + 2 / 10)) / ((INR i + 1 - 4 / 10) / (INR n + 2 / 10) - (INR i - 4 / 10) / (INR n + 2 / 10)))
    with (p * (INR n + 2/10) + 4/10 - INR i).
  2:{ field. split; [lra|]. replace (INR i + 1 - 4 / 10 - (INR i - 4 / 10)) with 1 by lra. lra. }
  set (aleph := p * (INR n + 2/10) + 4/10) in *.
  assert (EA : INR n * p + (4 / 10 + p * (1 - 4 / 10 - 4 / 10)) = aleph) by (unfold aleph; lra).
  unfold mquantile. rops. fold x.
  destruct x as [|a [|b x']] eqn:EX; [simpl in LX; lia|simpl in LX; lia|].
  rewrite <- EX in *. clear EX. unfold lit. rewrite !ofnat_R. rops. rewrite <- LX, EA.
  assert (AG : INR i <= aleph <= INR i + 1) by (unfold aleph; lra).
  destruct (Rlt_le_dec (INR n - 1) aleph) as [LT|GE].
  - (* last interval *)
    assert (IE : INR i = INR n - 1).
    { assert (A : INR n < INR (i + 2)) by (rewrite plus_INR; simpl; lra). apply INR_lt in A.
      assert (B : n = S i) by lia. rewrite B, S_INR. lra. }
    assert (C1 : @clip ROps 1 (INR n - 1) aleph = IZR (Z.of_nat i)).
    { unfold clip. rops. rewrite <- INR_IZR_INZ. rdec. lra. }
    rops. rewrite C1, Rfloor_IZR, Rtrunc_IZR, Nat2Z.id.
    assert (C2 : @clip ROps 0 1 (aleph - INR i) = aleph - INR i). { unfold clip. rops. rdec. auto. }
    rops. rewrite C2. ring.
  - assert (C1 : @clip ROps 1 (INR n - 1) aleph = aleph). { unfold clip. rops. rdec. auto. }
    rops. rewrite C1. destruct (Req_dec aleph (INR i + 1)) as [E1|N1].
    + assert (FK : Rfloor aleph = Z.of_nat (S i)). { rewrite E1. replace (INR i + 1) with (IZR (Z.of_nat (S i))). apply Rfloor_IZR. rewrite <- INR_IZR_INZ, S_INR. auto. }
      rewrite FK, Rtrunc_IZR, Nat2Z.id, S_INR.
      assert (C2 : @clip ROps 0 1 (aleph - (INR i + 1)) = 0). { unfold clip. rops. rdec. lra. }
      rops. rewrite C2. replace (S i - 1)%nat with i by lia. replace (aleph - INR i) with 1 by lra. ring.
    + assert (FK : Rfloor aleph = Z.of_nat i). { apply Rfloor_unique. rewrite <- INR_IZR_INZ. lra. }
      rewrite FK, Rtrunc_IZR, Nat2Z.id.
      assert (C2 : @clip ROps 0 1 (aleph - INR i) = aleph - INR i). { unfold clip. rops. rdec. auto. }
      rops. rewrite C2. ring.
Qed.

Lemma quantile_low : forall (mag : list R) p, (2 <= length mag)%nat ->
  p <= plotting_position (length mag) 1 -> @mquantile ROps mag p = nth 0 (@sortv ROps mag) 0.
Proof.
  intros mag p HL P1.
  assert (LX : length mag = length (@sortv ROps mag)) by apply Permutation_length, sortv_perm.
  set (x := @sortv ROps mag) in *. set (n := length mag) in *. unfold plotting_position in P1. change (INR 1) with 1 in P1.
  assert (IN : 2 <= INR n). { replace 2 with (INR 2) by (simpl; lra). apply le_INR. auto. }
  assert (Q1 : p * (INR n + 2/10) <= 1 - 4/10).
  { apply (Rmult_le_compat_r (INR n + 2/10)) in P1; [|lra]. unfold Rdiv at 2 in P1. rewrite Rmult_assoc, Rinv_l in P1 by lra. lra. }
  set (aleph := p * (INR n + 2/10) + 4/10) in *.
  assert (EA : INR n * p + (4 / 10 + p * (1 - 4 / 10 - 4 / 10)) = aleph) by (unfold aleph; lra).
  unfold mquantile. rops. fold x.
  destruct x as [|a [|b x']] eqn:EX; [simpl in LX; lia|simpl in LX; lia|].
  rewrite <- EX in *. unfold lit. rewrite !ofnat_R. rops. rewrite <- LX, EA.
  assert (AG : aleph <= 1) by (unfold aleph; lra).
  assert (C1 : @clip ROps 1 (INR n - 1) aleph = IZR 1). { unfold clip. rops. rcase. }
  rops. rewrite C1, Rfloor_IZR, Rtrunc_IZR. change (Z.to_nat 1) with 1%nat. change (INR 1) with 1.
  assert (C2 : @clip ROps 0 1 (aleph - 1) = 0). { unfold clip. rops. rcase. }
  rops. rewrite C2. rewrite EX. simpl. ring.
Qed.

Lemma quantile_high : forall (mag : list R) p, (2 <= length mag)%nat ->
  plotting_position (length mag) (length mag) <= p ->
  @mquantile ROps mag p = nth (length mag - 1) (@sortv ROps mag) 0.
Proof.
  intros mag p HL P1.
  assert (LX : length mag = length (@sortv ROps mag)) by apply Permutation_length, sortv_perm.
  set (x := @sortv ROps mag) in *. set (n := length mag) in *. unfold plotting_position in P1.
  assert (IN : 2 <= INR n). { replace 2 with (INR 2) by (simpl; lra). apply le_INR. auto. }
  assert (Q1 : INR n - 4/10 <= p * (INR n + 2/10)).
  { apply (Rmult_le_compat_r (INR n + 2/10)) in P1; [|lra]. unfold Rdiv at 1 in P1. rewrite Rmult_assoc, Rinv_l in P1 by lra. lra. }
  set (aleph := p * (INR n + 2/10) + 4/10) in *.
  assert (EA : INR n * p + (4 / 10 + p * (1 - 4 / 10 - 4 / 10)) = aleph) by (unfold aleph; lra).
  unfold mquantile. rops. fold x.
  destruct x as [|a [|b x']] eqn:EX; [simpl in LX; lia|simpl in LX; lia|].
  rewrite <- EX in *. unfold lit. rewrite !ofnat_R. rops. rewrite <- LX, EA.
  assert (AG : INR n <= aleph) by (unfold aleph; lra).
  assert (NI : INR n - 1 = IZR (Z.of_nat (n - 1))). { rewrite <- INR_IZR_INZ, minus_INR by lia. reflexivity. }
  assert (C1 : @clip ROps 1 (INR n - 1) aleph = IZR (Z.of_nat (n - 1))). { rewrite <- NI. unfold clip. rops. rcase. }
  rops. rewrite C1, Rfloor_IZR, Rtrunc_IZR, Nat2Z.id. rewrite (INR_IZR_INZ (n - 1)), <- NI.
  assert (C2 : @clip ROps 0 1 (aleph - (INR n - 1)) = 1). { unfold clip. rops. rcase. }
  rops. rewrite C2. ring.
Qed.

Lemma C79_proof : forall (mag : list R) p, (2 <= length mag)%nat ->
  let n := length mag in
  exists x, Permutation mag x /\ StronglySorted Rle x /\
  (p <= plotting_position n 1 -> @mquantile ROps mag p = nth 0 x 0) /\
  (plotting_position n n <= p -> @mquantile ROps mag p = nth (n - 1) x 0) /\
  (forall i, (1 <= i < n)%nat -> plotting_position n i <= p <= plotting_position n (i + 1) ->
     @mquantile ROps mag p
     = nth (i - 1) x 0 + (p - plotting_position n i) / (plotting_position n (i + 1) - plotting_position n i)
         * (nth i x 0 - nth (i - 1) x 0)).
Proof.
  intros mag p H n. exists (@sortv ROps mag). split; [apply sortv_perm|]. split; [apply sortv_sorted|].
  split; [apply quantile_low; auto|]. split; [apply quantile_high; auto|].
  intros i [H1 H2] H3. apply quantile_mid; auto.
Qed.

Lemma C51_partial_proof : forall mag : list R,
  two_decimals (9/10 * ((@mquantile ROps mag (75/100) - @mquantile ROps mag (25/100)) / (134/100))
                * Rpower (INR (length mag)) (- (1) / 5)) (@h_smooth ROps mag) /\
  forall mag', Permutation mag mag' -> @h_smooth ROps mag' = @h_smooth ROps mag.
Proof.
  intros mag. split. apply h_smooth_spec. intros mag' P. unfold h_smooth, mquantile.
  assert (E := sortv_perm_eq mag mag' P). rops. rewrite E, (Permutation_length P). reflexivity.
Qed.

Lemma C52_refuted_proof : exists name, forall (AR : Ops) fuel (year mag sigma : list T) tol maxit neq nsamp normals,
  maximum_magnitude_analysis fuel year mag sigma name tol maxit neq nsamp normals = Ok (ofZ 0, ofZ 0).
Proof. exists "Kijko_Npg "%string. reflexivity. Qed.

Lemma C52_partial_proof : forall (AR : Ops) fuel (year mag sigma : list T) tol maxit neq nsamp normals,
  maximum_magnitude_analysis fuel year mag sigma "Kijko_Npg" tol maxit neq nsamp normals
    = kijko_nonparametric_gauss fuel mag sigma neq nsamp tol maxit None /\
  maximum_magnitude_analysis fuel year mag sigma "Cumulative_Moment" tol maxit neq nsamp normals
    = cum_mo_uncertainty year mag sigma normals.
Proof. intros. split; reflexivity. Qed.
