(** Proofs for weichert_prep (C39, C40). *)
From Coq Require Import ZArith Arith Bool List Lia Reals Lra.
From Verif Require Import Base Ops BaseFacts RFacts SteppSpec Recurrence RecurrenceSpec SteppProofs
  RecurrenceProofs.
Import ListNotations.
Local Open Scope R_scope.

(** ** Matrices *)

(** M has r rows and c columns with entries f. *)
Definition matrix_is (M : list (list nat)) (r c : nat) (f : nat -> nat -> nat) : Prop :=
  length M = r /\
  forall a row, nth_error M a = Some row ->
    length row = c /\ forall b x, nth_error row b = Some x -> x = f a b.

Lemma matrix_ext : forall M r c f g, matrix_is M r c f ->
  (forall a b, (a < r)%nat -> (b < c)%nat -> f a b = g a b) -> matrix_is M r c g.
Proof.
  intros M r c f g [L H] E. split; auto. intros a row Ha. destruct (H a row Ha) as [H1 H2].
  split; auto. intros b x Hb. rewrite <- E. eauto.
  apply nth_error_lt in Ha. lia. apply nth_error_lt in Hb. lia.
Qed.

Lemma matrix_map : forall r c (f : nat -> nat -> nat),
  matrix_is (map (fun a => map (fun b => f a b) (seq 0 c)) (seq 0 r)) r c f.
Proof.
  intros. split. { rewrite map_length, seq_length. auto. }
  intros a row Ha. assert (La := nth_error_lt _ _ _ _ Ha). rewrite map_length, seq_length in La.
  rewrite nth_error_map, nth_error_seq in Ha by auto. injection Ha. intros <-.
  split. { rewrite map_length, seq_length. auto. }
  intros b x Hb. assert (Lb := nth_error_lt _ _ _ _ Hb). rewrite map_length, seq_length in Lb.
  rewrite nth_error_map, nth_error_seq in Hb by auto. injection Hb. intros <-. auto.
Qed.

Lemma matrix_zero_corner : forall M r c f x y, matrix_is M r c f ->
  matrix_is (zero_corner x y M) r c
    (fun a b => if Nat.ltb a x && Nat.ltb b y then 0%nat else f a b).
Proof.
  intros M r c f x y [L H]. unfold zero_corner. split.
  { rewrite length_map2, seq_length. lia. }
  intros a row Ha. apply nth_error_map2_inv in Ha. destruct Ha as (a' & row0 & Ha' & Hr & ->).
  assert (La := nth_error_lt _ _ _ _ Hr). rewrite nth_error_seq in Ha' by auto.
  injection Ha'. intros <-. cbn [Nat.add].
  destruct (H a row0 Hr) as [H1 H2].
  destruct (Nat.ltb a x); cbn [andb].
  - split. { rewrite length_map2, seq_length. lia. }
    intros b z Hb. apply nth_error_map2_inv in Hb. destruct Hb as (b' & z0 & Hb' & Hz & ->).
    assert (Lb := nth_error_lt _ _ _ _ Hz). rewrite nth_error_seq in Hb' by auto.
    injection Hb'. intros <-. cbn [Nat.add]. destruct (Nat.ltb b y); auto.
  - split; auto.
Qed.

(** ** Completeness steps *)

(** The last index of an increasing grid below a threshold. *)
Lemma last_below : forall lo hi w (t : R) a, 0 < w -> (a < @arange_len ROps lo hi w)%nat ->
  Rltb (lo + INR a * w) t =
  match last_opt (nonzero (map (fun g : R => Rltb g t) (@arange ROps lo hi w))) with
  | Some x => Nat.ltb a (x + 1)
  | None => false
  end.
Proof.
  intros lo hi w t a Hw Ha.
  assert (NA := arange_nth lo hi w a Ha).
  destruct (last_opt _) as [x|] eqn:E.
  - apply last_nonzero_max in E. destruct E as [E1 E2].
    apply nth_error_map_inv in E1. destruct E1 as [gx [G1 G2]].
    apply arange_nth_inv in G1. destruct G1 as [G1 Lx]. symmetry in G2. apply Rltb_true in G2.
    destruct (Nat.ltb a (x + 1)) eqn:B.
    + apply Nat.ltb_lt in B. apply Rltb_true. assert (INR a <= INR x) by (apply le_INR; lia). nra.
    + apply Nat.ltb_ge in B. destruct (Rltb (lo + INR a * w) t) eqn:F; auto. exfalso.
      assert (a <= x)%nat; [|lia]. apply E2. rewrite nth_error_map. rops. rewrite NA. simpl. f_equal. auto.
  - apply last_opt_none in E. destruct (Rltb (lo + INR a * w) t) eqn:F; auto. exfalso.
    assert (In a (nonzero (map (fun g : R => Rltb g t) (@arange ROps lo hi w)))).
    { apply nonzero_in. rewrite nth_error_map. rops. rewrite NA. simpl. f_equal. auto. }
    rewrite E in H. destruct H.
Qed.

Lemma zero_incomplete_spec : forall lot hit wt lom him wm M f row, 0 < wt -> 0 < wm ->
  matrix_is M (@arange_len ROps lot hit wt - 1) (@arange_len ROps lom him wm - 1) f ->
  matrix_is (@zero_incomplete ROps (@arange ROps lot hit wt) (@arange ROps lom him wm) M row)
    (@arange_len ROps lot hit wt - 1) (@arange_len ROps lom him wm - 1)
    (fun a b => if Rltb (lot + INR a * wt) (fst row) && Rltb (lom + INR b * wm) (snd row)
                then 0%nat else f a b).
Proof.
  intros lot hit wt lom him wm M f row Ht Hm H. unfold zero_incomplete. rops.
  assert (A := fun a => last_below lot hit wt (fst row) a Ht).
  assert (B := fun b => last_below lom him wm (snd row) b Hm).
  destruct (last_opt (nonzero (map (fun t : R => Rltb t (fst row)) (@arange ROps lot hit wt)))) as [x|] eqn:EX.
  - destruct (last_opt (nonzero (map (fun t : R => Rltb t (snd row)) (@arange ROps lom him wm)))) as [y|] eqn:EY.
    + eapply matrix_ext. { apply matrix_zero_corner. exact H. }
      intros a b La Lb. cbv beta. rewrite A, B by lia. auto.
    + eapply matrix_ext. { exact H. }
      intros a b La Lb. cbv beta. rewrite A, B by lia. rewrite andb_false_r. auto.
  - eapply matrix_ext. { exact H. }
    intros a b La Lb. cbv beta. rewrite A, B by lia. auto.
Qed.

(** A row zeroes the cell in time bin a and magnitude bin b. *)
Definition below_step (lot wt lom wm : R) (a b : nat) (row : R * R) : bool :=
  (Rltb (lot + INR a * wt) (fst row) && Rltb (lom + INR b * wm) (snd row))%bool.

Lemma zero_fold : forall lot hit wt lom him wm table M f, 0 < wt -> 0 < wm ->
  matrix_is M (@arange_len ROps lot hit wt - 1) (@arange_len ROps lom him wm - 1) f ->
  matrix_is (fold_left (@zero_incomplete ROps (@arange ROps lot hit wt) (@arange ROps lom him wm)) table M)
    (@arange_len ROps lot hit wt - 1) (@arange_len ROps lom him wm - 1)
    (fun a b => if existsb (below_step lot wt lom wm a b) table then 0%nat else f a b).
Proof.
  intros lot hit wt lom him wm table. induction table as [|row table IH]; intros M f Ht Hm H.
  - exact H.
  - cbn [fold_left]. eapply matrix_ext.
    { apply IH; auto. apply zero_incomplete_spec; auto. exact H. }
    intros a b _ _. cbv beta. cbn [existsb].
    change (Rltb (lot + INR a * wt) (fst row) && Rltb (lom + INR b * wm) (snd row))%bool
      with (below_step lot wt lom wm a b row).
    destruct (below_step lot wt lom wm a b row); cbn [orb]; auto.
    match goal with |- context [existsb ?q table] => destruct (existsb q table) end; auto.
Qed.

Lemma matrix_column_sum : forall M r c f i, matrix_is M r c f -> (i < c)%nat ->
  list_sum (map (fun row => nth i row 0%nat) M) = list_sum (map (fun a => f a i) (seq 0 r)).
Proof.
  intros M r c f i [L H] Hi. f_equal. apply list_ext.
  - rewrite !map_length, seq_length. auto.
  - intros k x y H1 H2. apply nth_error_map_inv in H1. destruct H1 as [row [H1 ->]].
    assert (Lk := nth_error_lt _ _ _ _ H1). rewrite nth_error_map, nth_error_seq in H2 by lia.
    injection H2. intros <-. cbn [Nat.add]. destruct (H k row H1) as [H3 H4].
    destruct (nth_error_ex _ row i) as [z Hz]; [lia|].
    rewrite (nth_of_error _ _ _ _ 0%nat Hz). eauto.
Qed.

(** ** Time and magnitude grids *)

Lemma bin_start_of : forall lo w k x, 0 < w -> bin_of lo w k x = true ->
  bin_start lo w x = lo + INR k * w.
Proof.
  intros lo w k x Hw H. unfold bin_of in H. apply andb_true_iff in H.
  rewrite Rleb_true, Rltb_true, plus_INR in H. simpl in H. unfold bin_start.
  rewrite (Rfloor_unique _ (Z.of_nat k)).
  - rewrite <- INR_IZR_INZ. auto.
  - rewrite <- INR_IZR_INZ. split.
    + apply (Rmult_le_reg_r w); auto. unfold Rdiv. rewrite Rmult_assoc, Rinv_l by lra. lra.
    + apply (Rmult_lt_reg_r w); auto. unfold Rdiv. rewrite Rmult_assoc, Rinv_l by lra. lra.
Qed.

Lemma grid_covers : forall (xs : list R) lo up w, 0 < w -> is_min lo xs -> is_max up xs ->
  (0 < @arange_len ROps lo (up + 15/10 * w)%R w - 1)%nat /\
  forall x, In x xs -> lo <= x < lo + INR (@arange_len ROps lo (up + 15/10 * w)%R w - 1) * w.
Proof.
  intros xs lo up w Hw [Lo1 Lo2] [Up1 Up2].
  assert (lo <= up) by auto.
  assert (L : (1 < @arange_len ROps lo (up + 15/10 * w)%R w)%nat).
  { apply arange_len_lt; auto. simpl. lra. }
  split; [lia|]. intros x Hx. split; auto.
  set (n := @arange_len ROps lo (up + 15/10 * w)%R w) in *.
  assert (N : ~ (n < @arange_len ROps lo (up + 15/10 * w)%R w)%nat) by (unfold n; lia).
  rewrite arange_len_lt in N by auto.
  assert (E : INR n = INR (n - 1) + 1). { rewrite <- S_INR. f_equal. lia. }
  rewrite E in N. specialize (Up2 x Hx). lra.
Qed.

Lemma map2_combine : forall A B C (f : A -> B -> C) l m,
  map2 f l m = map (fun p => f (fst p) (snd p)) (combine l m).
Proof. induction l; destruct m; simpl; auto. rewrite IHl. auto. Qed.

Lemma round1_tenth : forall mag : list R, Forall2 tenth mag (map (@round1 ROps) mag).
Proof.
  induction mag; simpl; constructor; auto. unfold tenth, round1. rops. split; eauto.
  assert (H := Rrint_near (a * 10)). 
  replace (IZR (Rrint (a * 10)) / 10 - a) with ((IZR (Rrint (a * 10)) - a * 10) / 10) by field.
  unfold Rdiv. rewrite Rabs_mult, (Rabs_right (/ 10)) by lra. lra.
Qed.

Lemma nth_error_centres : forall (l : list R) i a b,
  nth_error l i = Some a -> nth_error l (i + 1) = Some b ->
  nth_error (@centres ROps l) i = Some ((a + b) / 2).
Proof.
  induction l as [|x l IH]; intros i a b H1 H2; [destruct i; discriminate|].
  destruct l as [|y l]. { destruct i as [|[|i]]; discriminate. }
  change (@centres ROps (x :: y :: l)) with ((x + y) / 2 :: @centres ROps (y :: l)).
  destruct i. { injection H1. injection H2. intros <- <-. auto. }
  apply IH; auto.
Qed.

Lemma length_centres : forall l : list R, length (@centres ROps l) = (length l - 1)%nat.
Proof.
  induction l as [|x l IH]; auto. destruct l as [|y l]; auto.
  change (@centres ROps (x :: y :: l)) with ((x + y) / 2 :: @centres ROps (y :: l)).
  cbn [length] in *. rewrite IH. lia.
Qed.

Lemma weichert_tper_spec : forall ymax table mg, table <> [] ->
  exists cy, @weichert_tper ROps ymax table mg = Ok (ymax - cy + 1) /\ time_row table mg cy.
Proof.
  intros ymax table mg NE. unfold weichert_tper, lit. rops.
  destruct (last_opt (nonzero (map (fun row : R * R => Rltb (snd row - mg) (1 / 1000)) table))) as [k|] eqn:E.
  - apply last_nonzero_max in E. destruct E as [E1 E2].
    apply nth_error_map_inv in E1. destruct E1 as [[cy cm] [E1 E3]]. rewrite E1.
    exists cy. split; [reflexivity|]. exists k, cm. split; auto. left. split.
    + symmetry in E3. apply Rltb_true in E3. auto.
    + intros k' r' Hk Hr. destruct (Rlt_dec (snd r' - mg) (1 / 1000)); [|lra]. exfalso.
      assert (k' <= k)%nat; [|lia]. apply E2. rewrite nth_error_map, Hr. simpl. f_equal. apply Rltb_true. auto.
  - apply last_opt_none in E.
    destruct (last_opt table) as [[cy cm]|] eqn:EL.
    2:{ apply last_opt_none in EL. congruence. }
    assert (ALL : forall r, In r table -> 1 / 1000 <= snd r - mg).
    { intros r I. destruct (Rlt_dec (snd r - mg) (1 / 1000)); [|lra]. exfalso.
      apply In_nth_error in I. destruct I as [k Hk].
      assert (In k (nonzero (map (fun row : R * R => Rltb (snd row - mg) (1 / 1000)) table))).
      { apply nonzero_in. rewrite nth_error_map, Hk. simpl. f_equal. apply Rltb_true. auto. }
      rewrite E in H. destruct H. }
    exists cy. split; [reflexivity|].
    exists (length table - 1)%nat, cm. split. { apply last_opt_nth in EL. exact EL. }
    right. split; auto. destruct table; simpl; try congruence. lia.
Qed.

Lemma C39_proof : forall (year mag : list R) (table : list (R * R)) d_m d_t,
  0 < d_m -> 0 < d_t -> year <> [] -> length mag = length year -> table <> [] ->
  exists rm ymin ymax mmin n cent tper nobs,
    Forall2 tenth mag rm /\ is_min ymin year /\ is_max ymax year /\ is_min mmin rm /\
    @weichert_prep ROps year mag table d_m d_t = Ok (cent, tper, nobs) /\
    length cent = n /\ length tper = n /\ length nobs = n /\
    (forall m, In m rm -> mmin <= m < mmin + INR n * d_m) /\
    (exists m, In m rm /\ mmin + INR n * d_m < m + 3 / 2 * d_m) /\
    (forall i, (i < n)%nat ->
       nth_error cent i = Some (mmin + (INR i + 1 / 2) * d_m) /\
       nth_error nobs i
         = Some (count (counts_in ymin d_t mmin d_m table i) (combine year rm)) /\
       exists cy, time_row table (mmin + INR i * d_m) cy /\
         nth_error tper i = Some (ymax - cy + 1)).
Proof.
  intros year mag table d_m d_t Hm Ht Hy L NE.
  set (rm := map (@round1 ROps) mag).
  destruct (minv_ok year Hy) as [ymin EYN]. destruct (maxv_ok year Hy) as [ymax EYX].
  assert (RN : rm <> []). { unfold rm. destruct mag; simpl; try congruence. destruct year; simpl in L; congruence. }
  destruct (minv_ok rm RN) as [mmin EMN]. destruct (maxv_ok rm RN) as [mmax EMX].
  unfold weichert_prep. rewrite EYN, EYX. cbn [bind].
  change (map (@round1 ROps) mag) with rm. rewrite EMN, EMX. cbn [bind].
  apply minv_spec in EYN, EMN. apply maxv_spec in EYX, EMX.
  unfold lit. rops.
  destruct (grid_covers year ymin ymax d_t Ht EYN EYX) as [TP TC].
  destruct (grid_covers rm mmin mmax d_m Hm EMN EMX) as [MP MC].
  set (tlen := @arange_len ROps ymin (ymax + 15/10 * d_t)%R d_t) in *.
  set (mlen := @arange_len ROps mmin (mmax + 15/10 * d_m)%R d_m) in *.
  set (time_int := @arange ROps ymin (ymax + 15/10 * d_t) d_t) in *.
  set (mag_int := @arange ROps mmin (mmax + 15/10 * d_m) d_m) in *.
  assert (LT : length time_int = tlen) by apply arange_length.
  assert (LM : length mag_int = mlen) by apply arange_length.
  set (f0 := fun a b => count (fun e : R * R => bin_of ymin d_t a (fst e) && bin_of mmin d_m b (snd e))%bool (combine year rm)).
  assert (LR : length rm = length year). { unfold rm. rewrite map_length. auto. }
  assert (H0 : matrix_is (@histogram2d ROps year rm time_int mag_int) (tlen - 1) (mlen - 1) f0).
  { unfold histogram2d. rops. rewrite LT, LM.
    eapply matrix_ext. { apply matrix_map. }
    intros a b La Lb. cbv beta. rewrite map2_combine, count_true_count. unfold f0.
    apply count_ext. intros [y m] I. cbn [fst snd].
    unfold time_int, mag_int.
    rewrite in_bin_grid, in_bin_grid; auto.
    - fold mlen. lia.
    - fold mlen. apply MC. eapply in_combine_r; eauto.
    - fold tlen. lia.
    - fold tlen. apply TC. eapply in_combine_l; eauto. }
  apply (zero_fold ymin _ d_t mmin _ d_m table) in H0; auto.
  fold time_int mag_int in H0. fold tlen mlen in H0.
  set (full := fold_left (@zero_incomplete ROps time_int mag_int) table (@histogram2d ROps year rm time_int mag_int)) in *.
  destruct (mapM_ok _ _ (fun i => @weichert_tper ROps ymax table (nth i mag_int 0)) (seq 0 (mlen - 1))) as [tper ET].
  { intros i _. destruct (weichert_tper_spec ymax table (nth i mag_int 0) NE) as [cy [E _]]. eauto. }
  rops. rewrite LM, ET. cbn [bind].
  exists rm, ymin, ymax, mmin, (mlen - 1)%nat. do 3 eexists.
  split. { apply round1_tenth. } split; auto. split; auto. split; auto. split; [reflexivity|].
  split. { rewrite length_centres. lia. }
  split. { apply mapM_length in ET. rewrite seq_length in ET. auto. }
  split. { rewrite map_length, seq_length. auto. }
  split; auto.
  split. { exists mmax. destruct EMX as [EM1 EM2]. split; auto.
    assert (X : (mlen - 1 < mlen)%nat) by lia. unfold mlen in X at 2. apply arange_len_lt in X; auto. lra. }
  intros i Hi.
  assert (NI : nth_error mag_int i = Some (mmin + INR i * d_m)).
  { apply arange_nth. fold mlen. lia. }
  split; [|split].
  - assert (NI1 : nth_error mag_int (i + 1) = Some (mmin + INR (i + 1) * d_m)).
    { apply arange_nth. fold mlen. lia. }
    assert (C := nth_error_centres mag_int i _ _ NI NI1).
    rops. rewrite C. f_equal. rewrite plus_INR. simpl. field.
  - rewrite nth_error_map, nth_error_seq by auto. simpl option_map. f_equal.
    match goal with |- list_sum ?x = _ => change x with (map (fun row => nth i row 0%nat) full) end.
    rewrite (matrix_column_sum _ _ _ _ _ H0 Hi).
    rewrite list_sum_nsum.
    rewrite (map_ext_in _ (fun a => count (fun e : R * R =>
        negb (existsb (below_step ymin d_t mmin d_m a i) table) &&
        (bin_of ymin d_t a (fst e) && bin_of mmin d_m i (snd e)))%bool (combine year rm))).
    2: { intros a Ia. unfold f0. destruct (existsb _ table); cbn [negb andb]; auto.
         symmetry. apply count_none. auto. }
    rewrite nsum_count_swap. apply nsum_indicator.
    intros [y m] I. cbn [fst snd].
    destruct (bin_exists_unique ymin d_t (tlen - 1) y Ht) as (a & A1 & A2 & A3).
    { apply TC. eapply in_combine_l; eauto. }
    assert (BS := bin_start_of ymin d_t a y Ht A2).
    unfold counts_in. cbn [fst snd]. rewrite BS.
    assert (FB : forallb (fun row : R * R => negb (Rltb (ymin + INR a * d_t) (fst row) &&
                  Rltb (mmin + INR i * d_m) (snd row)))%bool table
                 = negb (existsb (below_step ymin d_t mmin d_m a i) table)).
    { clear. induction table as [|row table IH]; auto. cbn [forallb existsb].
      rewrite IH, negb_orb. reflexivity. }
    rewrite FB.
    set (p := fun a0 => (negb (existsb (below_step ymin d_t mmin d_m a0 i) table) &&
        (bin_of ymin d_t a0 y && bin_of mmin d_m i m))%bool).
    change (count p (seq 0 (tlen - 1)) = if (bin_of mmin d_m i m && negb (existsb (below_step ymin d_t mmin d_m a i) table))%bool then 1%nat else 0%nat).
    assert (PA : p a = (bin_of mmin d_m i m && negb (existsb (below_step ymin d_t mmin d_m a i) table))%bool).
    { unfold p. rewrite A2. cbn [andb]. apply andb_comm. }
    rewrite <- PA.
    assert (OTHER : forall a', a' <> a -> p a' = false).
    { intros a' N. unfold p. destruct (bin_of ymin d_t a' y) eqn:B.
      - exfalso. apply N. apply A3. auto.
      - cbn [andb]. apply andb_false_r. }
    replace (tlen - 1)%nat with (a + S (tlen - 1 - a - 1))%nat by lia.
    rewrite seq_app, count_app. cbn [seq Nat.add]. rewrite count_cons.
    rewrite !count_none; [destruct (p a); auto| |].
    + intros a' Ia'. apply OTHER. apply in_seq in Ia'. lia.
    + intros a' Ia'. apply OTHER. apply in_seq in Ia'. lia.
  - destruct (weichert_tper_spec ymax table (mmin + INR i * d_m) NE) as [cy [E TR]].
    exists cy. split; auto.
    assert (NS : nth_error (seq 0 (mlen - 1)) i = Some i). { rewrite nth_error_seq by auto. auto. }
    destruct (mapM_nth _ _ _ _ _ _ _ ET NS) as [t [T1 T2]].
    rewrite (nth_of_error _ _ _ _ 0 NI) in T2. rewrite E in T2. injection T2. intros ->. auto.
Qed.

Lemma count_at_most_one : forall (p : nat -> bool) n,
  (forall a b, p a = true -> p b = true -> a = b) -> (count p (seq 0 n) <= 1)%nat.
Proof.
  intros p n U. induction n. simpl. unfold count. simpl. lia.
  rewrite seq_S, count_app. cbn [Nat.add]. unfold count at 2. cbn [filter].
  destruct (p n) eqn:E; [|simpl; lia]. rewrite count_none. simpl. lia.
  intros a Ia. apply in_seq in Ia. destruct (p a) eqn:F; auto.
  assert (a = n) by (apply U; auto). lia.
Qed.

Lemma nsum_le : forall A (f g : A -> nat) l, (forall a, In a l -> f a <= g a)%nat ->
  (nsum (map f l) <= nsum (map g l))%nat.
Proof.
  induction l; intros H; simpl; auto.
  assert (f a <= g a)%nat by (apply H; simpl; auto).
  assert (nsum (map f l) <= nsum (map g l))%nat by (apply IHl; intros; apply H; simpl; auto). lia.
Qed.

Lemma C39_total_proof : forall (year mag : list R) (table : list (R * R)) d_m d_t cent tper nobs,
  0 < d_m -> 0 < d_t -> year <> [] -> length mag = length year ->
  @weichert_prep ROps year mag table d_m d_t = Ok (cent, tper, nobs) ->
  (list_sum nobs <= length year)%nat.
Proof.
  intros year mag table d_m d_t cent tper nobs Hm Ht Hy L H.
  destruct table as [|row0 table].
  - exfalso. unfold weichert_prep in H.
    apply bind_ok in H. destruct H as [ymin [EYN H]]. apply bind_ok in H. destruct H as [ymax [EYX H]].
    apply bind_ok in H. destruct H as [mmin [EMN H]]. apply bind_ok in H. destruct H as [mmax [EMX H]].
    apply bind_ok in H. destruct H as [tp [ET H]].
    apply minv_spec in EMN. apply maxv_spec in EMX.
    destruct (grid_covers _ mmin mmax d_m Hm EMN EMX) as [MP _].
    unfold lit in ET. rops. rewrite arange_length in ET. rops.
    destruct (@arange_len ROps mmin (mmax + 15 / 10 * d_m)%R d_m - 1)%nat eqn:E; [lia|].
    cbn [seq mapM] in ET. discriminate.
  - destruct (C39_proof year mag (row0 :: table) d_m d_t) as
      (rm & ymin & ymax & mmin & n & cent' & tper' & nobs' & RT & _ & _ & _ & E & L1 & L2 & L3 & B & _ & SP);
      auto; try congruence.
    rewrite H in E. injection E. intros <- _ _. clear E.
    assert (EN : nobs = map (fun i => count (counts_in ymin d_t mmin d_m (row0 :: table) i) (combine year rm)) (seq 0 n)).
    { apply list_ext. { rewrite map_length, seq_length. auto. }
      intros k x y H1 H2. assert (Lk := nth_error_lt _ _ _ _ H1). rewrite L3 in Lk.
      destruct (SP k Lk) as (_ & S2 & _). rewrite nth_error_map, nth_error_seq in H2 by auto.
      injection H2. intros <-. cbn [Nat.add]. congruence. }
    rewrite EN, list_sum_nsum, nsum_count_swap.
    apply (Nat.le_trans _ (nsum (map (fun _ => 1%nat) (combine year rm)))).
    + apply nsum_le. intros [y m] _. apply count_at_most_one. intros a b Ha Hb.
      unfold counts_in in Ha, Hb. apply andb_true_iff in Ha, Hb. cbn [fst snd] in *.
      destruct Ha as [Ha _], Hb as [Hb _].
      unfold bin_of in Ha, Hb. apply andb_true_iff in Ha, Hb.
      rewrite Rleb_true, Rltb_true, plus_INR in Ha, Hb. simpl in Ha, Hb.
      assert (INR a < INR b + 1) by nra. assert (INR b < INR a + 1) by nra.
      rewrite <- S_INR in H0, H1. apply INR_lt in H0, H1. lia.
    + rewrite (nsum_ones _ _ (combine year rm)) by auto. rewrite combine_length. lia.
Qed.

(** When the steps of the table fall on the bin edges, complete events are counted. *)
Lemma bin_start_le : forall lo w x, 0 < w -> bin_start lo w x <= x < bin_start lo w x + w.
Proof.
  intros lo w x Hw. unfold bin_start. destruct (Rfloor_spec ((x - lo) / w)) as [H1 H2].
  assert (E : x - lo = (x - lo) / w * w) by (field; lra).
  set (q := (x - lo) / w) in *. set (f := IZR (Rfloor q)) in *. nra.
Qed.

Lemma aligned_step : forall lo w x (z : Z), 0 < w -> lo + IZR z * w <= x ->
  lo + IZR z * w <= bin_start lo w x.
Proof.
  intros lo w x z Hw H. unfold bin_start.
  assert (z <= Rfloor ((x - lo) / w))%Z.
  { rewrite <- (Rfloor_IZR z). apply Rfloor_mono. apply (Rmult_le_reg_r w); auto.
    unfold Rdiv. rewrite Rmult_assoc, Rinv_l by lra. lra. }
  apply IZR_le in H0. nra.
Qed.

Lemma tenth_mono : forall m r z, tenth m r -> IZR z / 10 <= m -> IZR z / 10 <= r.
Proof.
  intros m r z [[k ->] H] Hm. assert (- (1/20) <= IZR k / 10 - m).
  { apply Rabs_le_between in H || idtac. unfold Rabs in H. destruct (Rcase_abs _); lra. }
  assert (IZR z < IZR k + 1) by lra.
  assert (z < k + 1)%Z. { apply lt_IZR. rewrite plus_IZR. auto. }
  assert (IZR z <= IZR k) by (apply IZR_le; lia). lra.
Qed.

Lemma nth_error_forall2 : forall A B (P : A -> B -> Prop) l m k a, Forall2 P l m ->
  nth_error l k = Some a -> exists b, nth_error m k = Some b /\ P a b.
Proof.
  intros A B P l m k a F. revert k. induction F; intros k H0; destruct k; simpl in *; try discriminate.
  - injection H0. intros <-. eauto.
  - eauto.
Qed.

Lemma C40_partial_proof : forall (year mag : list R) (table : list (R * R)) d_m d_t,
  0 < d_m -> 0 < d_t -> year <> [] -> length mag = length year -> table <> [] ->
  exists rm ymin mmin cent tper nobs,
    Forall2 tenth mag rm /\ is_min ymin year /\ is_min mmin rm /\
    @weichert_prep ROps year mag table d_m d_t = Ok (cent, tper, nobs) /\
    ((forall cy cm, In (cy, cm) table -> exists z1 z2 z3 : Z,
        cy = ymin + IZR z1 * d_t /\ cm = mmin + IZR z2 * d_m /\ cm = IZR z3 / 10) ->
     forall k y m, nth_error year k = Some y -> nth_error mag k = Some m ->
       (forall cy cm, In (cy, cm) table -> cy <= y \/ cm <= m) ->
       exists i r, nth_error rm k = Some r /\ bin_of mmin d_m i r = true /\
         (i < length nobs)%nat /\
         counts_in ymin d_t mmin d_m table i (y, r) = true /\
         nth_error nobs i = Some (count (counts_in ymin d_t mmin d_m table i) (combine year rm))).
Proof.
  intros year mag table d_m d_t Hm Ht Hy L NE.
  destruct (C39_proof year mag table d_m d_t Hm Ht Hy L NE) as
    (rm & ymin & ymax & mmin & n & cent & tper & nobs & RT & YN & YX & MN & E & L1 & L2 & L3 & B & _ & SP).
  exists rm, ymin, mmin, cent, tper, nobs. repeat (split; auto).
  intros AL k y m Hk Hmk OK.
  destruct (nth_error_forall2 _ _ _ _ _ _ _ RT Hmk) as [r [Hr Tr]].
  destruct (bin_exists_unique mmin d_m n r Hm) as (i & I1 & I2 & I3).
  { apply B. eapply nth_error_In; eauto. }
  exists i, r. split; auto. split; auto. split; [lia|]. split.
  - unfold counts_in. cbn [fst snd]. rewrite I2. cbn [andb]. apply forallb_forall.
    intros [cy cm] IT. cbn [fst snd]. destruct (AL cy cm IT) as (z1 & z2 & z3 & E1 & E2 & E3).
    apply negb_true_iff. apply andb_false_iff. rewrite !Rltb_false.
    destruct (OK cy cm IT) as [O|O].
    + left. rewrite E1. apply aligned_step; auto. lra.
    + right. rewrite <- (bin_start_of mmin d_m i r Hm I2). rewrite E2. apply aligned_step; auto.
      rewrite <- E2, E3. eapply tenth_mono; eauto. lra.
  - destruct (SP i I1) as (_ & S2 & _). auto.
Qed.

(** The step year 1985 falls inside the ten-year bin starting in 1980: the event of 1985 is
    dropped although the catalogue is complete since 1985. *)
Lemma round1_exact : forall z : Z, @round1 ROps (IZR z / 10) = IZR z / 10.
Proof.
  intros. unfold round1. rops. replace (IZR z / 10 * 10) with (IZR z) by field.
  rewrite Rrint_IZR. auto.
Qed.

Lemma C40_refuted_proof : exists (year mag : list R) (table : list (R * R)) d_m d_t cent tper nobs,
  0 < d_m /\ 0 < d_t /\ length mag = length year /\
  @weichert_prep ROps year mag table d_m d_t = Ok (cent, tper, nobs) /\
  (forall k y m cy cm, nth_error year k = Some y -> nth_error mag k = Some m ->
     In (cy, cm) table -> cy <= y \/ cm <= m) /\
  (list_sum nobs < length year)%nat.
Proof.
  set (year := [1980; 1985]). set (mag := [50/10; 45/10]). set (table := [(1985, 50/10)]).
  destruct (C39_proof year mag table (5/10) 10) as
    (rm & ymin & ymax & mmin & n & cent & tper & nobs & RT & YN & YX & MN & E & L1 & L2 & L3 & B & _ & SP);
    try lra; try reflexivity; try discriminate.
  exists year, mag, table, (5/10), 10, cent, tper, nobs.
  split; [lra|]. split; [lra|]. split; [reflexivity|]. split; [exact E|]. split.
  - intros k y m cy cm H1 H2 [H3|[]]. injection H3. intros <- <-.
    destruct k as [|[|k]]; simpl in H1, H2; try (destruct k; discriminate);
      injection H1; injection H2; intros <- <-; [right|left]; lra.
  - assert (T := C39_total_proof year mag table (5/10) 10 cent tper nobs).
    assert (ER : rm = mag).
    { clear - RT. unfold mag in *. inversion RT as [|? ? ? ? H1 H2]; subst.
      inversion H2 as [|? ? ? ? H3 H4]; subst. inversion H4; subst.
      assert (U : forall (z : Z) r, tenth (IZR z / 10) r -> r = IZR z / 10).
      { intros z r [[k ->] H]. assert (Z : k = z); [|congruence].
        assert (A : -(1/2) <= IZR k - IZR z <= 1/2).
        { unfold Rabs in H. destruct (Rcase_abs _); lra. }
        assert (IZR k < IZR (z + 1)) by (rewrite plus_IZR; lra).
        assert (IZR z < IZR (k + 1)) by (rewrite plus_IZR; lra).
        apply lt_IZR in H0, H5. lia. }
      apply U in H1, H3. subst. auto. }
    subst rm.
    assert (ymin = 1980). { destruct YN as [[<-|[<-|[]]] Y2]; auto. specialize (Y2 1980 (or_introl eq_refl)). rops. lra. }
    assert (mmin = 45/10). { destruct MN as [[<-|[<-|[]]] Y2]; auto. specialize (Y2 (45/10) (or_intror (or_introl eq_refl))). rops. lra. }
    subst ymin mmin.
    (* at most the M5.0 event is counted *)
    assert (EN : nobs = map (fun i => count (counts_in 1980 10 (45/10) (5/10) table i) (combine year mag)) (seq 0 n)).
    { apply list_ext. { rewrite map_length, seq_length. auto. }
      intros k x y H1 H2. assert (Lk := nth_error_lt _ _ _ _ H1). rewrite L3 in Lk.
      destruct (SP k Lk) as (_ & S2 & _). rewrite nth_error_map, nth_error_seq in H2 by auto.
      injection H2. intros <-. cbn [Nat.add]. rewrite H1 in S2. injection S2. intros ->. reflexivity. }
    rewrite EN, list_sum_nsum, nsum_count_swap.
    change (length year) with 2%nat. unfold year, mag. cbn [combine map nsum].
    assert (C1 : (count (fun k => counts_in 1980 10 (45/10) (5/10) table k (1980, 50/10)%R) (seq 0 n) <= 1)%nat).
    { apply count_at_most_one. intros a b Ha Hb.
      unfold counts_in in Ha, Hb. apply andb_true_iff in Ha, Hb. cbn [fst snd] in *.
      destruct Ha as [Ha _], Hb as [Hb _].
      unfold bin_of in Ha, Hb. apply andb_true_iff in Ha, Hb.
      rewrite Rleb_true, Rltb_true, plus_INR in Ha, Hb. simpl in Ha, Hb.
      assert (Q1 : INR a < INR b + 1) by nra. assert (Q2 : INR b < INR a + 1) by nra.
      rewrite <- S_INR in Q1, Q2. apply INR_lt in Q1, Q2. lia. }
    assert (C2 : count (fun k => counts_in 1980 10 (45/10) (5/10) table k (1985, 45/10)%R) (seq 0 n) = 0%nat).
    { apply count_none. intros k _. unfold counts_in. cbn [fst snd].
      destruct (bin_of (45/10) (5/10) k (45/10)) eqn:BK; auto. cbn [andb].
      assert (k = 0%nat).
      { unfold bin_of in BK. apply andb_true_iff in BK. rewrite Rleb_true, Rltb_true in BK.
        destruct k; auto. rewrite S_INR in BK. assert (Q := pos_INR k). lra. }
      subst k. unfold table. cbn [forallb fst snd].
      assert (BS : bin_start 1980 10 1985 = 1980).
      { unfold bin_start. rewrite (Rfloor_unique _ 0). lra. simpl. lra. }
      rewrite BS. cbn [INR]. rdec. auto. }
    rewrite C2. lia.
Qed.
