(** Facts about the real instance [ROps] of the arithmetic interface. *)
From Coq Require Import ZArith Arith Bool List Lia Reals Lra Permutation.
From Verif Require Import Base Ops BaseFacts.
Import ListNotations.
Local Open Scope R_scope.

Lemma Rltb_true : forall x y, Rltb x y = true <-> x < y.
Proof. intros. unfold Rltb. destruct (Rlt_dec x y); split; intros; auto; discriminate. Qed.
Lemma Rltb_false : forall x y, Rltb x y = false <-> y <= x.
Proof. intros. unfold Rltb. destruct (Rlt_dec x y); split; intros; auto; try discriminate; lra. Qed.
Lemma Rleb_true : forall x y, Rleb x y = true <-> x <= y.
Proof. intros. unfold Rleb. destruct (Rle_dec x y); split; intros; auto; discriminate. Qed.
Lemma Rleb_false : forall x y, Rleb x y = false <-> y < x.
Proof. intros. unfold Rleb. destruct (Rle_dec x y); split; intros; auto; try discriminate; lra. Qed.
Lemma Reqb_true : forall x y, Reqb x y = true <-> x = y.
Proof. intros. unfold Reqb. destruct (Req_EM_T x y); split; intros; auto; discriminate. Qed.
Lemma Reqb_false : forall x y, Reqb x y = false <-> x <> y.
Proof. intros. unfold Reqb. destruct (Req_EM_T x y); split; intros; auto; try discriminate; tauto. Qed.

(** Reduce the operations of [ROps] to those of the reals. *)
Ltac rops := cbn [T ofZ add sub mul div neg absv ltb leb eqb sqrtv expv lnv log10v sinv cosv
  atan2v powv floorv ceilv rintv toZ piv ROps] in *.

(** Decide a comparison of reals by [lra]. *)
Ltac rdec :=
  repeat match goal with
  | |- context [Rltb ?x ?y] =>
      first [ replace (Rltb x y) with true by (symmetry; apply Rltb_true; lra)
            | replace (Rltb x y) with false by (symmetry; apply Rltb_false; lra) ]
  | |- context [Rleb ?x ?y] =>
      first [ replace (Rleb x y) with true by (symmetry; apply Rleb_true; lra)
            | replace (Rleb x y) with false by (symmetry; apply Rleb_false; lra) ]
  end.

(** ** Floor, ceiling, truncation *)

Lemma Rfloor_spec : forall x, IZR (Rfloor x) <= x < IZR (Rfloor x) + 1.
Proof. intros. unfold Rfloor. destruct (base_Int_part x). lra. Qed.

Lemma Rfloor_unique : forall x z, IZR z <= x < IZR z + 1 -> Rfloor x = z.
Proof.
  intros x z H. destruct (Rfloor_spec x).
  assert (IZR (Rfloor x) < IZR (z + 1)) by (rewrite plus_IZR; lra).
  assert (IZR z < IZR (Rfloor x + 1)) by (rewrite plus_IZR; lra).
  apply lt_IZR in H2. apply lt_IZR in H3. lia.
Qed.

Lemma Rfloor_IZR : forall z, Rfloor (IZR z) = z.
Proof. intros. apply Rfloor_unique. lra. Qed.

Lemma Rfloor_mono : forall x y, x <= y -> (Rfloor x <= Rfloor y)%Z.
Proof.
  intros. destruct (Rfloor_spec x), (Rfloor_spec y).
  assert (IZR (Rfloor x) < IZR (Rfloor y + 1)) by (rewrite plus_IZR; lra).
  apply lt_IZR in H4. lia.
Qed.

Lemma Rceil_spec : forall x, IZR (Rceil x) - 1 < x <= IZR (Rceil x).
Proof.
  intros. unfold Rceil. destruct (Rfloor_spec (- x)). unfold Rfloor in *.
  rewrite opp_IZR. lra.
Qed.

Lemma Rceil_unique : forall x z, IZR z - 1 < x <= IZR z -> Rceil x = z.
Proof.
  intros x z H. destruct (Rceil_spec x).
  assert (IZR (Rceil x) < IZR (z + 1)) by (rewrite plus_IZR; lra).
  assert (IZR z < IZR (Rceil x + 1)) by (rewrite plus_IZR; lra).
  apply lt_IZR in H2. apply lt_IZR in H3. lia.
Qed.

Lemma Rceil_IZR : forall z, Rceil (IZR z) = z.
Proof. intros. apply Rceil_unique. lra. Qed.

Lemma Rceil_mono : forall x y, x <= y -> (Rceil x <= Rceil y)%Z.
Proof.
  intros. destruct (Rceil_spec x), (Rceil_spec y).
  assert (IZR (Rceil x) < IZR (Rceil y + 1)) by (rewrite plus_IZR; lra).
  apply lt_IZR in H4. lia.
Qed.

Lemma Rtrunc_IZR : forall z, Rtrunc (IZR z) = z.
Proof.
  intros. unfold Rtrunc. destruct (Rle_dec 0 (IZR z)).
  apply Rfloor_IZR. apply Rceil_IZR.
Qed.

Lemma Rtrunc_nonneg : forall x, 0 <= x -> Rtrunc x = Rfloor x.
Proof. intros. unfold Rtrunc. destruct (Rle_dec 0 x); auto; lra. Qed.

Lemma Rrint_IZR : forall z, Rrint (IZR z) = z.
Proof.
  intros. unfold Rrint. rewrite Rfloor_IZR.
  destruct (Rlt_dec (IZR z - IZR z) (1/2)); auto. lra.
Qed.

Lemma Rrint_near : forall x, Rabs (IZR (Rrint x) - x) <= 1/2.
Proof.
  intros. destruct (Rfloor_spec x). unfold Rrint.
  destruct (Rlt_dec (x - IZR (Rfloor x)) (1/2)).
  - unfold Rabs; destruct Rcase_abs; lra.
  - destruct (Rlt_dec (1/2) (x - IZR (Rfloor x))).
    + rewrite plus_IZR. unfold Rabs; destruct Rcase_abs; lra.
    + destruct (Z.even (Rfloor x)); [|rewrite plus_IZR]; unfold Rabs; destruct Rcase_abs; lra.
Qed.

Lemma Rrint_mono : forall x y, x <= y -> (Rrint x <= Rrint y)%Z.
Proof.
  intros x y H.
  assert (F := Rfloor_mono x y H).
  destruct (Rfloor_spec x), (Rfloor_spec y).
  destruct (Z.eq_dec (Rfloor x) (Rfloor y)) as [E|E].
  - unfold Rrint. rewrite E in *. 
    destruct (Rlt_dec (x - IZR (Rfloor y)) (1/2));
    destruct (Rlt_dec (y - IZR (Rfloor y)) (1/2)); try lra; try lia;
    destruct (Rlt_dec (1/2) (x - IZR (Rfloor y)));
    destruct (Rlt_dec (1/2) (y - IZR (Rfloor y))); try lra; try lia;
    destruct (Z.even (Rfloor y)); try lia.
  - assert (Rrint x <= Rfloor x + 1)%Z.
    { unfold Rrint. destruct Rlt_dec; try lia. destruct Rlt_dec; try lia. destruct Z.even; lia. }
    assert (Rfloor y <= Rrint y)%Z.
    { unfold Rrint. destruct Rlt_dec; try lia. destruct Rlt_dec; try lia. destruct Z.even; lia. }
    lia.
Qed.

(** ** arange *)

Lemma ofnat_R : forall n, @ofnat ROps n = INR n.
Proof. intros. unfold ofnat. simpl. symmetry. apply INR_IZR_INZ. Qed.

Lemma arange_at_R : forall a s i, @arange_at ROps a s i = a + INR i * s.
Proof.
  intros. unfold arange_at. destruct i as [|[|i]].
  - simpl. lra.
  - simpl. lra.
  - rewrite ofnat_R. rops. ring.
Qed.

Lemma arange_len_lt : forall a b s i, 0 < s ->
  (i < @arange_len ROps a b s)%nat <-> a + INR i * s < b.
Proof.
  intros a b s i Hs. unfold arange_len.
  rops. rewrite Rtrunc_IZR.
  destruct (Rceil_spec ((b - a)/s)) as [H1 H2].
  assert (Q : (b - a) / s * s = b - a) by (field; lra).
  split; intros H.
  - assert (Z.of_nat i + 1 <= Rceil ((b - a)/s))%Z by lia.
    apply IZR_le in H0. rewrite plus_IZR, <- INR_IZR_INZ in H0.
    assert (INR i < (b - a)/s) by lra.
    assert (INR i * s < (b - a)/s * s) by (apply Rmult_lt_compat_r; lra). lra.
  - assert (INR i < (b - a)/s).
    { apply Rmult_lt_reg_r with s; lra. }
    assert (IZR (Z.of_nat i) < IZR (Rceil ((b-a)/s))) by (rewrite <- INR_IZR_INZ; lra).
    apply lt_IZR in H3. lia.
Qed.

Lemma arange_length : forall a b s, length (@arange ROps a b s) = @arange_len ROps a b s.
Proof. intros. unfold arange. rewrite map_length, seq_length. auto. Qed.

Lemma arange_nth : forall a b s i, (i < @arange_len ROps a b s)%nat ->
  nth_error (@arange ROps a b s) i = Some (a + INR i * s).
Proof.
  intros. unfold arange. rewrite nth_error_map, nth_error_seq by auto.
  simpl. f_equal. apply arange_at_R.
Qed.

Lemma arange_nth_inv : forall a b s i x, nth_error (@arange ROps a b s) i = Some x ->
  x = a + INR i * s /\ (i < @arange_len ROps a b s)%nat.
Proof.
  intros. assert (i < @arange_len ROps a b s)%nat.
  { rewrite <- arange_length. eapply nth_error_lt; eauto. }
  rewrite arange_nth in H by auto. split; congruence.
Qed.

Lemma arange_in : forall a b s x, 0 < s ->
  In x (@arange ROps a b s) <-> exists i, x = a + INR i * s /\ x < b.
Proof.
  intros. split.
  - intros H0. apply In_nth_error in H0. destruct H0 as [i Hi].
    apply arange_nth_inv in Hi. destruct Hi as [E L]. exists i. split; auto.
    subst. apply arange_len_lt in L; auto.
  - intros (i & E & L). subst. apply nth_error_In with (n := i).
    apply arange_nth. apply arange_len_lt; auto.
Qed.

(** Length of an arange from its bounds. *)
Lemma arange_len_eq : forall a b s n, 0 < s ->
  (forall i, (i < n)%nat -> a + INR i * s < b) -> b <= a + INR n * s ->
  @arange_len ROps a b s = n.
Proof.
  intros a b s n Hs H1 H2.
  destruct (lt_eq_lt_dec (@arange_len ROps a b s) n) as [[L|E]|L]; auto.
  - apply H1 in L. apply arange_len_lt in L; auto. lia.
  - apply arange_len_lt in L; auto. lra.
Qed.

(** ** Extrema *)

Lemma fold_max_spec : forall l (x : R),
  let m := fold_left (@max2 ROps) l x in
  (In m (x :: l)) /\ x <= m /\ forall y, In y l -> y <= m.
Proof.
  induction l; intros x; simpl.
  - repeat split; auto. lra. intros y [].
  - specialize (IHl (@max2 ROps x a)). simpl in IHl. destruct IHl as (H1 & H2 & H3).
    assert (M : @max2 ROps x a = Rmax x a).
    { unfold max2. simpl. unfold Rltb, Rmax. destruct (Rlt_dec x a), (Rle_dec x a); lra. }
    rewrite M in *. 
    assert (L1 := Rmax_l x a). assert (L2 := Rmax_r x a).
    repeat split; auto.
    + destruct H1 as [H1|H1]; auto.
      rewrite <- H1. unfold Rmax. destruct (Rle_dec x a); auto.
    + lra.
    + intros y [->|Hy]; auto. lra.
Qed.

Lemma fold_min_spec : forall l (x : R),
  let m := fold_left (@min2 ROps) l x in
  (In m (x :: l)) /\ m <= x /\ forall y, In y l -> m <= y.
Proof.
  induction l; intros x; simpl.
  - repeat split; auto. lra. intros y [].
  - specialize (IHl (@min2 ROps x a)). simpl in IHl. destruct IHl as (H1 & H2 & H3).
    assert (M : @min2 ROps x a = Rmin x a).
    { unfold min2. simpl. unfold Rltb, Rmin. destruct (Rlt_dec a x), (Rle_dec x a); lra. }
    rewrite M in *. 
    assert (L1 := Rmin_l x a). assert (L2 := Rmin_r x a).
    repeat split; auto.
    + destruct H1 as [H1|H1]; auto.
      rewrite <- H1. unfold Rmin. destruct (Rle_dec x a); auto.
    + lra.
    + intros y [->|Hy]; auto. lra.
Qed.

Lemma maxv_spec : forall l m, @maxv ROps l = Ok m <-> In m l /\ forall y, In y l -> y <= m.
Proof.
  intros. destruct l; simpl.
  - split; [discriminate|]. intros [[] _].
  - destruct (fold_max_spec l t) as (H1 & H2 & H3).
    split.
    + intros E. injection E; intros <-. split; auto. intros y [->|Hy]; auto.
    + intros [Hin H]. f_equal. apply Rle_antisym.
      * apply H. simpl in H1. auto.
      * destruct Hin as [->|Hin]; auto.
Qed.

Lemma minv_spec : forall l m, @minv ROps l = Ok m <-> In m l /\ forall y, In y l -> m <= y.
Proof.
  intros. destruct l; simpl.
  - split; [discriminate|]. intros [[] _].
  - destruct (fold_min_spec l t) as (H1 & H2 & H3).
    split.
    + intros E. injection E; intros <-. split; auto. intros y [->|Hy]; auto.
    + intros [Hin H]. f_equal. apply Rle_antisym.
      * destruct Hin as [->|Hin]; auto.
      * apply H. simpl in H1. auto.
Qed.

Lemma maxv_ok : forall l, l <> [] -> exists m, @maxv ROps l = Ok m.
Proof. intros. destruct l; [congruence|]. simpl. eauto. Qed.
Lemma minv_ok : forall l, l <> [] -> exists m, @minv ROps l = Ok m.
Proof. intros. destruct l; [congruence|]. simpl. eauto. Qed.

Lemma maxv_perm : forall l l', Permutation l l' -> @maxv ROps l = @maxv ROps l'.
Proof.
  intros l l' P. destruct (@maxv ROps l) eqn:E.
  - symmetry. apply maxv_spec. apply maxv_spec in E. destruct E. split.
    + eapply Permutation_in; eauto.
    + intros y Hy. apply H0. eapply Permutation_in; [apply Permutation_sym|]; eauto.
  - destruct l; simpl in E; [|discriminate]. apply Permutation_nil in P. subst. auto.
Qed.
Lemma minv_perm : forall l l', Permutation l l' -> @minv ROps l = @minv ROps l'.
Proof.
  intros l l' P. destruct (@minv ROps l) eqn:E.
  - symmetry. apply minv_spec. apply minv_spec in E. destruct E. split.
    + eapply Permutation_in; eauto.
    + intros y Hy. apply H0. eapply Permutation_in; [apply Permutation_sym|]; eauto.
  - destruct l; simpl in E; [|discriminate]. apply Permutation_nil in P. subst. auto.
Qed.

(** ** Sums *)

Fixpoint Rsum (l : list R) : R := match l with [] => 0 | x :: l' => x + Rsum l' end.

Lemma sumv_acc : forall l a, fold_left Rplus l a = a + Rsum l.
Proof. induction l; simpl; intros. lra. rewrite IHl. lra. Qed.

Lemma sumv_R : forall l, @sumv ROps l = Rsum l.
Proof. intros. unfold sumv. simpl. rewrite sumv_acc. lra. Qed.

Lemma Rsum_app : forall l m, Rsum (l ++ m) = Rsum l + Rsum m.
Proof. induction l; simpl; intros. lra. rewrite IHl. lra. Qed.

Lemma Rsum_perm : forall l m, Permutation l m -> Rsum l = Rsum m.
Proof. induction 1; simpl; lra. Qed.

Lemma Rsum_scal : forall c l, Rsum (map (fun x => c * x) l) = c * Rsum l.
Proof. induction l; simpl; [lra|]. rewrite IHl. lra. Qed.

Lemma Rsum_map_plus : forall A (f g : A -> R) l,
  Rsum (map (fun x => f x + g x) l) = Rsum (map f l) + Rsum (map g l).
Proof. induction l; simpl; [lra|]. rewrite IHl. lra. Qed.

Lemma Rsum_map_scal : forall A c (f : A -> R) l,
  Rsum (map (fun x => c * f x) l) = c * Rsum (map f l).
Proof. induction l; simpl; [lra|]. rewrite IHl. lra. Qed.

Lemma Rsum_const : forall A c (l : list A), Rsum (map (fun _ => c) l) = INR (length l) * c.
Proof.
  induction l; simpl length; [simpl; lra|]. rewrite S_INR. simpl. rewrite IHl. lra.
Qed.

Lemma Rsum_nonneg : forall l, (forall x, In x l -> 0 <= x) -> 0 <= Rsum l.
Proof.
  induction l; simpl; intros; [lra|].
  assert (0 <= a) by auto. assert (0 <= Rsum l) by auto. lra.
Qed.

Lemma Rsum_pos : forall l, (forall x, In x l -> 0 < x) -> l <> [] -> 0 < Rsum l.
Proof.
  destruct l; intros; [congruence|]. simpl.
  assert (0 < r) by (apply H; simpl; auto).
  assert (0 <= Rsum l). { apply Rsum_nonneg. intros. left. apply H. simpl. auto. }
  lra.
Qed.

Lemma Rsum_le : forall A (f g : A -> R) l, (forall x, In x l -> f x <= g x) ->
  Rsum (map f l) <= Rsum (map g l).
Proof.
  induction l; simpl; intros; [lra|].
  assert (f a <= g a) by auto. assert (Rsum (map f l) <= Rsum (map g l)) by auto. lra.
Qed.

(** ** Counting *)

(** Number of list elements satisfying a test. *)
Definition count {A} (p : A -> bool) (l : list A) : nat := length (filter p l).

Fixpoint nsum (l : list nat) : nat := match l with [] => 0 | x :: l' => x + nsum l' end%nat.

Lemma count_cons : forall A (p : A -> bool) a l,
  count p (a :: l) = ((if p a then 1 else 0) + count p l)%nat.
Proof. intros. unfold count. simpl. destruct (p a); auto. Qed.

Lemma count_app : forall A (p : A -> bool) l m, count p (l ++ m) = (count p l + count p m)%nat.
Proof. intros. unfold count. rewrite filter_app, app_length. auto. Qed.

Lemma count_perm : forall A (p : A -> bool) l m, Permutation l m -> count p l = count p m.
Proof.
  induction 1; auto; rewrite ?count_cons; lia.
Qed.

Lemma count_ext : forall A (p q : A -> bool) l, (forall a, In a l -> p a = q a) ->
  count p l = count q l.
Proof.
  induction l; intros; auto. rewrite !count_cons, IHl, H; simpl; auto.
  intros. apply H. simpl; auto.
Qed.

Lemma count_map : forall A B (f : A -> B) p l, count p (map f l) = count (fun a => p (f a)) l.
Proof. induction l; auto. simpl map. rewrite !count_cons, IHl. auto. Qed.

Lemma count_le : forall A (p q : A -> bool) l, (forall a, In a l -> p a = true -> q a = true) ->
  (count p l <= count q l)%nat.
Proof.
  induction l; intros; auto. rewrite !count_cons.
  assert (count p l <= count q l)%nat by (apply IHl; intros; apply H; simpl; auto).
  destruct (p a) eqn:E; [rewrite (H a)|]; simpl; auto; try lia.
Qed.

Lemma count_le_length : forall A (p : A -> bool) l, (count p l <= length l)%nat.
Proof. induction l; auto. rewrite count_cons. simpl. destruct (p a); lia. Qed.

Lemma count_none : forall A (p : A -> bool) l, (forall a, In a l -> p a = false) -> count p l = 0%nat.
Proof.
  induction l; intros; auto. rewrite count_cons, H, IHl; simpl; auto.
  intros. apply H. simpl; auto.
Qed.

Lemma count_pos : forall A (p : A -> bool) l a, In a l -> p a = true -> (0 < count p l)%nat.
Proof.
  intros. unfold count. assert (In a (filter p l)) by (apply filter_In; auto).
  destruct (filter p l). destruct H1. simpl. lia.
Qed.

Lemma count_all : forall A (p : A -> bool) l, (forall a, In a l -> p a = true) -> count p l = length l.
Proof.
  induction l; intros; auto. rewrite count_cons, H, IHl; simpl; auto.
  intros. apply H. simpl; auto.
Qed.

(** Exchange of the two counts: by classes and by elements. *)
Lemma nsum_count_swap : forall A B (p : B -> A -> bool) (l : list A) (ks : list B),
  nsum (map (fun k => count (p k) l) ks) = nsum (map (fun a => count (fun k => p k a) ks) l).
Proof.
  induction l; intros ks.
  - unfold count. simpl. induction ks; auto.
  - simpl. rewrite <- IHl. clear IHl. induction ks; auto.
    simpl. rewrite !count_cons. rewrite IHks. lia.
Qed.

Lemma nsum_ones : forall A (f : A -> nat) l, (forall a, In a l -> f a = 1%nat) ->
  nsum (map f l) = length l.
Proof.
  induction l; simpl; intros; auto. rewrite H, IHl; auto.
Qed.

Lemma nsum_indicator : forall A (p : A -> bool) (f : A -> nat) l,
  (forall a, In a l -> f a = if p a then 1 else 0)%nat ->
  nsum (map f l) = count p l.
Proof.
  induction l; simpl; intros; auto. rewrite count_cons, H, IHl; auto.
Qed.

(** Each value at or above the first edge is in exactly one of the half-open bins below the
    n-th edge, or at or above it. *)
Lemma bins_below : forall (g : nat -> R) m n, (forall k, g k <= g (S k)) -> g 0%nat <= m ->
  count (fun j => Rleb (g j) m && Rltb m (g (S j)))%bool (seq 0 n)
  = if Rltb m (g n) then 1%nat else 0%nat.
Proof.
  intros g m n G H0. induction n.
  - simpl. unfold count. simpl. destruct (Rltb m (g 0%nat)) eqn:E; auto.
    apply Rltb_true in E. lra.
  - rewrite seq_S. rewrite count_app. rewrite IHn. unfold count at 1. simpl.
    specialize (G n).
    destruct (Rltb m (g n)) eqn:E1.
    + apply Rltb_true in E1.
      replace (Rleb (g n) m) with false by (symmetry; apply Rleb_false; lra).
      replace (Rltb m (g (S n))) with true by (symmetry; apply Rltb_true; lra). auto.
    + apply Rltb_false in E1.
      replace (Rleb (g n) m) with true by (symmetry; apply Rleb_true; lra).
      simpl. destruct (Rltb m (g (S n))); auto.
Qed.
