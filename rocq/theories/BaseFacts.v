(** Facts about the list operations of Base.v. *)
From Coq Require Import ZArith Arith Bool List Lia Permutation.
From Verif Require Import Base.
Import ListNotations.

Lemma length_map2 : forall A B C (f : A -> B -> C) l m,
  length (map2 f l m) = Nat.min (length l) (length m).
Proof. induction l; destruct m; simpl; auto. Qed.

Lemma nth_error_map2 : forall A B C (f : A -> B -> C) l m k a b,
  nth_error l k = Some a -> nth_error m k = Some b ->
  nth_error (map2 f l m) k = Some (f a b).
Proof.
  induction l; intros m k x y Hl Hm; destruct k; destruct m; simpl in *; try discriminate.
  - congruence.
  - eauto.
Qed.

Lemma nth_error_map2_inv : forall A B C (f : A -> B -> C) l m k c,
  nth_error (map2 f l m) k = Some c ->
  exists a b, nth_error l k = Some a /\ nth_error m k = Some b /\ c = f a b.
Proof.
  induction l; intros m k c H; destruct m; destruct k; simpl in *; try discriminate.
  - injection H; intros; subst; eauto.
  - eauto.
Qed.

Lemma length_mask_set : forall A mask (v : A) l, length (mask_set mask v l) = length l.
Proof. induction mask; destruct l; simpl; auto. Qed.

Lemma nth_error_mask_set : forall A mask (v : A) l k a b,
  nth_error l k = Some a -> nth_error mask k = Some b ->
  nth_error (mask_set mask v l) k = Some (if b then v else a).
Proof.
  induction mask; intros v l k x b Hl Hm; destruct k; destruct l; simpl in *; try discriminate.
  - injection Hl; injection Hm; intros; subst; auto.
  - eauto.
Qed.

Lemma mask_set_short : forall A mask (v : A) l k a,
  nth_error l k = Some a -> nth_error mask k = None ->
  nth_error (mask_set mask v l) k = Some a.
Proof.
  induction mask; intros v l k x Hl Hm; destruct k; destruct l; simpl in *; try discriminate; auto.
Qed.

Lemma length_mask_put : forall A mask vals (l : list A), length (mask_put mask vals l) = length l.
Proof.
  induction mask; destruct l; simpl; auto.
  destruct a; [destruct vals|]; simpl; auto.
Qed.

Lemma length_set_nth : forall A i (v : A) l, length (set_nth i v l) = length l.
Proof. induction i; destruct l; simpl; auto. Qed.

Lemma nth_error_set_nth_eq : forall A i (v : A) l, i < length l ->
  nth_error (set_nth i v l) i = Some v.
Proof. induction i; destruct l; simpl; intros; try lia; auto. apply IHi; lia. Qed.

Lemma nth_error_set_nth_neq : forall A i (v : A) l k, k <> i ->
  nth_error (set_nth i v l) k = nth_error l k.
Proof.
  induction i; intros v l k H; destruct l; destruct k; simpl; auto; try congruence.
Qed.

Lemma nth_set_nth : forall A i (v d : A) l k, i < length l ->
  nth k (set_nth i v l) d = if Nat.eqb k i then v else nth k l d.
Proof.
  intros. destruct (Nat.eqb_spec k i).
  - subst. apply nth_error_nth. apply nth_error_set_nth_eq; auto.
  - destruct (nth_error (set_nth i v l) k) eqn:E.
    + rewrite (nth_error_nth _ _ _ E). rewrite nth_error_set_nth_neq in E by auto.
      symmetry. apply nth_error_nth. auto.
    + rewrite nth_error_set_nth_neq in E by auto.
      rewrite !nth_overflow; auto.
      * apply nth_error_None; auto.
      * rewrite length_set_nth. apply nth_error_None; auto.
Qed.

Lemma nth_error_ex : forall A (l : list A) k, k < length l -> exists a, nth_error l k = Some a.
Proof.
  intros. destruct (nth_error l k) eqn:E; eauto. apply nth_error_None in E. lia.
Qed.

Lemma nth_error_lt : forall A (l : list A) k a, nth_error l k = Some a -> k < length l.
Proof. intros. apply nth_error_Some. congruence. Qed.

Lemma nth_error_repeat : forall A (v : A) n k, k < n -> nth_error (repeat v n) k = Some v.
Proof. induction n; destruct k; simpl; intros; try lia; auto. apply IHn; lia. Qed.

Lemma nth_error_ext : forall A (l m : list A),
  (forall k, nth_error l k = nth_error m k) -> l = m.
Proof.
  induction l; intros m H.
  - destruct m; auto. specialize (H 0). discriminate.
  - destruct m. specialize (H 0); discriminate.
    f_equal. + specialize (H 0). simpl in H. congruence.
    + apply IHl. intro k. apply (H (S k)).
Qed.

Lemma list_ext : forall A (l m : list A),
  length l = length m ->
  (forall k a b, nth_error l k = Some a -> nth_error m k = Some b -> a = b) -> l = m.
Proof.
  intros A l m HL H. apply nth_error_ext. intro k.
  destruct (nth_error l k) eqn:E.
  - destruct (nth_error_ex _ m k) as [b Hb].
    + rewrite <- HL. eapply nth_error_lt; eauto.
    + rewrite Hb. f_equal. eauto.
  - symmetry. apply nth_error_None. apply nth_error_None in E. lia.
Qed.

Lemma mapM_length : forall A B (f : A -> res B) l r, mapM f l = Ok r -> length r = length l.
Proof.
  induction l; simpl; intros r H.
  - injection H; intros; subst; auto.
  - destruct (f a); simpl in H; try discriminate.
    destruct (mapM f l); simpl in H; try discriminate.
    injection H; intros; subst. simpl. f_equal. auto.
Qed.

Lemma mapM_nth : forall A B (f : A -> res B) l r k a,
  mapM f l = Ok r -> nth_error l k = Some a ->
  exists b, nth_error r k = Some b /\ f a = Ok b.
Proof.
  induction l; simpl; intros r k x H E.
  - destruct k; discriminate.
  - destruct (f a) eqn:F; simpl in H; try discriminate.
    destruct (mapM f l) eqn:M; simpl in H; try discriminate.
    injection H; intros; subst.
    destruct k; simpl in *.
    + injection E; intros; subst. eauto.
    + eauto.
Qed.

Lemma mapM_ok : forall A B (f : A -> res B) l,
  (forall a, In a l -> exists b, f a = Ok b) -> exists r, mapM f l = Ok r.
Proof.
  induction l; intros H; simpl.
  - eauto.
  - destruct (H a) as [b Hb]; simpl; auto. rewrite Hb. simpl.
    destruct IHl as [r Hr].
    + intros; apply H; simpl; auto.
    + rewrite Hr. simpl. eauto.
Qed.

Lemma mapM_ext : forall A B (f g : A -> res B) l,
  (forall a, In a l -> f a = g a) -> mapM f l = mapM g l.
Proof.
  induction l; simpl; intros H; auto.
  rewrite H by auto. rewrite IHl by auto. reflexivity.
Qed.

Lemma mapM_map : forall A B C (g : A -> B) (f : B -> res C) l,
  mapM f (map g l) = mapM (fun a => f (g a)) l.
Proof. induction l; simpl; auto. rewrite IHl. reflexivity. Qed.

Lemma mapM_app : forall A B (f : A -> res B) l m r s,
  mapM f l = Ok r -> mapM f m = Ok s -> mapM f (l ++ m) = Ok (r ++ s).
Proof.
  induction l; simpl; intros m r s H1 H2.
  - injection H1; intros; subst; auto.
  - destruct (f a); simpl in *; try discriminate.
    destruct (mapM f l) eqn:E; simpl in *; try discriminate.
    injection H1; intros; subst. rewrite (IHl _ _ _ eq_refl H2). reflexivity.
Qed.

Lemma mapM_pure : forall A B (f : A -> B) l, mapM (fun a => Ok (f a)) l = Ok (map f l).
Proof. induction l; simpl; auto. rewrite IHl. reflexivity. Qed.

Lemma mapM_err : forall A B (f : A -> res B) l e, mapM f l = Err e ->
  exists pre a post, l = pre ++ a :: post /\ f a = Err e /\
    (forall x, In x pre -> exists b, f x = Ok b).
Proof.
  induction l; simpl; intros e H. discriminate.
  destruct (f a) eqn:F; simpl in H.
  - destruct (mapM f l) eqn:M; simpl in H; try discriminate.
    injection H; intros; subst.
    destruct (IHl _ eq_refl) as (pre & x & post & -> & Hx & Hp).
    exists (a :: pre), x, post. repeat split; auto.
    intros y [->|Hy]; eauto.
  - injection H; intros; subst. exists [], a, l. repeat split; auto. intros x [].
Qed.

Lemma count_true_le : forall l, count_true l <= length l.
Proof. induction l; simpl; auto. destruct a; simpl; lia. Qed.

Lemma length_mask_get : forall A mask (l : list A), length mask = length l ->
  length (mask_get mask l) = count_true mask.
Proof.
  induction mask; destruct l; simpl; intros; try discriminate; auto.
  destruct a; simpl; auto.
Qed.

Lemma mask_get_filter : forall A (p : A -> bool) l, mask_get (map p l) l = filter p l.
Proof. induction l; simpl; auto. destruct (p a); simpl; congruence. Qed.

Lemma mask_get_map : forall A B (f : A -> B) mask l,
  mask_get mask (map f l) = map f (mask_get mask l).
Proof. induction mask; destruct l; simpl; auto. destruct a; simpl; congruence. Qed.

Lemma in_mask_get : forall A mask (l : list A) x,
  In x (mask_get mask l) <->
  exists k, nth_error mask k = Some true /\ nth_error l k = Some x.
Proof.
  induction mask; intros l x; split.
  - intros [].
  - intros (k & H & _). destruct k; discriminate.
  - destruct l; simpl. intros [].
    destruct a; simpl; intros H.
    + destruct H as [->|H]. exists 0; auto.
      apply IHmask in H. destruct H as (k & ? & ?). exists (S k); auto.
    + apply IHmask in H. destruct H as (k & ? & ?). exists (S k); auto.
  - intros (k & H1 & H2). destruct l. destruct k; discriminate.
    destruct k; simpl in *.
    + injection H1; injection H2; intros; subst. simpl; auto.
    + assert (In x (mask_get mask l)) by (apply IHmask; eauto).
      destruct a; simpl; auto.
Qed.

Lemma nth_error_seq : forall n s k, k < n -> nth_error (seq s n) k = Some (s + k).
Proof.
  induction n; intros s k H. lia.
  destruct k; simpl. f_equal; lia. rewrite IHn by lia. f_equal; lia.
Qed.

Lemma nth_error_map_inv : forall A B (f : A -> B) l k b, nth_error (map f l) k = Some b ->
  exists a, nth_error l k = Some a /\ b = f a.
Proof.
  intros. rewrite nth_error_map in H. destruct (nth_error l k); try discriminate.
  injection H; intros; subst; eauto.
Qed.

Lemma count_true_filter : forall A (p : A -> bool) l,
  count_true (map p l) = length (filter p l).
Proof. induction l; simpl; auto. destruct (p a); simpl; auto. Qed.

Lemma count_true_perm : forall l m, Permutation l m -> count_true l = count_true m.
Proof. induction 1; simpl; lia. Qed.

Lemma last_opt_app : forall A (l : list A) a, last_opt (l ++ [a]) = Some a.
Proof.
  induction l; intros; simpl; auto. destruct (l ++ [a0]) eqn:E.
  - destruct l; discriminate.
  - rewrite <- E. auto.
Qed.

Lemma last_opt_in : forall A (l : list A) a, last_opt l = Some a -> In a l.
Proof.
  induction l; simpl; intros x H. discriminate.
  destruct l. injection H; auto. right. auto.
Qed.

Lemma last_opt_none : forall A (l : list A), last_opt l = None -> l = [].
Proof. induction l; simpl; auto. destruct l; intros; try discriminate. specialize (IHl H). discriminate. Qed.

Lemma nonzero_from_in : forall l s k, In k (nonzero_from s l) <->
  s <= k /\ nth_error l (k - s) = Some true.
Proof.
  induction l; intros s k; simpl.
  - split. intros []. intros [_ H]. destruct (k - s); discriminate.
  - assert (R: In k (nonzero_from (S s) l) <-> S s <= k /\ nth_error l (k - S s) = Some true) by apply IHl.
    destruct a; simpl; rewrite R; split; intros H.
    + destruct H as [H|[H1 H2]].
      * subst. rewrite Nat.sub_diag. simpl. auto.
      * split. lia. replace (k - s) with (S (k - S s)) by lia. auto.
    + destruct H as [H1 H2]. destruct (Nat.eq_dec s k). auto. right.
      replace (k - s) with (S (k - S s)) in H2 by lia. simpl in H2. split; auto; lia.
    + destruct H as [H1 H2]. split. lia. replace (k - s) with (S (k - S s)) by lia. auto.
    + destruct H as [H1 H2]. destruct (Nat.eq_dec s k).
      * subst. rewrite Nat.sub_diag in H2. discriminate.
      * replace (k - s) with (S (k - S s)) in H2 by lia. simpl in H2. split; auto; lia.
Qed.

Lemma nonzero_in : forall l k, In k (nonzero l) <-> nth_error l k = Some true.
Proof.
  intros. unfold nonzero. rewrite nonzero_from_in. rewrite Nat.sub_0_r.
  split; intros; [tauto|]. split; [lia|auto].
Qed.

Lemma nonzero_from_sorted : forall l s, 
  forall i j a b, i < j -> nth_error (nonzero_from s l) i = Some a ->
    nth_error (nonzero_from s l) j = Some b -> a < b.
Proof.
  induction l; intros s i j x y Hij Hi Hj; simpl in *.
  - destruct i; discriminate.
  - destruct a.
    + destruct i; destruct j; simpl in *; try lia.
      * injection Hi; intros; subst. apply nth_error_In in Hj. apply nonzero_from_in in Hj. lia.
      * apply (IHl (S s) i j); auto. lia.
    + apply (IHl (S s) i j); auto.
Qed.

Lemma last_opt_nth : forall A (l : list A) a, last_opt l = Some a -> 
  nth_error l (length l - 1) = Some a.
Proof.
  induction l; simpl; intros x H. discriminate.
  destruct l. simpl; auto. rewrite Nat.sub_0_r. specialize (IHl _ H). simpl length in *.
  replace (S (length l) - 1) with (length l) in IHl by lia. simpl. auto.
Qed.

Lemma last_nonzero_max : forall l k, last_opt (nonzero l) = Some k ->
  nth_error l k = Some true /\ forall j, nth_error l j = Some true -> j <= k.
Proof.
  intros l k H. split.
  - apply nonzero_in. apply last_opt_in; auto.
  - intros j Hj. apply nonzero_in in Hj. apply In_nth_error in Hj. destruct Hj as [i Hi].
    apply last_opt_nth in H.
    destruct (Nat.eq_dec i (length (nonzero l) - 1)).
    + subst. assert (j = k) by congruence. lia.
    + assert (i < length (nonzero l)) by (eapply nth_error_lt; eauto).
      assert (j < k); [|lia].
      apply (nonzero_from_sorted l 0 i (length (nonzero l) - 1)); auto; lia.
Qed.

Lemma nonzero_spec_map_nth : forall A (p : A -> bool) l,
  forall k, In k (nonzero (map p l)) <-> exists a, nth_error l k = Some a /\ p a = true.
Proof.
  intros. rewrite nonzero_in. split.
  - intros H. apply nth_error_map_inv in H. destruct H as (a & H1 & H2). eauto.
  - intros (a & H1 & H2). rewrite nth_error_map, H1. simpl. congruence.
Qed.

(** Taking the entries at the True positions is taking the positions listed by nonzero. *)
Lemma mask_get_nonzero_from : forall A (d : A) mask s l, length mask = length l ->
  mask_get mask l = map (fun k => nth (k - s) l d) (nonzero_from s mask).
Proof.
  induction mask; intros s l H; destruct l; simpl in *; try discriminate; auto.
  destruct a; simpl.
  - rewrite Nat.sub_diag. f_equal.
    rewrite (IHmask (S s) l) by lia. apply map_ext_in. intros k Hk.
    apply nonzero_from_in in Hk. replace (k - s) with (S (k - S s)) by lia. auto.
  - rewrite (IHmask (S s) l) by lia. apply map_ext_in. intros k Hk.
    apply nonzero_from_in in Hk. replace (k - s) with (S (k - S s)) by lia. auto.
Qed.

Lemma bind_ok : forall A B (r : res A) (f : A -> res B) b,
  bind r f = Ok b -> exists a, r = Ok a /\ f a = Ok b.
Proof. intros. destruct r; simpl in H; try discriminate. eauto. Qed.

Lemma fold_left_inv : forall A B (P : A -> Prop) (f : A -> B -> A) l a,
  P a -> (forall a b, P a -> In b l -> P (f a b)) -> P (fold_left f l a).
Proof.
  induction l; simpl; intros; auto.
Qed.
