(** np.argsort(m, kind='heapsort') as the C code of numpy does it (aheapsort in
    numpy/core/src/npysort/heapsort.c), used by declustering.py:188,342.  In the theorems the
    sort is a parameter; this is the instance used for concrete runs that depend on how equal
    magnitudes are ordered. *)
From Coq Require Import ZArith List Bool Arith Lia Permutation.
From Verif Require Import Base Ops BaseFacts CatUtil Decluster DeclusterSpec.
Import ListNotations.

Section Heap.
Context {AR : Ops}.
Variable v : list T.

(** a[i] with a counted from 1, and v[a[i]]. *)
Definition at1 (a : list nat) (i : nat) : nat := nth (i - 1) a 0.
Definition key (a : list nat) (i : nat) : T := nth (at1 a i) v (ofZ 0).

(** The inner loop: the hole moves from i down to larger children until tmp fits. *)
Fixpoint sift (fuel n tmp : nat) (a : list nat) (i j : nat) : list nat :=
  match fuel with
  | 0 => set_nth (i - 1) tmp a
  | S fuel' =>
      if Nat.leb j n then
        let j := if Nat.ltb j n && ltb (key a j) (key a (j + 1)) then j + 1 else j in
        if ltb (nth tmp v (ofZ 0)) (key a j)
        then sift fuel' n tmp (set_nth (i - 1) (at1 a j) a) j (j + j)
        else set_nth (i - 1) tmp a
      else set_nth (i - 1) tmp a
  end.

(** for (l = n>>1; l > 0; --l): build the heap. *)
Fixpoint build (n l : nat) (a : list nat) : list nat :=
  match l with
  | 0 => a
  | S l' => build n l' (sift n n (at1 a l) a l (l + l))
  end.

(** for (; n > 1;): move the largest to the end. *)
Fixpoint extract (n : nat) (a : list nat) : list nat :=
  match n with
  | 0 | 1 => a
  | S n' => extract n' (sift n n' (at1 a n) (set_nth (n - 1) (at1 a 1) a) 1 2)
  end.

Definition heap_order : list nat :=
  let n := length v in extract n (build n (Nat.div2 n) (seq 0 n)).

End Heap.

Definition heap_argsort {AR : Ops} (v : list T) : list nat := heap_order v.

(** ** It lists every position once *)

Lemma set_nth_same : forall A (l : list A) i x, nth_error l i = Some x -> set_nth i x l = l.
Proof.
  induction l as [|a l IH]; intros [|i] x H; cbn in H |- *; try discriminate.
  - now injection H as ->.
  - f_equal. auto.
Qed.

Lemma set_nth_app : forall A (l1 l2 : list A) (x y : A), set_nth (length l1) y (l1 ++ x :: l2) = l1 ++ y :: l2.
Proof. induction l1; intros; cbn; [reflexivity|f_equal; auto]. Qed.

Lemma swap_lt : forall A (l : list A) i j x y, i < j -> nth_error l i = Some x -> nth_error l j = Some y ->
  Permutation (set_nth j x (set_nth i y l)) l.
Proof.
  intros A l i j x y L Hi Hj.
  destruct (nth_error_split _ _ Hi) as (l1 & l2 & -> & <-).
  rewrite set_nth_app. rewrite nth_error_app2 in Hj by lia.
  destruct (j - length l1) as [|d] eqn:D; [lia|]. cbn in Hj.
  destruct (nth_error_split _ _ Hj) as (l3 & l4 & -> & <-).
  replace j with (length (l1 ++ y :: l3)) by (rewrite app_length; cbn; lia).
  replace (l1 ++ y :: l3 ++ y :: l4) with ((l1 ++ y :: l3) ++ y :: l4) by (rewrite <- app_assoc; reflexivity).
  rewrite set_nth_app. rewrite <- app_assoc. apply Permutation_app_head. cbn.
  transitivity (y :: x :: l3 ++ l4).
  - constructor. symmetry. apply Permutation_middle.
  - rewrite perm_swap. constructor. apply Permutation_middle.
Qed.

Lemma set_nth_comm : forall A (l : list A) i j x y, i <> j ->
  set_nth i x (set_nth j y l) = set_nth j y (set_nth i x l).
Proof.
  induction l as [|a l IH]; intros [|i] [|j] x y H; cbn; auto; [congruence|]. f_equal. apply IH. congruence.
Qed.

Lemma swap_perm : forall A (l : list A) i j x y, i <> j -> nth_error l i = Some x -> nth_error l j = Some y ->
  Permutation (set_nth j x (set_nth i y l)) l.
Proof.
  intros A l i j x y N Hi Hj. destruct (Nat.lt_total i j) as [L|[E|L]]; [now apply swap_lt|congruence|].
  rewrite set_nth_comm by congruence. now apply swap_lt.
Qed.

Section HeapPerm.
Context {AR : Ops}.
Variable v : list T.

Lemma set_nth_twice : forall A (l : list A) i x y, set_nth i x (set_nth i y l) = set_nth i x l.
Proof. induction l as [|a l IH]; intros [|i] x y; cbn; auto. f_equal. auto. Qed.

Lemma sift_perm : forall fuel n tmp a i j, 1 <= i -> i < j -> i <= length a -> n <= length a ->
  Permutation (sift v fuel n tmp a i j) (set_nth (i - 1) tmp a).
Proof.
  induction fuel as [|fuel IH]; intros n tmp a i j I IJ IA N; cbn [sift]; [reflexivity|].
  destruct (Nat.leb_spec j n) as [LE|]; [|reflexivity]. cbv zeta.
  set (k := if (Nat.ltb j n && ltb (key v a j) (key v a (j + 1)))%bool then j + 1 else j).
  assert (K : j <= k <= n).
  { unfold k. destruct (Nat.ltb_spec j n); cbn [andb]; [destruct (ltb _ _)|]; lia. }
  destruct (ltb (nth tmp v (ofZ 0)) (key v a k)); [|reflexivity].
  rewrite IH by (rewrite ?length_set_nth; lia).
  destruct (nth_error a (k - 1)) as [y|] eqn:Y.
  2:{ apply nth_error_None in Y. lia. }
  assert (A1 : at1 a k = y) by (unfold at1; now apply nth_error_nth).
  rewrite A1. set (b := set_nth (i - 1) tmp a).
  assert (Bi : nth_error b (i - 1) = Some tmp) by (apply nth_error_set_nth_eq; lia).
  assert (Bk : nth_error b (k - 1) = Some y) by (unfold b; rewrite nth_error_set_nth_neq by lia; exact Y).
  rewrite <- (swap_perm _ b (i - 1) (k - 1) tmp y) by (auto; lia).
  unfold b. rewrite set_nth_twice. reflexivity.
Qed.

Lemma sift_length : forall fuel n tmp a i j, length (sift v fuel n tmp a i j) = length a.
Proof.
  induction fuel as [|fuel IH]; intros; cbn [sift]; [apply length_set_nth|].
  destruct (Nat.leb j n); [|apply length_set_nth]. cbv zeta. destruct (ltb _ _); [|apply length_set_nth].
  rewrite IH. apply length_set_nth.
Qed.

Lemma build_perm : forall n l a, l <= length a -> n <= length a -> Permutation (build v n l a) a.
Proof.
  intros n l. induction l as [|l IH]; intros a L N; cbn [build]; [reflexivity|].
  rewrite IH by (rewrite sift_length; lia). rewrite sift_perm by lia.
  destruct (nth_error a l) as [x|] eqn:X.
  2:{ apply nth_error_None in X. lia. }
  replace (S l - 1) with l by lia. unfold at1. replace (S l - 1) with l by lia.
  rewrite (nth_error_nth _ _ _ X). now rewrite set_nth_same.
Qed.

Lemma extract_perm : forall n a, n <= length a -> Permutation (extract v n a) a.
Proof.
  induction n as [|n IH]; intros a L; [reflexivity|]. destruct n as [|n]; [reflexivity|].
  change (extract v (S (S n)) a) with
    (extract v (S n) (sift v (S (S n)) (S n) (at1 a (S (S n))) (set_nth (S (S n) - 1) (at1 a 1) a) 1 2)).
  rewrite IH by (rewrite sift_length, length_set_nth; lia).
  rewrite sift_perm by (rewrite ?length_set_nth; lia).
  destruct (nth_error a 0) as [x|] eqn:X. 2:{ apply nth_error_None in X. lia. }
  destruct (nth_error a (S n)) as [y|] eqn:Y. 2:{ apply nth_error_None in Y. lia. }
  unfold at1. replace (S (S n) - 1) with (S n) by lia. cbn [Nat.sub].
  rewrite (nth_error_nth _ _ _ X), (nth_error_nth _ _ _ Y).
  apply (swap_perm _ a (S n) 0 y x); auto.
Qed.

End HeapPerm.

Lemma heap_is_argsort : forall AR : Ops, is_argsort (@heap_argsort AR).
Proof.
  intros AR l. unfold heap_argsort, heap_order.
  assert (D : Nat.div2 (length l) <= length l) by (apply Nat.div2_decr; lia).
  rewrite extract_perm.
  - apply build_perm; rewrite seq_length; auto.
  - rewrite (Permutation_length (build_perm l (length l) (Nat.div2 (length l)) (seq 0 (length l))
      ltac:(rewrite seq_length; auto) ltac:(rewrite seq_length; auto))). now rewrite seq_length.
Qed.
