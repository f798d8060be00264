(** str(x) is a printable word. *)
From Coq Require Import ZArith Bool Ascii String List Lia.
From Coq Require Import Floats.SpecFloat.
From Verif Require Import Base Ops FloatOps PyStr PyStrProofs PyFloat NrmlSpec NrmlRound.
Import ListNotations.

Definition visible (c : ascii) : Prop := (33 <= nat_of_ascii c <= 126)%nat.

Lemma visible_word : forall s, s <> [] -> Forall visible s -> word s /\ Forall printable s.
Proof.
  intros s N H. split; [split; auto|]; eapply Forall_impl; try exact H; unfold visible, printable.
  - intros c C. unfold is_space. rewrite orb_false_iff, andb_false_iff.
    split; [right; apply Nat.leb_gt; lia|apply Nat.eqb_neq; lia].
  - intros c C. lia.
Qed.

Lemma print_int_visible : forall z, Forall visible (print_int z).
Proof.
  intros z. apply Forall_forall. intros c I. destruct (print_int_chars z c I) as [->|D]; unfold visible; [cbn; lia|lia].
Qed.

Lemma drop_zeros_in : forall s c, In c (drop_zeros s) -> In c s.
Proof.
  induction s as [|x s IH]; intros c I; auto. cbn [drop_zeros] in I. destruct (Ascii.eqb x "0"); [right; auto|exact I].
Qed.

Lemma strip_zeros_visible : forall s, Forall visible s -> Forall visible (strip_zeros s).
Proof.
  intros s H. apply Forall_forall. intros c I. rewrite Forall_forall in H. apply H. unfold strip_zeros in I.
  apply in_rev in I. apply drop_zeros_in in I. now apply in_rev.
Qed.

Lemma repeat_visible : forall c n, visible c -> Forall visible (repeat c n).
Proof. intros c n H. apply Forall_forall. intros x I. now apply repeat_spec in I; subst. Qed.

Lemma first_last_visible : forall n s, Forall visible s -> Forall visible (firstn n s) /\ Forall visible (skipn n s).
Proof. intros n s H. rewrite <- (firstn_skipn n s) in H. now apply Forall_app in H. Qed.

Ltac vis := repeat apply Forall_app; repeat split; auto;
  first [apply repeat_visible; unfold visible; cbn; lia | apply print_int_visible | idtac].

Lemma lit_visible : forall s, forallb (fun c => Nat.leb 33 (nat_of_ascii c) && Nat.leb (nat_of_ascii c) 126) s = true -> Forall visible s.
Proof.
  intros s H. apply Forall_forall. intros c I. rewrite forallb_forall in H. specialize (H c I). apply andb_true_iff in H.
  destruct H as (A & B). apply Nat.leb_le in A, B. unfold visible. lia.
Qed.

Lemma layout_visible : forall lim d k, layout lim d k <> [] /\ Forall visible (layout lim d k).
Proof.
  intros lim d k. unfold layout.
  set (ds := match strip_zeros (print_int d) with [] => t "0" | x => x end).
  assert (V : Forall visible ds).
  { unfold ds. destruct (strip_zeros (print_int d)) eqn:E; [now apply lit_visible|]. rewrite <- E. apply strip_zeros_visible, print_int_visible. }
  assert (N : ds <> []) by (unfold ds; destruct (strip_zeros (print_int d)); discriminate).
  clearbody ds.
  destruct ((-4 <=? k)%Z && (k <? lim)%Z).
  - destruct (k <? 0)%Z.
    + split; [discriminate|]. apply Forall_app. split; [now apply lit_visible|]. apply Forall_app. split; auto.
      apply repeat_visible. unfold visible. cbn. lia.
    + destruct (Z.of_nat (length ds) <=? k + 1)%Z.
      * split; [destruct ds; [contradiction|discriminate]|]. apply Forall_app. split; auto. apply Forall_app. split; [|now apply lit_visible].
        apply repeat_visible. unfold visible. cbn. lia.
      * destruct (first_last_visible (Z.to_nat (k + 1)) ds V) as (A & B). split.
        -- intros E. apply app_eq_nil in E. destruct E as (_ & E). discriminate.
        -- apply Forall_app. split; auto. apply Forall_app. split; auto. now apply lit_visible.
  - destruct ds as [|c r]; [contradiction|]. split; [discriminate|]. inversion V as [|? ? C R]; subst.
    constructor; auto. apply Forall_app. split.
    + destruct r; [constructor|]. constructor; [unfold visible; cbn; lia|auto].
    + apply Forall_app. split; [now apply lit_visible|]. apply Forall_app. split; [destruct (k <? 0)%Z; now apply lit_visible|].
      unfold pad_left. apply Forall_app. split; [apply repeat_visible; unfold visible; cbn; lia|apply print_int_visible].
Qed.

Lemma format_visible : forall n lim x, format_g n lim x <> [] /\ Forall visible (format_g n lim x).
Proof.
  intros n lim [[]|[]| |s m e]; try (split; [discriminate|now apply lit_visible]).
  unfold format_g. destruct (sig_digits n m e) as (d, k). destruct (layout_visible lim d k) as (A & B). split.
  - destruct s; [discriminate|exact A].
  - apply Forall_app. split; auto. destruct s; [now apply lit_visible|constructor].
Qed.

Lemma py_str_word : forall x, word (py_str x) /\ Forall printable (py_str x).
Proof. intros x. destruct (format_visible 12 12 x). now apply visible_word. Qed.

Lemma py_repr_visible : forall x, py_repr x <> [] /\ Forall visible (py_repr x).
Proof.
  intros x. unfold py_repr. generalize 16%nat 1%Z. intros n. induction n as [|n IH]; intros d; cbn [repr_from].
  - apply format_visible.
  - destruct (same_float _ _); [apply format_visible|apply IH].
Qed.
