(** Mean and standard deviation of a sample of estimates (C126), written from textbooks. *)
From Coq Require Import Arith List Reals.
Import ListNotations.
Local Open Scope R_scope.

Fixpoint total (l : list R) : R := match l with [] => 0 | x :: l' => x + total l' end.

(** m is the arithmetic mean of l. *)
Definition mean_of (l : list R) (m : R) : Prop := m * INR (length l) = total l.

(** s is the standard deviation of the sample l: with n elements, (n - 1) s^2 is the sum of the
    squared distances to the mean. *)
Definition deviation_of (l : list R) (s : R) : Prop :=
  0 <= s /\ exists m, mean_of l m /\ s * s * INR (length l - 1) = total (map (fun x => (x - m) * (x - m)) l).

(** The magnitudes disturbed by the draws z: m_i + s_i z_i. *)
Definition disturbed (mag sigma z out : list R) : Prop :=
  length out = length mag /\
  forall i, (i < length mag)%nat -> nth i out 0 = nth i mag 0 + nth i sigma 0 * nth i z 0.
