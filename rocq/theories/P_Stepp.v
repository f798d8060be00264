(** Properties C30-C34: stepp_analysis, completeness.py:34-143. *)
From Coq Require Import ZArith Arith Bool List Lia Reals Lra Permutation.
From Verif Require Import Base Ops BaseFacts RFacts Completeness SteppSpec SteppProofs.
Import ListNotations.
Local Open Scope R_scope.

(** C30.  The outcome for every non-empty catalogue: with no bin the empty table; with
    bins but no duration an exception; otherwise one row per bin, at the bin's lower edge,
    whose year is the last year minus a tested duration. *)
Theorem C30_stepp_table_shape : forall (year mw : list R) (dm dt ttol : R) (iloc : bool),
  0 < dm -> 0 < dt -> year <> [] -> mw <> [] ->
  exists rm lowm endt n nt,
    stepp_grid year mw dm dt rm lowm endt n nt /\
    (n = 0%nat -> @stepp_analysis ROps year mw dm dt ttol iloc = Ok []) /\
    ((0 < n)%nat -> nt = 0%nat ->
       @stepp_analysis ROps year mw dm dt ttol iloc = Err IndexError) /\
    ((0 < n)%nat -> (0 < nt)%nat ->
       exists tab, @stepp_analysis ROps year mw dm dt ttol iloc = Ok tab /\
         length tab = n /\
         forall k, (k < n)%nat -> exists i, (i < nt)%nat /\
           nth_error tab k = Some (endt - INR (i + 1) * dt, lowm + INR k * dm)).
Proof. exact C30_proof. Qed.
Print Assumptions C30_stepp_table_shape.

Theorem C30_stepp_empty_catalogue : forall (AR : Ops) (dm dt ttol : T) (iloc : bool),
  stepp_analysis [] [] dm dt ttol iloc = Err ValueError.
Proof. reflexivity. Qed.
Print Assumptions C30_stepp_empty_catalogue.

(** Eight events, two bins, four durations. *)
Example C30_case :
  stepp_grid w_year w_mw (1/10) 1 w_mw 4 2000 2 4 /\
  @stepp_analysis ROps w_year w_mw (1/10) 1 (2/10) false = Ok [(1998, 4); (1998, 41/10)].
Proof. split. exact w_grid. exact w_table. Qed.

(** C31.  Which duration each bin gets: the last one followed by a slope change above the
    tolerance (other than the very first), else the previous bin's (the first duration for
    the first bin); with the increment lock never a shorter one than the previous bin's. *)
Theorem C31_stepp_duration_chosen : forall (year mw : list R) (dm dt ttol : R) (iloc : bool) tab,
  0 < dm -> 0 < dt -> year <> [] -> mw <> [] ->
  @stepp_analysis ROps year mw dm dt ttol iloc = Ok tab ->
  exists rm lowm endt n nt (pos : nat -> nat),
    stepp_grid year mw dm dt rm lowm endt n nt /\ length tab = n /\
    forall k, (k < n)%nat ->
      (pos k < nt)%nat /\
      nth_error tab k = Some (endt - INR (pos k + 1) * dt, lowm + INR k * dm) /\
      let ev := combine year rm in
      let prev := match k with 0 => 0 | S k' => pos k' end%nat in
      (forall p, (0 < p)%nat -> last_violation ev lowm dm dt endt ttol n nt k p ->
         pos k = if iloc then Nat.max prev p else p) /\
      ((forall p, (0 < p)%nat -> ~ violates ev lowm dm dt endt ttol n nt k p) ->
         pos k = prev).
Proof. exact C31_proof. Qed.
Print Assumptions C31_stepp_duration_chosen.

(** With the lock, larger magnitudes never get a later completeness year. *)
Theorem C31_stepp_lock_monotone :
  forall (year mw : list R) (dm dt ttol : R) tab i j yi mi yj mj,
  0 < dm -> 0 < dt ->
  @stepp_analysis ROps year mw dm dt ttol true = Ok tab ->
  (i < j)%nat -> nth_error tab i = Some (yi, mi) -> nth_error tab j = Some (yj, mj) ->
  mi < mj /\ yj <= yi.
Proof. exact stepp_lock_proof. Qed.
Print Assumptions C31_stepp_lock_monotone.

(** Both branches of C31 occur: bin 0 has its last violation at duration number 1, bin 1 has
    none after number 0 and inherits. *)
Example C31_case :
  @stepp_analysis ROps w_year w_mw (1/10) 1 (2/10) false = Ok [(1998, 4); (1998, 41/10)] /\
  last_violation (combine w_year w_mw) 4 (1/10) 1 2000 (2/10) 2 4 0 1 /\
  (forall p, (0 < p)%nat ->
     ~ violates (combine w_year w_mw) 4 (1/10) 1 2000 (2/10) 2 4 1 p).
Proof.
  split. exact w_table. split.
  - split. exact w_viol0. intros q (H & _). lia.
  - intros p Hp V. assert (p = 1%nat) by (destruct V; lia). subst.
    exact (proj2 w_viol1 V).
Qed.

(** C32.  For each duration the counts of the bins add up to the events of the period. *)
Theorem C32_stepp_counts_every_event_once : forall (year mw : list R) (dm dt t : R),
  0 < dm -> 0 < dt -> year <> [] -> length mw = length year ->
  exists mbin endt,
    @stepp_mbin ROps (map (@round2 ROps) mw) dm = Ok mbin /\ is_max endt year /\
    ((1 < length mbin)%nat ->
     nsum (map (@stepp_count ROps year (map (@round2 ROps) mw) endt mbin t)
               (seq 0 (length mbin - 1)))
     = count (fun y => Rleb (endt - t) y) year).
Proof. exact C32_proof. Qed.
Print Assumptions C32_stepp_counts_every_event_once.

Example C32_case :
  lt 1 (length (@arange ROps 4 (42/10 + 1/10) (1/10))) /\
  count (fun y => Rleb (2000 - 2) y) w_year = 5%nat.
Proof.
  split. rewrite arange_length, w_len1. lia.
  unfold count, w_year. cbn [filter]. rdec. reflexivity.
Qed.

(** C33. *)
Theorem C33_stepp_ignores_event_order :
  forall (year mw year' mw' : list R) (dm dt ttol : R) (iloc : bool),
  length mw = length year -> length mw' = length year' ->
  Permutation (combine year mw) (combine year' mw') ->
  @stepp_analysis ROps year mw dm dt ttol iloc = @stepp_analysis ROps year' mw' dm dt ttol iloc.
Proof. exact C33_proof. Qed.
Print Assumptions C33_stepp_ignores_event_order.

Example C33_case :
  Permutation (combine w_year w_mw) (combine (rev w_year) (rev w_mw)) /\
  combine w_year w_mw <> combine (rev w_year) (rev w_mw).
Proof.
  split.
  - unfold w_year, w_mw. simpl. apply (Permutation_rev [_; _; _; _; _; _; _; _]).
  - unfold w_year, w_mw. simpl. intros E. injection E. intros. lra.
Qed.

(** C34 is false: a violation at the first duration only is ignored and the bin inherits the
    previous bin's duration. *)
Theorem C34_last_violating_duration_refuted :
  exists (year mw : list R) (dm dt ttol : R) tab rm lowm endt n nt k p,
    0 < dm /\ 0 < dt /\
    @stepp_analysis ROps year mw dm dt ttol false = Ok tab /\
    stepp_grid year mw dm dt rm lowm endt n nt /\ (k < n)%nat /\
    last_violation (combine year rm) lowm dm dt endt ttol n nt k p /\
    nth_error tab k <> Some (endt - INR (p + 1) * dt, lowm + INR k * dm).
Proof. exact C34_refuted_proof. Qed.
Print Assumptions C34_last_violating_duration_refuted.

(** What does hold, without the lock.  Missing: p = 0. *)
Theorem C34_last_violating_duration_partial : forall (year mw : list R) (dm dt ttol : R) tab,
  0 < dm -> 0 < dt -> year <> [] -> mw <> [] ->
  @stepp_analysis ROps year mw dm dt ttol false = Ok tab ->
  exists rm lowm endt n nt,
    stepp_grid year mw dm dt rm lowm endt n nt /\ length tab = n /\
    forall k p, (k < n)%nat -> (0 < p)%nat ->
      last_violation (combine year rm) lowm dm dt endt ttol n nt k p ->
      nth_error tab k = Some (endt - INR (p + 1) * dt, lowm + INR k * dm).
Proof. exact C34_partial_proof. Qed.
Print Assumptions C34_last_violating_duration_partial.
