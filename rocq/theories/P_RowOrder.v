(** C116: the order of the rows of a completeness table. *)
From Coq Require Import Reals ZArith Bool Lia Lra String List Permutation.
From Verif Require Import Base Ops RFacts Completeness Recurrence Demo RowOrder RowCases P_Recurrence.
From Coq Require Import List.
Import ListNotations.
Local Open Scope R_scope.

(** C116, full statement: writing the rows of the completeness table in another order changes no result.  It is
    false for Weichert's method, whose observation time is that of the last row not above the magnitude bin:
    with two rows swapped the b-value of eight events drops by more than 0.15 (0.764 and 0.569). *)
Theorem C116_row_order_refuted : exists (year mag : list (@T FL)) tab tab' fuel window ref twin b sb a sa b' sb' a' sa',
  Permutation tab tab' /\
  @recurrence_analysis FL fuel year mag tab window "Weichert" ref twin = Ok (b, sb, a, sa) /\
  @recurrence_analysis FL fuel year mag tab' window "Weichert" ref twin = Ok (b', sb', a', sa') /\
  @ltb FL (@add FL b' (fl "0.15")) b = true.
Proof. exact C116_refuted_proof. Qed.
Print Assumptions C116_row_order_refuted.

(** The selection of complete events depends on the set of rows only: order and repetitions do not matter, and
    two tables applied one after the other select what their rows together select.  Every arithmetic. *)
Theorem C116_selection_partial : forall {AR : Ops} (year mw : list T) (tab tab' : list (T * T)) flags,
  length mw = length year ->
  ((forall r, In r tab <-> In r tab') ->
     selected_eq_flag_vector year mw tab flags = selected_eq_flag_vector year mw tab' flags) /\
  (forall v, length flags = length year -> selected_eq_flag_vector year mw tab flags = Ok v ->
     selected_eq_flag_vector year mw tab' v = selected_eq_flag_vector year mw (tab ++ tab') flags).
Proof. exact (fun AR year mw tab tab' flags L => conj (C116_selection_proof year mw tab tab' flags L) (fun v F => C116_union_proof year mw tab tab' flags v L F)). Qed.
Print Assumptions C116_selection_partial.

(** Weichert's bins and counts do not depend on the order, so a difference can only come from the observation
    times.  Every arithmetic. *)
Theorem C116_weichert_counts_partial : forall {AR : Ops} (year mag : list T) (tab tab' : list (T * T)) d_m d_t cent tper nobs,
  Permutation tab tab' -> weichert_prep year mag tab d_m d_t = Ok (cent, tper, nobs) ->
  exists tper', weichert_prep year mag tab' d_m d_t = Ok (cent, tper', nobs) /\ length tper' = length tper.
Proof. exact @C116_counts_proof. Qed.
Print Assumptions C116_weichert_counts_partial.

(** Maximum likelihood: the order does not matter as long as the rows of a year are adjacent in both tables. *)
Theorem C116_maxlike_partial : forall fuel (year mag : list R) (tab tab' : list (R * R)) window alg ref twin r,
  alg <> "Weichert"%string -> Permutation tab tab' ->
  (forall t, t = tab \/ t = tab' ->
     (forall y y', In y (map fst t) -> In y' (map fst t) -> Rabs (y - y') < 1 / 100000 -> y = y') /\
     (forall i j k x y, (i < j < k)%nat -> nth_error (map fst t) i = Some x -> nth_error (map fst t) j = Some y ->
        nth_error (map fst t) k = Some x -> y = x)) ->
  @recurrence_analysis ROps fuel year mag tab window alg ref twin = Ok r ->
  @recurrence_analysis ROps fuel year mag tab' window alg ref twin = Ok r.
Proof. exact C116_recurrence_proof. Qed.
Print Assumptions C116_maxlike_partial.

Example C116_case : exists r,
  @recurrence_analysis ROps 0 [1995; 1985; 1992] [4; 5; 55/10] [(1990, 4); (1990, 5); (1980, 5)] (1/10) "MLE" 5 1 = Ok r /\
  @recurrence_analysis ROps 0 [1995; 1985; 1992] [4; 5; 55/10] [(1980, 5); (1990, 5); (1990, 4)] (1/10) "MLE" 5 1 = Ok r.
Proof.
  destruct (proj2 C37_case) as (r & E). exists r. split; [exact E|]. revert E.
  apply (C116_maxlike_partial 0 [1995; 1985; 1992] [4; 5; 55/10] [(1990, 4); (1990, 5); (1980, 5)] [(1980, 5); (1990, 5); (1990, 4)] (1/10) "MLE" 5 1);
    [discriminate|apply (Permutation_rev [(1990, 4); (1990, 5); (1980, 5)])|].
  intros t [-> | ->]; cbn [map fst];
    (split;
    [intros y y' [<-|[<-|[<-|[]]]] [<-|[<-|[<-|[]]]] H; auto; exfalso; revert H; unfold Rabs; destruct (Rcase_abs _); lra
    |intros i j k x y L I J K; destruct k as [|[|[|k]]]; try lia; [destruct j as [|[|j]]; try lia; destruct i as [|i]; try lia; cbn in I, J, K; congruence|destruct k; discriminate]]).
Qed.
