(** C119, C120: the cumulative-moment estimate of the maximum magnitude. *)
From Coq Require Import Reals ZArith Bool String Arith Lia Lra List Permutation SpecFloat.
From Verif Require Import Base Ops RFacts FloatOps Libm PyFloat MaxMag MomentSpec MomentProofs CopiesSpec CumBounds CumW Demo.
From Coq Require Import List.
Import ListNotations.
Local Open Scope R_scope.

(** C119, full statement: the estimate is not below the magnitude of an event of the catalogue.
    It is false in binary64: events of 7, 6.9 and 7 in three years give an estimate below 6.6,
    and one M7 in each of two years gives minus infinity. *)
Theorem C119_cumulative_below_observed_refuted :
  (exists (year mag : list (@T FL)) v m, @cumulative_moment FL year mag = Ok v /\ In m mag /\
     @ltb FL v (fl "6.6") = true /\ @ltb FL (fl "6.6") m = true) /\
  (exists (year mag : list (@T FL)) v m, @cumulative_moment FL year mag = Ok v /\ In m mag /\
     v = S754_infinity true /\ @ltb FL v m = true).
Proof. exact C119_refuted_proof. Qed.
Print Assumptions C119_cumulative_below_observed_refuted.

(** What holds, over the reals, unless the release is uniform: the moment of the estimate is at least
    the moment of every event less the mean yearly moment, and at most the moment of all events.
    Missing: the mean yearly moment (refuted above). *)
Theorem C119_cumulative_bounds_partial : forall (zs : list Z) (mag : list R) first last v y,
  length zs = length mag ->
  In first zs -> In last zs -> (forall z, In z zs -> (first <= z <= last)%Z) ->
  (first <= y <= last)%Z -> excess (combine zs mag) first last y <> 0 ->
  @cumulative_moment ROps (map IZR zs) mag = Ok v ->
  seismic_moment v <= Rsum (map seismic_moment mag) /\
  forall m, In m mag ->
    seismic_moment m - Rsum (map seismic_moment mag) / IZR (last - first + 1) <= seismic_moment v.
Proof. exact C119_partial_proof. Qed.
Print Assumptions C119_cumulative_bounds_partial.

(** C120.  Every event listed n times, in any order: the estimate rises by 2/3 of the logarithm of n. *)
Theorem C120_counting_events_again : forall n (evs evs' : list (Z * R)) first last v y, (0 < n)%nat ->
  Permutation evs' (copies n evs) ->
  In first (map fst evs) -> In last (map fst evs) -> (forall z, In z (map fst evs) -> (first <= z <= last)%Z) ->
  (first <= y <= last)%Z -> excess evs first last y <> 0 ->
  @cumulative_moment ROps (map IZR (map fst evs)) (map snd evs) = Ok v ->
  @cumulative_moment ROps (map IZR (map fst evs')) (map snd evs') = Ok (v + 2 / 3 * (ln (INR n) / ln 10)).
Proof. exact C120_copies_proof. Qed.
Print Assumptions C120_counting_events_again.

(** C120.  Years counted backwards from any year c: the same result or the same error. *)
Theorem C120_reversed_time : forall c (evs : list (Z * R)),
  @cumulative_moment ROps (map IZR (map (fun e => (c - fst e)%Z) evs)) (map snd evs)
  = @cumulative_moment ROps (map IZR (map fst evs)) (map snd evs).
Proof. exact C120_reversed_proof. Qed.
Print Assumptions C120_reversed_time.

(** Events of 5, 6 and 5 in 2000, 2001 and 2003: the hypotheses hold, so the estimate is at most the
    magnitude of the three together, at least that of three quarters of the M6 less half an M5, and rises by
    2/3 log10 2 when each event is counted twice. *)
Example C119_C120_case : exists v,
  @cumulative_moment ROps (map IZR [2000; 2001; 2003]%Z) [5; 6; 5] = Ok v /\
  seismic_moment v <= 2 * seismic_moment 5 + seismic_moment 6 /\
  3 / 4 * seismic_moment 6 - 1 / 2 * seismic_moment 5 <= seismic_moment v /\
  @cumulative_moment ROps (map IZR [2003; 2001; 2000; 2000; 2001; 2003]%Z) [5; 6; 5; 5; 6; 5]
  = Ok (v + 2 / 3 * (ln 2 / ln 10)) /\
  @cumulative_moment ROps (map IZR [2003; 2002; 2000]%Z) [5; 6; 5] = Ok v.
Proof.
  destruct (C49_proof [2000; 2001; 2003]%Z [5; 6; 5] 2000 2003) as (hi & lo & _ & _ & _ & E); simpl; auto.
  { intros z [<-|[<-|[<-|[]]]]; lia. }
  assert (NZ : excess [(2000%Z, 5); (2001%Z, 6); (2003%Z, 5)] 2000 2003 2001 <> 0).
  { unfold excess, released. cbn [filter fst snd]. cbn [Z.leb Z.compare Pos.compare Pos.compare_cont map Rsum snd].
    replace (IZR (2001 - 2000 + 1)) with 2 by reflexivity. replace (IZR (2003 - 2000 + 1)) with 4 by reflexivity.
    assert (P1 := moment_pos 5). assert (P2 : seismic_moment 5 < seismic_moment 6).
    { unfold seismic_moment. apply Rpower_lt; lra. } lra. }
  assert (B : forall z, In z [2000; 2001; 2003]%Z -> (2000 <= z <= 2003)%Z).
  { intros z [<-|[<-|[<-|[]]]]; lia. }
  eexists. split; [exact E|].
  destruct (C119_cumulative_bounds_partial [2000; 2001; 2003]%Z [5; 6; 5] 2000 2003 _ 2001%Z eq_refl
              (or_introl eq_refl) (or_intror (or_intror (or_introl eq_refl))) B ltac:(lia) NZ E) as [U D].
  specialize (D 6 (or_intror (or_introl eq_refl))).
  replace (IZR (2003 - 2000 + 1)) with 4 in D by reflexivity. cbn [map Rsum] in U, D.
  split; [lra|]. split; [lra|]. split.
  - exact (C120_counting_events_again 2 [(2000%Z, 5); (2001%Z, 6); (2003%Z, 5)]
      [(2003%Z, 5); (2001%Z, 6); (2000%Z, 5); (2000%Z, 5); (2001%Z, 6); (2003%Z, 5)] 2000 2003 _ 2001 ltac:(lia)
      (Permutation_app_tail _ (Permutation_rev [(2003%Z, 5); (2001%Z, 6); (2000%Z, 5)]))
      (or_introl eq_refl) (or_intror (or_intror (or_introl eq_refl))) B ltac:(lia) NZ E).
  - rewrite <- E. exact (C120_reversed_time 4003 [(2000%Z, 5); (2001%Z, 6); (2003%Z, 5)]).
Qed.
