(** Properties C110-C111: how the recurrence follows the number and the scale of the events. *)
From Coq Require Import Reals ZArith Bool Arith Lia Lra String List Permutation.
From Verif Require Import Base Ops RFacts Recurrence RecurrenceSpec RecurrenceMore CopiesSpec CopiesProofs ShiftSpec ShiftProofs.
Import ListNotations.
Local Open Scope R_scope.

(** C110.  Every event listed n times, in any order: the analysis fails in the same cases with the
    same error; otherwise b is the same and the rate is n times as large.  Weichert's error of b
    shrinks by the square root of n exactly; the error of maximum likelihood shrinks at least as
    much. *)
Theorem C110_counting_events_again : forall n fuel (evs evs' tab : list (R * R)) window alg ref twin,
  (0 < n)%nat -> Permutation evs' (copies n evs) ->
  let run l := @recurrence_analysis ROps fuel (map fst l) (map snd l) tab window alg ref twin in
  (forall e, run evs' = Err e <-> run evs = Err e) /\
  (forall b sb a sa, run evs = Ok (b, sb, a, sa) ->
     exists sb' sa', run evs' = Ok (b, sb', INR n * a, sa') /\
       (alg = "Weichert"%string -> sb' = sb / sqrt (INR n) /\ sa' = sqrt (INR n) * sa) /\
       (alg <> "Weichert"%string -> sb' <= sb / sqrt (INR n))).
Proof. exact C110_proof. Qed.
Print Assumptions C110_counting_events_again.

(** Three events, each listed twice. *)
Example C110_case :
  Permutation [(1999, 6); (1995, 5); (1990, 5); (1999, 6); (1995, 5); (1990, 5)] (copies 2 [(1990, 5); (1995, 5); (1999, 6)]) /\
  exists b sb a sa sb' sa',
    @recurrence_analysis ROps 0 [1990; 1995; 1999] [5; 5; 6] [(1980, 4)] (1/10) "MLE" 4 1 = Ok (b, sb, a, sa) /\
    @recurrence_analysis ROps 0 [1999; 1995; 1990; 1999; 1995; 1990] [6; 5; 5; 6; 5; 5] [(1980, 4)] (1/10) "MLE" 4 1
    = Ok (b, sb', 2 * a, sa').
Proof.
  assert (P : Permutation [(1999, 6); (1995, 5); (1990, 5); (1999, 6); (1995, 5); (1990, 5)] (copies 2 [(1990, 5); (1995, 5); (1999, 6)]))
    by (apply Permutation_sym; exact (Permutation_rev (copies 2 [(1990, 5); (1995, 5); (1999, 6)]))).
  split; [exact P|]. destruct (w90_ok 4) as [[[[b sb] a] sa] E].
  destruct (proj2 (C110_counting_events_again 2 0 [(1990, 5); (1995, 5); (1999, 6)] _ [(1980, 4)] (1/10) "MLE" 4 1 ltac:(lia) P)
    b sb a sa E) as (sb' & sa' & H & _).
  exists b, sb, a, sa, sb', sa'. split; [exact E|]. exact H.
Qed.

(** C111.  Add the same number to every event magnitude, every completeness magnitude and the
    reference magnitude.  The whole statement would be that nothing changes, for any number.
    Both methods round magnitudes to tenths, so the number has to be a multiple of 0.1.
    Maximum likelihood: b, its error and the rate are unchanged, provided every completeness row has
    an event at least half a window above it.  The error of the rate is the part that is missing:
    it changes (refuted below). *)
Theorem C111_magnitude_scale_mle_partial : forall fuel (evs tab : list (R * R)) (window : R) alg (ref twin : R) z,
  0 < window -> alg <> "Weichert"%string ->
  (forall cy cm, In (cy, cm) tab -> exists y m, In (y, m) evs /\ cy <= y /\ cm + window / 2 <= m) ->
  let run evs tab ref := @recurrence_analysis ROps fuel (map fst evs) (map snd evs) tab window alg ref twin in
  let c := IZR z / 10 in
  forall b sb a,
    (exists sa, run (raised c evs) (raised c tab) (ref + c) = Ok (b, sb, a, sa)) <-> (exists sa, run evs tab ref = Ok (b, sb, a, sa)).
Proof. exact C111_mle_proof. Qed.
Print Assumptions C111_magnitude_scale_mle_partial.

(** The same three events one magnitude unit higher: the error of the rate grows. *)
Theorem C111_magnitude_scale_error_refuted : exists (evs tab : list (R * R)) (window : R) alg (ref twin : R) z b sb a sa sa',
  0 < window /\ alg <> "Weichert"%string /\
  (forall cy cm, In (cy, cm) tab -> exists y m, In (y, m) evs /\ cy <= y /\ cm + window / 2 <= m) /\
  let run evs tab ref := @recurrence_analysis ROps 0 (map fst evs) (map snd evs) tab window alg ref twin in
  let c := IZR z / 10 in
  run evs tab ref = Ok (b, sb, a, sa) /\ run (raised c evs) (raised c tab) (ref + c) = Ok (b, sb, a, sa') /\ sa < sa'.
Proof. exact C111_mle_refuted_proof. Qed.
Print Assumptions C111_magnitude_scale_error_refuted.

(** Weichert: all four numbers, or the error, are unchanged, provided no completeness row starts
    after the last event and neither reference magnitude is 0, which the code reads as "none
    given".  Halves of a tenth are rounded to the even tenth, so with such magnitudes the number
    has to be a multiple of 0.2. *)
Theorem C111_magnitude_scale_weichert : forall fuel (evs tab : list (R * R)) (window ref twin : R) z,
  (forall cy cm, In (cy, cm) tab -> exists y m, In (y, m) evs /\ cy <= y) ->
  let c := IZR z / 10 in
  Z.even z = true \/ (forall y m, In (y, m) evs -> forall k, 10 * m <> IZR k + 1 / 2) -> ref <> 0 -> ref + c <> 0 ->
  let run evs tab ref := @recurrence_analysis ROps fuel (map fst evs) (map snd evs) tab window "Weichert" ref twin in
  run (raised c evs) (raised c tab) (ref + c) = run evs tab ref.
Proof. exact C111_weichert_proof. Qed.
Print Assumptions C111_magnitude_scale_weichert.

Example C111_case :
  raised (10 / 10) [(1990, 5); (1999, 6)] = [(1990, 5 + 10 / 10); (1999, 6 + 10 / 10)] /\
  (forall y m, In (y, m) [(1990, 5); (1999, 6)] -> forall k, 10 * m <> IZR k + 1 / 2) /\
  forall fuel, @recurrence_analysis ROps fuel [1990; 1999] [5 + 10 / 10; 6 + 10 / 10] [(1980, 4 + 10 / 10)] (1/10) "Weichert" (5 + 10 / 10) 1
             = @recurrence_analysis ROps fuel [1990; 1999] [5; 6] [(1980, 4)] (1/10) "Weichert" 5 1.
Proof.
  assert (N : forall y m, In (y, m) [(1990, 5); (1999, 6)] -> forall k, 10 * m <> IZR k + 1 / 2).
  { intros y m I k E.
    assert (Q : exists j, 10 * m = IZR j) by (destruct I as [I|[I|[]]]; injection I as <- <-; [exists 50%Z|exists 60%Z]; lra).
    destruct Q as (j & Q). rewrite Q in E. assert (H : IZR (2 * j) = IZR (2 * k + 1)) by (rewrite plus_IZR, !mult_IZR; lra).
    apply eq_IZR in H. lia. }
  split; [reflexivity|]. split; [exact N|]. intros fuel.
  apply (C111_magnitude_scale_weichert fuel [(1990, 5); (1999, 6)] [(1980, 4)] (1/10) 5 1 10); [|right; exact N|lra|lra].
  intros cy cm [I|[]]. injection I as <- <-. exists 1990, 5. split; [now left|lra].
Qed.
