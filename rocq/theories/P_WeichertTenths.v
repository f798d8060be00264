(** Property C123: weichert_prep, recurrence.py:249-312, in binary64 on whole years and magnitudes
    given to one decimal, with bins of 0.1 and of one year. *)
From Coq Require Import ZArith Arith Bool List String Lia.
From Coq Require Import Floats.SpecFloat.
From Verif Require Import Base Ops FloatOps Recurrence Libm Demo TenthSpec WeichertTenths.
Import ListNotations.

(** C123.  Full statement: for magnitudes from 4.0 to 10.0 every event that the completeness rows
    cover (from the row's year on, or from the row's magnitude on) is counted, in the bin of its
    magnitude.  It is false: the events (1960, 4.3) and (1980, 4.0) are both covered by the row
    (1970, 4.3), and one is counted (the edge 4.0 + 3*0.1 is below 4.3 as a double, so the corner
    that is zeroed takes the bin of 4.3 as well), whatever the mathematical library is. *)
Theorem C123_weichert_covered_events_refuted :
  exists (evs rows : list (Z * Z)),
  (forall e, In e evs -> (Z.abs (fst e) <= 1000000)%Z /\ (40 <= snd e <= 100)%Z) /\
  (forall r, In r rows -> (Z.abs (fst r) <= 1000000)%Z /\ (0 <= snd r <= 100)%Z) /\
  covered covers rows evs = 2%nat /\
  forall lm, exists cent tper nobs,
    @weichert_prep (FOps lm) (map (fun e => F_ofZ (fst e)) evs) (map (fun e => F_tenth (snd e)) evs)
      (map (fun r => (F_ofZ (fst r), F_tenth (snd r))) rows) (F_tenth 1) (F_ofZ 1) = Ok (cent, tper, nobs) /\
    list_sum nobs = 1%nat.
Proof.
  exists [(1960, 43); (1980, 40)]%Z, [(1970, 43)]%Z.
  split; [intros e [<-|[<-|[]]]; cbn; lia|]. split; [intros e [<-|[]]; cbn; lia|]. split; [reflexivity|].
  intros lm.
  assert (X : match @weichert_prep (FOps lm) (map (fun e => F_ofZ (fst e)) [(1960, 43); (1980, 40)]%Z)
      (map (fun e => F_tenth (snd e)) [(1960, 43); (1980, 40)]%Z)
      (map (fun r => (F_ofZ (fst r), F_tenth (snd r))) [(1970, 43)]%Z) (F_tenth 1) (F_ofZ 1) with
      | Ok (_, _, nobs) => Some (list_sum nobs) | Err _ => None end = Some 1%nat) by (vm_compute; reflexivity).
  destruct (weichert_prep _ _ _ _ _) as [((cent, tper), nobs)|]; [|discriminate]. exists cent, tper, nobs. split; [reflexivity|]. congruence.
Qed.
Print Assumptions C123_weichert_covered_events_refuted.

(** What remains when the completeness magnitudes are tenths too: no event is counted that the rows
    do not cover, every event covered strictly (from the row's year on, or above its magnitude) is
    counted, and each in the bin of its own magnitude.  Missing: the events exactly at the
    completeness magnitude before the row's year, and magnitudes below 4.0. *)
Theorem C123_weichert_covered_events_partial :
  forall (lm : libm) (evs rows : list (Z * Z)), evs <> [] -> rows <> [] ->
  (forall e, In e evs -> (Z.abs (fst e) <= 1000000)%Z /\ (40 <= snd e <= 100)%Z) ->
  (forall r, In r rows -> (Z.abs (fst r) <= 1000000)%Z /\ (0 <= snd r <= 100)%Z) ->
  exists lo cent tper nobs, smallest lo (map snd evs) /\
    @weichert_prep (FOps lm) (map (fun e => F_ofZ (fst e)) evs) (map (fun e => F_tenth (snd e)) evs)
      (map (fun r => (F_ofZ (fst r), F_tenth (snd r))) rows) (F_tenth 1) (F_ofZ 1) = Ok (cent, tper, nobs) /\
    (forall i n, nth_error nobs i = Some n ->
       (covered_at covers_above rows (lo + Z.of_nat i) evs <= n <= covered_at covers rows (lo + Z.of_nat i) evs)%nat) /\
    (covered covers_above rows evs <= list_sum nobs <= covered covers rows evs)%nat.
Proof. exact C123_tenths_proof. Qed.
Print Assumptions C123_weichert_covered_events_partial.

(** When the completeness magnitudes are half-way between two tenths (cz/10 - 0.05 for the row that
    covers cz/10 and above), the statement holds in full for magnitudes from 4.0. *)
Theorem C123_weichert_covered_events_half_partial :
  forall (lm : libm) (evs rows : list (Z * Z)), evs <> [] -> rows <> [] ->
  (forall e, In e evs -> (Z.abs (fst e) <= 1000000)%Z /\ (40 <= snd e <= 100)%Z) ->
  (forall r, In r rows -> (Z.abs (fst r) <= 1000000)%Z /\ (0 <= snd r <= 100)%Z) ->
  exists lo cent tper nobs, smallest lo (map snd evs) /\
    @weichert_prep (FOps lm) (map (fun e => F_ofZ (fst e)) evs) (map (fun e => F_tenth (snd e)) evs)
      (map (fun r => (F_ofZ (fst r), F_half_below (snd r))) rows) (F_tenth 1) (F_ofZ 1) = Ok (cent, tper, nobs) /\
    (forall i n, nth_error nobs i = Some n -> n = covered_at covers rows (lo + Z.of_nat i) evs) /\
    list_sum nobs = covered covers rows evs.
Proof. exact C123_half_proof. Qed.
Print Assumptions C123_weichert_covered_events_half_partial.

(** Five events and two rows: with 4.25 and 5.05 as completeness magnitudes the four covered events are
    counted; with 4.3 and 5.1 the two at the completeness magnitudes are lost. *)
Example C123_case :
  let evs := [(1960, 51); (1975, 43); (1980, 40); (1950, 44); (1990, 40)]%Z in
  let rows := [(1980, 43); (1970, 51)]%Z in
  (forall e, In e evs -> (Z.abs (fst e) <= 1000000)%Z /\ (40 <= snd e <= 100)%Z) /\
  (forall r, In r rows -> (Z.abs (fst r) <= 1000000)%Z /\ (0 <= snd r <= 100)%Z) /\
  covered covers rows evs = 4%nat /\ covered covers_above rows evs = 2%nat /\
  (exists cent tper nobs,
    @weichert_prep FL (map (fun e => F_ofZ (fst e)) evs) (map (fun e => F_tenth (snd e)) evs)
      (map (fun r => (F_ofZ (fst r), F_half_below (snd r))) rows) (F_tenth 1) (F_ofZ 1) = Ok (cent, tper, nobs) /\
    nobs = [2; 0; 0; 1; 0; 0; 0; 0; 0; 0; 0; 1]%nat) /\
  (exists cent tper nobs,
    @weichert_prep FL (map (fun e => F_ofZ (fst e)) evs) (map (fun e => F_tenth (snd e)) evs)
      (map (fun r => (F_ofZ (fst r), F_tenth (snd r))) rows) (F_tenth 1) (F_ofZ 1) = Ok (cent, tper, nobs) /\
    nobs = [2; 0; 0; 0; 0; 0; 0; 0; 0; 0; 0; 0]%nat).
Proof.
  intros evs rows.
  split; [intros e H; unfold evs in H; cbn [In] in H; repeat (destruct H as [<-|H]; [cbn; lia|]); destruct H|].
  split; [intros e H; unfold rows in H; cbn [In] in H; repeat (destruct H as [<-|H]; [cbn; lia|]); destruct H|].
  split; [reflexivity|]. split; [reflexivity|].
  split; do 3 eexists; split; vm_compute; reflexivity.
Qed.
