(** Properties C128 and C129: incomplete events in Weichert's analysis (recurrence.py). *)
From Coq Require Import ZArith Reals List String.
From Verif Require Import Base Ops Recurrence IncompleteSpec IncompleteProofs.
Import ListNotations.
Local Open Scope R_scope.

(** C128 as stated is false: without its earliest, incomplete event the time bins start elsewhere
    and a complete event is counted that was not counted before. *)
Theorem C128_incomplete_events_refuted : exists (evs table : list (R * R)) keep d_m d_t c tp no c' tp' no',
  0 < d_m /\ 0 < d_t /\ table <> [] /\ (forall e, In e evs -> whole_tenths e) /\
  (forall e, In e evs -> keep e = false -> incomplete table e) /\
  @weichert_prep ROps (map fst evs) (map snd evs) table d_m d_t = Ok (c, tp, no) /\
  @weichert_prep ROps (map fst (filter keep evs)) (map snd (filter keep evs)) table d_m d_t = Ok (c', tp', no') /\
  nth_error no 0 = Some 0%nat /\ nth_error no' 0 = Some 1%nat.
Proof. exact C128_refuted_proof. Qed.
Print Assumptions C128_incomplete_events_refuted.

(** C128, what holds: leaving out incomplete events does not change the analysis, as long as the
    first and last year and the smallest and largest magnitude stay and the magnitudes are tenths. *)
Theorem C128_incomplete_events_partial : forall fuel (evs : list (R * R)) (table : list (R * R)) keep d_m d_t ref,
  0 < d_m -> 0 < d_t -> table <> [] ->
  (forall e, In e evs -> whole_tenths e) ->
  (forall e, In e evs -> keep e = false -> incomplete table e) ->
  keeps_ends fst keep evs -> keeps_ends snd keep evs ->
  @recurrence_analysis ROps fuel (map fst (filter keep evs)) (map snd (filter keep evs)) table d_m "Weichert" ref d_t =
  @recurrence_analysis ROps fuel (map fst evs) (map snd evs) table d_m "Weichert" ref d_t.
Proof. exact C128_proof. Qed.
Print Assumptions C128_incomplete_events_partial.

(** C129 as stated is false: 4.96 is below 5 but rounds to 5. *)
Theorem C129_incomplete_not_counted_refuted : exists (evs table : list (R * R)) d_m d_t c tp no,
  0 < d_m /\ 0 < d_t /\ table <> [] /\ (forall e, In e evs -> incomplete table e) /\
  @weichert_prep ROps (map fst evs) (map snd evs) table d_m d_t = Ok (c, tp, no) /\ (0 < list_sum no)%nat.
Proof. exact C129_refuted_proof. Qed.
Print Assumptions C129_incomplete_not_counted_refuted.

(** C129, what holds: of magnitudes in tenths at most the complete events are counted. *)
Theorem C129_incomplete_not_counted_partial : forall (evs table : list (R * R)) keep d_m d_t c tp no,
  0 < d_m -> 0 < d_t -> evs <> [] -> table <> [] ->
  (forall e, In e evs -> whole_tenths e) ->
  (forall e, In e evs -> keep e = false -> incomplete table e) ->
  @weichert_prep ROps (map fst evs) (map snd evs) table d_m d_t = Ok (c, tp, no) ->
  (list_sum no <= List.length (filter keep evs))%nat.
Proof. exact C129_partial_proof. Qed.
Print Assumptions C129_incomplete_not_counted_partial.

(** The event of 1972 can be left out of these four. *)
Example C128_C129_case :
  (forall e, In e four -> whole_tenths e) /\
  (forall e, In e four -> not_1972 e = false -> incomplete [(1975, 55/10); (1965, 6)] e) /\
  keeps_ends fst not_1972 four /\ keeps_ends snd not_1972 four /\ filter not_1972 four = [(1970, 5); (1980, 6); (1990, 55/10)].
Proof. exact C128_case_proof. Qed.
