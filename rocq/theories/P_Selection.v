(** Properties C12-C14: the selection vector of completeness.py:146-184. *)
From Coq Require Import ZArith Arith Bool List Lia Reals Lra Sorted.
From Verif Require Import Base Ops BaseFacts RFacts Completeness CompletenessProofs.
Import ListNotations.

(** C12, for every interpretation of the arithmetic (hence for binary64 with NaN).
    An event is kept (0) exactly when its flag is 0 and it is not both older and smaller
    than some completeness row; there is one 0/1 entry per event. *)
Theorem C12_selection_vector_meaning :
  forall (AR : Ops) (year mw : list T) (table : list (T * T)) (flags : list Z),
  length mw = length year -> length flags = length year ->
  exists v, selected_eq_flag_vector year mw table flags = Ok v
    /\ length v = length year
    /\ (forall k, k < length year -> nth_error v k = Some 0%Z \/ nth_error v k = Some 1%Z)
    /\ forall k y m f, nth_error year k = Some y -> nth_error mw k = Some m ->
         nth_error flags k = Some f ->
         (nth_error v k = Some 0%Z <->
            f = 0%Z /\ forall cy cm, In (cy, cm) table -> ltb y cy = true -> ltb m cm = false).
Proof. exact (@C12_proof). Qed.
Print Assumptions C12_selection_vector_meaning.

(** Four events, one flagged, one outside the completeness of the second row. *)
Example C12_case :
  @selected_eq_flag_vector ROps [1960; 1980; 1990; 1950]%R [5; 4; 6; 7]%R
     [(1970, 4.5); (1955, 5.5)]%R [0; 0; -1; 0]%Z = Ok [0; 0; 1; 0]%Z.
Proof.
  unfold selected_eq_flag_vector, completeness_flag. simpl. rdec. simpl. reflexivity.
Qed.

(** C13: with magnitudes increasing and years not increasing down the table, an event that
    is removed although it was not flagged is older than every row whose magnitude it
    reaches. *)
Theorem C13_removed_events_are_incomplete :
  forall (year mw : list R) (table : list (R * R)) (flags v : list Z) k y m,
  StronglySorted (fun a b => (snd a < snd b)%R /\ (fst b <= fst a)%R) table ->
  length mw = length year -> length flags = length year ->
  @selected_eq_flag_vector ROps year mw table flags = Ok v ->
  nth_error year k = Some y -> nth_error mw k = Some m ->
  nth_error flags k = Some 0%Z -> nth_error v k <> Some 0%Z ->
  forall cy cm, In (cy, cm) table -> (cm <= m)%R -> (y < cy)%R.
Proof. exact C13_proof. Qed.
Print Assumptions C13_removed_events_are_incomplete.

(** A removed, unflagged event that does reach the magnitude of a row. *)
Example C13_case :
  StronglySorted (fun a b => (snd a < snd b)%R /\ (fst b <= fst a)%R)
    [(1990, 4); (1970, 5)]%R /\
  @selected_eq_flag_vector ROps [1960; 1980]%R [4.5; 4.5]%R [(1990, 4); (1970, 5)]%R
     [0; 0]%Z = Ok [1; 0]%Z.
Proof.
  split.
  - repeat constructor; simpl; lra.
  - unfold selected_eq_flag_vector, completeness_flag. simpl. rdec. simpl. reflexivity.
Qed.

(** C14 is false: an event smaller than every magnitude of the table but recent enough is
    kept although no row makes its magnitude complete. *)
Theorem C14_kept_events_are_complete_refuted :
  exists (year mw : list R) (table : list (R * R)) (flags : list Z) y m,
    StronglySorted (fun a b => (snd a < snd b)%R /\ (fst b <= fst a)%R) table /\
    @selected_eq_flag_vector ROps year mw table flags = Ok [0%Z] /\
    nth_error year 0 = Some y /\ nth_error mw 0 = Some m /\
    ~ exists cy cm, In (cy, cm) table /\ (cm <= m)%R /\ (cy <= y)%R.
Proof. exact C14_refuted_proof. Qed.
Print Assumptions C14_kept_events_are_complete_refuted.

(** What does hold.  Missing compared with C14: a row that the event satisfies in both year
    and magnitude. *)
Theorem C14_kept_events_are_complete_partial :
  forall (year mw : list R) (table : list (R * R)) (flags v : list Z) k y m,
  length mw = length year -> length flags = length year ->
  @selected_eq_flag_vector ROps year mw table flags = Ok v ->
  nth_error year k = Some y -> nth_error mw k = Some m -> nth_error v k = Some 0%Z ->
  forall cy cm, In (cy, cm) table -> (cy <= y)%R \/ (cm <= m)%R.
Proof. exact C14_partial_proof. Qed.
Print Assumptions C14_kept_events_are_complete_partial.
