(** What a row of the event matrix is, written from the column names of the catalogue format
    and mtoolkit/jobs.py:36-37, without the reader or the matrix job. *)
From Coq Require Import ZArith Bool Ascii String List.
From Verif Require Import Base Ops CatUtil PyStr EqCatSpec World.
Local Open Scope string_scope.

Section MatrixSpec.
Context {AR : Ops}.
Variable W : world AR.

(** The event that a 25-column catalogue record stands for. *)
Definition record_event (row : list text) (ev : event AR) : Prop :=
  let num := w_parse_float W in
  (exists z, parse_int (cell row "year") = Some z /\ ev_year ev = ofZ z) /\
  (exists z, parse_int (cell row "month") = Some z /\ ev_month ev = ofZ z) /\
  (exists z, parse_int (cell row "day") = Some z /\ ev_day ev = ofZ z) /\
  num (cell row "longitude") = Some (ev_lon ev) /\
  num (cell row "latitude") = Some (ev_lat ev) /\
  num (cell row "Mw") = Some (ev_mw ev) /\
  ((num (cell row "sigmaMw") = Some (ev_sigma ev) /\ ltb (ev_sigma ev) (ofZ 0) = false) \/
   ((forall x, num (cell row "sigmaMw") = Some x -> ltb x (ofZ 0) = true) /\ ev_sigma ev = ofZ 0)).

End MatrixSpec.
