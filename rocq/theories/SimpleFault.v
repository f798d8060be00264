(** Model of mtoolkit/geo/simple_fault.py. *)
From Coq Require Import ZArith List Bool.
From Verif Require Import Base Ops.
Import ListNotations.
Local Open Scope num_scope.
Local Open Scope res_scope.

Section SimpleFault.
Context {AR : Ops}.

(** ensure, simple_fault.py:24-31. *)
Definition ensure (b : bool) : res unit := if b then Ok tt else Err ValueError.

(** Attributes of a SimpleFaultGeo object, simple_fault.py:70-73. *)
Record simple_fault : Type := mkFault {
  sf_trace : list (T * T); sf_upp : T; sf_low : T; sf_dip : T }.

(** The checks on one trace point, simple_fault.py:54-58. *)
Definition check_point (p : T * T) : res unit :=
  let* _ := ensure ((neg (ofZ 180) <=? fst p) && (fst p <=? ofZ 180)) in
  ensure ((neg (ofZ 90) <=? snd p) && (snd p <=? ofZ 90)).

(** SimpleFaultGeo.__init__, simple_fault.py:50-73. *)
Definition simple_fault_init (trace : list (T * T)) (upp low dip : T) : res simple_fault :=
  let* _ := ensure (Nat.leb 2 (length trace)) in
  let* _ := mapM check_point trace in
  let* _ := ensure (upp >=? ofZ 0) in
  let* _ := ensure (low >? ofZ 0) in
  let* _ := ensure (low >? upp) in
  let* _ := ensure ((ofZ 0 <? dip) && (dip <=? ofZ 90)) in
  Ok (mkFault trace upp low dip).

(** numpy.radians, simple_fault.py:21. *)
Definition radians (x : T) : T := x * (piv / ofZ 180).

(** Distance between two consecutive points, simple_fault.py:89-103. *)
Definition seg_length (p q : T * T) : T :=
  let lon1 := radians (fst p) in
  let lat1 := radians (snd p) in
  let lon2 := radians (fst q) in
  let lat2 := radians (snd q) in
  let dlon := lon2 - lon1 in
  let dlat := lat2 - lat1 in
  let a := sq (sinv (dlat / ofZ 2)) + ((cosv lat1 * cosv lat2) * sq (sinv (dlon / ofZ 2))) in
  let c := ofZ 2 * atan2v (sqrtv a) (sqrtv (ofZ 1 - a)) in
  ofZ 6371 * c.

(** The accumulation loop of get_length, simple_fault.py:84-107. *)
Fixpoint trace_length (acc : T) (trace : list (T * T)) : T :=
  match trace with
  | p :: ((q :: _) as rest) => trace_length (acc + seg_length p q) rest
  | _ => acc
  end.

(** SimpleFaultGeo.get_length, simple_fault.py:75-107. *)
Definition get_length (f : simple_fault) : T := trace_length (ofZ 0) (sf_trace f).

(** SimpleFaultGeo.get_width, simple_fault.py:109-114. *)
Definition get_width (f : simple_fault) : T :=
  (sf_low f - sf_upp f) / sinv (radians (sf_dip f)).

(** SimpleFaultGeo.get_area, simple_fault.py:116-121. *)
Definition get_area (f : simple_fault) : T := get_length f * get_width f.

End SimpleFault.
Arguments simple_fault AR : clear implicits.
