(** Model of TectonicRegion.__eq__ and __ne__, mtoolkit/geo/tectonic_region.py:71-78. *)
From Coq Require Import ZArith Bool String List.
From Verif Require Import Base Ops Tectonic.
Import ListNotations.

Section RegionEq.
Context {AR : Ops}.

(** == of two lists: same length, equal elements.  (CPython first compares the identity of the
    elements; that differs only for a NaN compared with the same object, and the constructor
    accepts no NaN, C125.) *)
Fixpoint list_eqb {A} (eq : A -> A -> bool) (l m : list A) : bool :=
  match l, m with
  | [], [] => true
  | a :: l', b :: m' => eq a b && list_eqb eq l' m'
  | _, _ => false
  end.

(** == of two entries of a dictionary, either of which may be absent. *)
Definition entry_eqb {A} (eq : A -> A -> bool) (l m : option (list A)) : bool :=
  match l, m with
  | Some x, Some y => list_eqb eq x y
  | None, None => true
  | _, _ => false
  end.

(** == of two parameter dictionaries.  Simplification: the contents of other keys are not modelled,
    they count as equal when both dictionaries have some. *)
Definition dict_eqb {A} (eq : A -> A -> bool) (d e : pdict A) : bool :=
  entry_eqb eq (pd_values d) (pd_values e) && entry_eqb eqb (pd_weights d) (pd_weights e) &&
  Bool.eqb (pd_extra d) (pd_extra e).

(** __eq__, tectonic_region.py:71-75. *)
Definition region_eqb (r s : region AR) : bool :=
  String.eqb (rg_id r) (rg_id s) && dict_eqb String.eqb (rg_msr r) (rg_msr s) &&
  dict_eqb eqb (rg_smod r) (rg_smod s) && dict_eqb eqb (rg_dlr r) (rg_dlr s).

(** __ne__, tectonic_region.py:77-78. *)
Definition region_neb (r s : region AR) : bool := negb (region_eqb r s).
End RegionEq.
