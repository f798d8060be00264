(** Model of AreaSource.__eq__ and __ne__, mtoolkit/source_model.py:76-89. *)
From Coq Require Import ZArith Bool String List.
From Verif Require Import Base Ops PyStr SourceModel RegionEq.
Import ListNotations.

Section SourceEq.
Context {AR : Ops}.

(** == of two texts, either of which may be None. *)
Definition otext_eqb (a b : option text) : bool :=
  match a, b with Some x, Some y => text_eqb x y | None, None => true | _, _ => false end.

(** == of the named tuples, source_model.py:28-42: field by field.  Simplification: CPython takes
    elements that are the same object for equal before it compares them, which differs from this
    only for a NaN; the theorems about == exclude NaN. *)
Definition point_eqb (p q : T * T) : bool := eqb (fst p) (fst q) && eqb (snd p) (snd q).
Definition boundary_eqb (b c : boundary AR) : bool :=
  otext_eqb (ab_srs b) (ab_srs c) && list_eqb point_eqb (ab_pos b) (ab_pos c).
Definition tgr_eqb (g h : tgr AR) : bool :=
  eqb (tg_a g) (tg_a h) && eqb (tg_b g) (tg_b h) && eqb (tg_min g) (tg_min h) && eqb (tg_max g) (tg_max h) &&
  otext_eqb (tg_type g) (tg_type h).
Definition rate_eqb (r s : rate_model AR) : bool :=
  tgr_eqb (rm_tgr r) (rm_tgr s) && eqb (rm_strike r) (rm_strike s) && eqb (rm_dip r) (rm_dip s) && eqb (rm_rake r) (rm_rake s).
Definition depth_eqb (d e : depth_dist AR) : bool :=
  otext_eqb (dd_type d) (dd_type e) && list_eqb eqb (dd_mags d) (dd_mags e) && list_eqb eqb (dd_depth d) (dd_depth e).

(** __eq__, source_model.py:76-86. *)
Definition source_eqb (s o : area_source AR) : bool :=
  otext_eqb (as_nrml_id s) (as_nrml_id o) && otext_eqb (as_sm_id s) (as_sm_id o) && otext_eqb (as_id s) (as_id o) &&
  otext_eqb (as_name s) (as_name o) && otext_eqb (as_tect s) (as_tect o) && boundary_eqb (as_boundary s) (as_boundary o) &&
  rate_eqb (as_rate s) (as_rate o) && depth_eqb (as_depth s) (as_depth o) && eqb (as_hypo s) (as_hypo o).

(** __ne__, source_model.py:88-89. *)
Definition source_neb (s o : area_source AR) : bool := negb (source_eqb s o).
End SourceEq.
