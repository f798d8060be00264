(** Model of mtoolkit/source_model.py. *)
From Coq Require Import ZArith String List.
From Verif Require Import Base Ops PyStr.
Import ListNotations.

Section SourceModel.
Context {AR : Ops}.

(** TRUNCATED_GUTEN_RICHTER, source_model.py:32-34. *)
Record tgr : Type := mkTgr {
  tg_a : T; tg_b : T; tg_min : T; tg_max : T; tg_type : option text }.

(** RUPTURE_RATE_MODEL, source_model.py:36-37. *)
Record rate_model : Type := mkRate {
  rm_tgr : tgr; rm_strike : T; rm_dip : T; rm_rake : T }.

(** RUPTURE_DEPTH_DISTRIB with its MAGNITUDE, source_model.py:39-42. *)
Record depth_dist : Type := mkDepth {
  dd_type : option text; dd_mags : list T; dd_depth : list T }.

(** AREA_BOUNDARY with POINTs (lon, lat), source_model.py:28-30. *)
Record boundary : Type := mkBoundary { ab_srs : option text; ab_pos : list (T * T) }.

(** AreaSource, source_model.py:45-59, plus the attributes that the processing jobs add
    (recurrence_sigb, recurrence_siga_m, max_mag_sigma: mtoolkit/jobs.py:328-329,363), None
    while not set.  Simplification: the constructor's None values are replaced field by field
    by reader and default_area_source before anything sees them, so numeric parts are plain
    numbers; texts may be None (missing attribute or empty element). *)
Record area_source : Type := mkSource {
  as_nrml_id : option text;
  as_sm_id : option text;
  as_id : option text;
  as_name : option text;
  as_tect : option text;
  as_boundary : boundary;
  as_rate : rate_model;
  as_depth : depth_dist;
  as_hypo : T;
  as_sigb : option T;
  as_siga : option T;
  as_mmsig : option T }.

(** default_area_source, source_model.py:92-121.  (The corner POINT(0, 0) holds integers in
    the code; they compare equal to the float 0.) *)
Definition default_area_source : area_source :=
  let mtk := Some (t "MTK") in
  mkSource mtk mtk mtk mtk mtk
    (mkBoundary mtk [(ofZ 0, ofZ 0)])
    (mkRate (mkTgr (ofZ 0) (ofZ 0) (ofZ 0) (ofZ 0) mtk) (ofZ 0) (ofZ 90) (ofZ 0))
    (mkDepth mtk [lit 65 10] [ofZ 5000])
    (ofZ 5000) None None None.

(** The attributes compared by AreaSource.__eq__, source_model.py:76-86. *)
Definition eq_part (s : area_source) :=
  (as_nrml_id s, as_sm_id s, as_id s, as_name s, as_tect s, as_boundary s, as_rate s,
   as_depth s, as_hypo s).

End SourceModel.
Arguments area_source AR : clear implicits.
Arguments tgr AR : clear implicits.
Arguments rate_model AR : clear implicits.
Arguments depth_dist AR : clear implicits.
Arguments boundary AR : clear implicits.
