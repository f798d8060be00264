(** Specification for C149: the source of a run without source model. *)
From Coq Require Import ZArith String List.
From Verif Require Import Base Ops PyStr SourceModel.
Import ListNotations.

(** Every name is MTK; a single corner at longitude and latitude 0; strike 0, dip 90, rake 0;
    ruptures of magnitude 6.5 at a depth of 5000, which is the hypocentral depth too. *)
Record whole_region {AR : Ops} (s : area_source AR) : Prop := {
  wr_names : forall n, In n [as_nrml_id s; as_sm_id s; as_id s; as_name s; as_tect s; ab_srs (as_boundary s);
                             tg_type (rm_tgr (as_rate s)); dd_type (as_depth s)] -> n = Some (t "MTK");
  wr_corner : ab_pos (as_boundary s) = [(ofZ 0, ofZ 0)];
  wr_strike : rm_strike (as_rate s) = ofZ 0;
  wr_dip : rm_dip (as_rate s) = ofZ 90;
  wr_rake : rm_rake (as_rate s) = ofZ 0;
  wr_magnitudes : dd_mags (as_depth s) = [lit 65 10];
  wr_depths : dd_depth (as_depth s) = [ofZ 5000];
  wr_hypocentre : as_hypo s = ofZ 5000 }.

(** Nothing was computed. *)
Definition without_rates {AR : Ops} (s : area_source AR) : Prop :=
  tg_a (rm_tgr (as_rate s)) = ofZ 0 /\ tg_b (rm_tgr (as_rate s)) = ofZ 0 /\
  tg_min (rm_tgr (as_rate s)) = ofZ 0 /\ tg_max (rm_tgr (as_rate s)) = ofZ 0.
