(** Changes of the frame of reference of a catalogue: the epoch of the years, the zero of the
    longitudes. *)
From Coq Require Import Reals ZArith List.
From Verif Require Import Ops RFacts CatUtil.
Local Open Scope R_scope.

(** [f] changes the epoch of the years by [c], and the longitudes by a common angle and whole
    turns; the rest of the event it keeps (the uncertainty of the magnitude is free). *)
Definition new_frame (c d : R) (f : event ROps -> event ROps) : Prop := forall e,
  ev_year (f e) = ev_year e + c /\ ev_month (f e) = ev_month e /\ ev_day (f e) = ev_day e /\
  ev_lat (f e) = ev_lat e /\ ev_mw (f e) = ev_mw e /\
  exists k : Z, ev_lon (f e) = ev_lon e + d + 360 * IZR k.

(** Years counted from another epoch. *)
Definition later (c : R) (l : list R) : list R := map (fun y => y + c) l.

(** A completeness table with its years counted from another epoch. *)
Definition later_table (c : R) (l : list (R * R)) : list (R * R) := map (fun r => (fst r + c, snd r)) l.
