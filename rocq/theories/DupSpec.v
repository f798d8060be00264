(** Specification for C140: two catalogue rows for one earthquake. *)
From Verif Require Import Base Ops CatUtil.

(** Same date and same place; magnitude and its error may differ. *)
Definition same_date_and_place {AR : Ops} (e e' : event AR) : Prop :=
  ev_year e = ev_year e' /\ ev_month e = ev_month e' /\ ev_day e = ev_day e' /\ ev_lon e = ev_lon e' /\ ev_lat e = ev_lat e'.

