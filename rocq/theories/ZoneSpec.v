(** Specification of two catalogues that differ outside the zones, and of two catalogues that
    differ in columns the analyses do not use. *)
From Coq Require Import ZArith Bool Ascii String List.
From Verif Require Import Base Ops CatUtil PyStr EqCatalog SourceModel World Jobs.
Import ListNotations.

(** Two lists that differ by inserted and deleted elements, none of them [inside]. *)
Inductive differ_outside {A : Type} (inside : A -> Prop) : list A -> list A -> Prop :=
| DO_nil : differ_outside inside [] []
| DO_both : forall a l l', differ_outside inside l l' -> differ_outside inside (a :: l) (a :: l')
| DO_first : forall a l l', ~ inside a -> differ_outside inside l l' -> differ_outside inside (a :: l) l'
| DO_second : forall a l l', ~ inside a -> differ_outside inside l l' -> differ_outside inside l (a :: l').

(** The event lies in the area of one of the sources. *)
Definition in_some_zone {AR : Ops} (W : world AR) (ss : list (area_source AR)) (e : event AR) : Prop :=
  exists s, In s ss /\ w_contains W (ab_pos (as_boundary s)) (ev_lon e) (ev_lat e) = true.

(** The columns the analyses use. *)
Definition used_columns : list string :=
  ["year"; "month"; "day"; "longitude"; "latitude"; "Mw"; "sigmaMw"]%string.

(** Two entries with the same values in these columns: same value or none, whatever the order
    of the columns. *)
Definition same_used {AR : Ops} (a b : entry AR) : Prop :=
  forall f, In f used_columns ->
    map snd (filter (fun kv => key_eqb (Some f) (fst kv)) a) = map snd (filter (fun kv => key_eqb (Some f) (fst kv)) b).
