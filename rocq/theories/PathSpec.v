(** The directory of a path, by the shape of the path. *)
From Coq Require Import Ascii String List.
From Verif Require Import Base PyStr FlowSpec.
Import ListNotations.

(** One or more slashes. *)
Definition slashes (s : text) : Prop := s <> [] /\ forall c, In c s -> c = "/"%char.

(** [p] is a name in the directory [d]: d/name with [d] not ending in a slash, or /name with
    [d] the slashes in front. *)
Inductive lies_in (p d : text) : Prop :=
| LI_dir : forall a c s name, d = a ++ [c] -> c <> "/"%char -> slashes s -> bare_name name ->
    p = d ++ s ++ name -> lies_in p d
| LI_root : forall name, slashes d -> bare_name name -> p = d ++ name -> lies_in p d.
