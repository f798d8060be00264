(** Specification vocabulary for the declustering properties, in terms of the rows of the
    catalogue given to the code and not of its sorted working arrays. *)
From Coq Require Import ZArith List Bool Arith Permutation Reals.
From Verif Require Import Base Ops CatUtil Decluster.
Import ListNotations.

Section Spec.
Context {AR : Ops}.

(** What is assumed of np.argsort: the answer lists every position once. *)
Definition is_argsort (argsort : list T -> list nat) : Prop :=
  forall l, Permutation (argsort l) (seq 0 (length l)).

(** Time of an event as a decimal year. *)
Definition event_time (e : event AR) : res T :=
  decimal_year1 (ev_year e) (ev_month e) (ev_day e).

(** Distance between two events in km. *)
Definition event_dist (e1 e2 : event AR) : T :=
  haversine1 false earth_rad (ev_lon e1) (ev_lat e1) (ev_lon e2) (ev_lat e2).

(** t2 - t1 for two events that both have a time. *)
Definition delay (e1 e2 : event AR) : option T :=
  match event_time e1, event_time e2 with
  | Ok t1, Ok t2 => Some (sub t2 t1)
  | _, _ => None
  end.

(** Event [e] is in the (time and distance) window of [main]: not later than the time
    window, not earlier than fs times the time window, not farther than the distance
    window. *)
Definition in_window (w : window_opt) (fs : T) (main e : event AR) : bool :=
  match window_calc w, delay main e with
  | Ok f, Some dt =>
      let '(space, twin) := f (ev_mw main) in
      (leb (mul (neg twin) fs) dt && leb dt twin) && leb (event_dist e main) space
  | _, _ => false
  end.

(** Event [e] is not farther from [main] than the distance window of [main]. *)
Definition in_space_window (w : window_opt) (main e : event AR) : bool :=
  match window_calc w with
  | Ok f => leb (event_dist e main) (fst (f (ev_mw main)))
  | _ => false
  end.

(** Flag of a cluster member relative to the main event: -1 foreshock, 1 aftershock. *)
Definition relative_flag (main e : event AR) : Z :=
  match delay main e with
  | Some dt => if leb (ofZ 0) dt then 1%Z else (-1)%Z
  | None => 1%Z
  end.

End Spec.

(** Over the reals np.argsort also sorts. *)
Definition sorts (argsort : list R -> list nat) : Prop :=
  forall l i j a b, i < j ->
    nth_error (argsort l) i = Some a -> nth_error (argsort l) j = Some b ->
    (nth a l 0 <= nth b l 0)%R.

(** A sorting function that meets both assumptions: repeated insertion, used to show that
    they are satisfiable and in the concrete cases. *)
Fixpoint insert_pos (l : list R) (k : nat) (acc : list nat) : list nat :=
  match acc with
  | [] => [k]
  | a :: acc' => if Rle_dec (nth k l 0%R) (nth a l 0%R) then k :: acc
                 else a :: insert_pos l k acc'
  end.
Definition insertion_argsort (l : list R) : list nat :=
  fold_right (insert_pos l) [] (seq 0 (length l)).
