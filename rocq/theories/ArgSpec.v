(** The command lines of the program as a user would describe them (C130, C131). *)
From Coq Require Import Ascii String List Bool.
From Verif Require Import PyStr.
Import ListNotations.

(** The first letters of a long option, at least one after the two dashes. *)
Definition abbreviates (s full : text) : Prop := 3 <= length s /\ exists r, full = s ++ r.

(** -d, -dd, ...: a dash and the letter d, [k] times. *)
Definition dashed (k : nat) (rest : text) : text := "-"%char :: repeat "d"%char k ++ rest.

(** A group of [k] letters d and then [rest]; after the first d there may be an equals sign. *)
Inductive grouped (k : nat) (rest : text) : text -> Prop :=
| grouped_plain : grouped k rest (dashed k rest)
| grouped_eq : forall j, k = S j -> repeat "d"%char j ++ rest <> [] ->
    grouped k rest (t "-d=" ++ repeat "d"%char j ++ rest).

(** One option with its value: the arguments, the file it names and whether it asks for details.
    [V] says what may stand as a value in an argument of its own. *)
Inductive says (V : text -> Prop) : list text -> option text -> bool -> Prop :=
| says_d : forall k s, grouped (S k) [] s -> says V [s] None true
| says_detailed : forall o, abbreviates o (t "--detailed") -> says V [o] None true
| says_input : forall o f, abbreviates o (t "--input-file") -> V f -> says V [o; f] (Some f) false
| says_input_eq : forall o f, abbreviates o (t "--input-file") -> says V [o ++ t "=" ++ f] (Some f) false
| says_i : forall k s f, grouped k (t "i") s -> V f -> says V [s; f] (Some f) (negb (Nat.eqb k 0))
| says_i_joined : forall k s f, grouped k (t "i" ++ f) s -> f <> [] -> (k = 0 -> forall g, f <> t "=" ++ g) ->
    says V [s] (Some f) (negb (Nat.eqb k 0))
| says_i_eq : forall f, says V [t "-i=" ++ f] (Some f) false.

(** A command line: the last file named counts, and details are given if asked for anywhere. *)
Inductive line (V : text -> Prop) : list text -> option text -> bool -> Prop :=
| line_end : line V [] None false
| line_more : forall a f d l f' d', says V a f d -> line V l f' d' ->
    line V (a ++ l) (match f' with Some _ => f' | None => f end) (d || d').

(** A value that cannot be taken for an option. *)
Definition plain (v : text) : Prop := forall r, v <> "-"%char :: r.

(** A value that starts with a dash is a single dash, has a blank, or has a digit or a point
    after the dash. *)
Definition value_like (v : text) : Prop :=
  plain v \/ v = t "-" \/ In " "%char v \/
  (exists c r, v = "-"%char :: c :: r /\ (c = "."%char \/ 48 <= nat_of_ascii c <= 57)).
