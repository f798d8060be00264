(** Specification of using the result of a run as the source model of another. *)
From Coq Require Import ZArith Bool Reals List.
From Coq Require Import Floats.SpecFloat.
From Flocq Require Import Core IEEE754.BinarySingleNaN.
From Verif Require Import Base Ops FloatOps FloatSpec PyStr.
Local Open Scope R_scope.

(** A number that reads back as it was written. *)
Definition read_back {AR : Ops} (value : text -> option T) (str : T -> text) (x : T) : Prop := value (str x) = Some x.

(** A number that, written and read back, is written with the same text again. *)
Definition written_again {AR : Ops} (value : text -> option T) (str : T -> text) (x : T) : Prop :=
  exists y, value (str x) = Some y /\ str y = str x.

(** A zero, an infinity, nan, or a double between 10^-280 and 10^300 in absolute value. *)
Definition ordinary_size (x : spec_float) : Prop :=
  match x with
  | S754_finite _ _ _ => SpecFloat.valid_binary prec64 emax64 x = true /\
      bpow powers_of_ten (-280) <= Rabs (SF2R radix2 x) /\ Rabs (SF2R radix2 x) < bpow powers_of_ten 300
  | _ => True
  end.
