(** Executable float(s), str(x) and repr(x) of Python 2.7 on binary64, correctly rounded as in
    CPython's dtoa.c.  They instantiate the text conversion parameters of the model; used by the
    concrete cases and by the refutations that depend on the twelve digits of str(). *)
From Coq Require Import ZArith Bool Ascii String List.
From Coq Require Import Floats.SpecFloat.
From Verif Require Import Base Ops FloatOps PyStr.
Import ListNotations.
Local Open Scope Z_scope.

(** The double nearest to (-1)^neg * m * 10^e (nrml/reader.py:138, mtoolkit/eqcatalog.py:179).
    Exponents outside -5000..5000 are cut. *)
Definition F_decimal (neg : bool) (m : Z) (e : Z) : spec_float :=
  let sg z := if neg then - z else z in
  if m =? 0 then S754_zero neg
  else if e >? 5000 then S754_infinity neg
  else if e <? -5000 then S754_zero neg
  else if 0 <=? e then binary_normalize prec64 emax64 (sg (m * 10 ^ e)) 0 neg
  else
    let d := 10 ^ (- e) in
    let k := Z.max 0 (64 + Z.log2 d - Z.log2 m) in
    let q := m * 2 ^ k / d in
    let r := m * 2 ^ k mod d in
    binary_normalize prec64 emax64 (sg (2 * q + (if r =? 0 then 0 else 1))) (- k - 1) neg.

Definition lower (c : ascii) : ascii :=
  let n := nat_of_ascii c in
  if (Nat.leb 65 n && Nat.leb n 90)%bool then ascii_of_nat (n + 32) else c.

(** Digits, possibly none. *)
Definition digits0 (s : text) : option Z :=
  match s with [] => Some 0 | _ => digits_value s end.

(** digits [. digits] with at least one digit: value and number of decimals. *)
Definition mantissa (s : text) : option (Z * Z) :=
  match split_on "."%char s with
  | [a] => option_map (fun x => (x, 0)) (match a with [] => None | _ => digits_value a end)
  | [a; b] =>
      match a, b with
      | [], [] => None
      | _, _ =>
        match digits0 a, digits0 b with
        | Some x, Some y => Some (x * 10 ^ Z.of_nat (length b) + y, Z.of_nat (length b))
        | _, _ => None
        end
      end
  | _ => None
  end.

(** The sign of a text and the rest. *)
Definition signed (s : text) : bool * text :=
  match s with
  | c :: s' => if Ascii.eqb c "-"%char then (true, s') else if Ascii.eqb c "+"%char then (false, s') else (false, s)
  | [] => (false, [])
  end.

(** float(s); None for ValueError. *)
Definition py_float (s : text) : option spec_float :=
  let '(neg, b) := signed (map lower (strip s)) in
  if text_eqb b (t "nan") then Some S754_nan
  else if (text_eqb b (t "inf") || text_eqb b (t "infinity"))%bool then Some (S754_infinity neg)
  else match split_on "e"%char b with
       | [a] => option_map (fun p => F_decimal neg (fst p) (- snd p)) (mantissa a)
       | [a; x] =>
           let '(xneg, xd) := signed x in
           match mantissa a, xd, digits_value xd with
           | Some p, _ :: _, Some xv => Some (F_decimal neg (fst p) ((if xneg then - xv else xv) - snd p))
           | _, _, _ => None
           end
       | _ => None
       end.

(** ** Printing *)

(** The largest k >= k0 with 10^k * den <= num, looking at most [n] further. *)
Fixpoint log10_up (n : nat) (k num den : Z) : Z :=
  match n with
  | O => k
  | S n' =>
      let k' := k + 1 in
      if (if 0 <=? k' then 10 ^ k' * den <=? num else den <=? num * 10 ^ (- k'))
      then log10_up n' k' num den else k
  end.

(** num / den rounded half to even. *)
Definition div_even (num den : Z) : Z :=
  let q := num / den in let r := num mod den in
  match 2 * r ?= den with Lt => q | Gt => q + 1 | Eq => if Z.even q then q else q + 1 end.

(** The n significant digits of m * 2^e > 0 and the decimal exponent of the first one. *)
Definition sig_digits (n : Z) (m : positive) (e : Z) : Z * Z :=
  let num := if 0 <=? e then Z.pos m * 2 ^ e else Z.pos m in
  let den := if 0 <=? e then 1 else 2 ^ (- e) in
  let k0 := (Z.log2 num - Z.log2 den - 1) * 30103 / 100000 - 1 in
  let k := log10_up 5 k0 num den in
  let p := n - 1 - k in
  let d := if 0 <=? p then div_even (num * 10 ^ p) den else div_even num (den * 10 ^ (- p)) in
  if d =? 10 ^ n then (10 ^ (n - 1), k + 1) else (d, k).

Fixpoint drop_zeros (s : text) : text :=
  match s with
  | c :: s' => if Ascii.eqb c "0"%char then drop_zeros s' else s
  | [] => []
  end.
Definition strip_zeros (s : text) : text := rev (drop_zeros (rev s)).

Definition zeros (n : Z) : text := repeat "0"%char (Z.to_nat n).

(** Lay out the digits as CPython's format 'g' with Py_DTSF_ADD_DOT_0: fixed notation for
    exponents from -4 up to lim - 1. *)
Definition layout (lim : Z) (d k : Z) : text :=
  let ds := match strip_zeros (print_int d) with [] => t "0" | x => x end in
  let l := Z.of_nat (length ds) in
  if ((-4 <=? k) && (k <? lim))%bool then
    if k <? 0 then t "0." ++ zeros (- k - 1) ++ ds
    else if l <=? k + 1 then ds ++ zeros (k + 1 - l) ++ t ".0"
    else firstn (Z.to_nat (k + 1)) ds ++ t "." ++ skipn (Z.to_nat (k + 1)) ds
  else
    match ds with
    | c :: r =>
        c :: (match r with [] => [] | _ => "."%char :: r end) ++ t "e" ++
        (if k <? 0 then t "-" else t "+") ++ pad_left "0"%char 2 (print_int (Z.abs k))
    | [] => []
    end.

Definition format_g (n lim : Z) (x : spec_float) : text :=
  match x with
  | S754_zero s => if s then t "-0.0" else t "0.0"
  | S754_infinity s => if s then t "-inf" else t "inf"
  | S754_nan => t "nan"
  | S754_finite s m e =>
      let '(d, k) := sig_digits n m e in
      (if s then t "-" else []) ++ layout lim d k
  end.

(** str(x): twelve significant digits (nrml/writer.py:138,175,197-205,228-242,265,271). *)
Definition py_str (x : spec_float) : text := format_g 12 12 x.

Definition same_float (o : option spec_float) (x : spec_float) : bool :=
  match o, x with
  | Some (S754_zero a), S754_zero b => Bool.eqb a b
  | Some (S754_infinity a), S754_infinity b => Bool.eqb a b
  | Some S754_nan, S754_nan => true
  | Some (S754_finite a m e), S754_finite b m' e' => (Bool.eqb a b && Pos.eqb m m' && (e =? e'))%bool
  | _, _ => false
  end.

(** repr(x): the fewest digits, at most 17, that read back as x (csv writer,
    mtoolkit/eqcatalog.py:350). *)
Fixpoint repr_from (tries : nat) (n : Z) (x : spec_float) : text :=
  match tries with
  | O => format_g n 16 x
  | S tries' => let s := format_g n 16 x in
      if same_float (py_float s) x then s else repr_from tries' (n + 1) x
  end.
Definition py_repr (x : spec_float) : text := repr_from 16 1 x.
