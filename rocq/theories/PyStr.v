(** Byte strings as the Python 2 code uses them: strip, split, int(), str(int), and the
    fixed five-decimal format of np.savetxt. *)
From Coq Require Import ZArith Bool Ascii String Decimal DecimalString List.
From Verif Require Import Base.
Import ListNotations.

(** A Python 2 byte string. *)
Definition text := list ascii.

(** String literal as a byte string. *)
Definition t (s : string) : text := list_ascii_of_string s.
Arguments t s%string.

Definition ascii_eqb (a b : ascii) : bool := Ascii.eqb a b.

Fixpoint text_eqb (a b : text) : bool :=
  match a, b with
  | [], [] => true
  | x :: a', y :: b' => Ascii.eqb x y && text_eqb a' b'
  | _, _ => false
  end.

Definition chr_comma : ascii := ","%char.
Definition chr_quote : ascii := ascii_of_nat 34.
Definition chr_lf : ascii := ascii_of_nat 10.
Definition chr_cr : ascii := ascii_of_nat 13.
Definition chr_space : ascii := " "%char.
Definition chr_nul : ascii := ascii_of_nat 0.

(** Characters removed by str.strip() and splitting str.split(): C isspace
    (mtoolkit/eqcatalog.py:133, nrml/reader.py:137,196,201). *)
Definition is_space (c : ascii) : bool :=
  let n := nat_of_ascii c in (Nat.leb 9 n && Nat.leb n 13) || Nat.eqb n 32.

Fixpoint lstrip (s : text) : text :=
  match s with
  | c :: s' => if is_space c then lstrip s' else s
  | [] => []
  end.
(** str.strip(), mtoolkit/eqcatalog.py:133. *)
Definition strip (s : text) : text := rev (lstrip (rev (lstrip s))).

(** str.split(sep) for a one-character separator, mtoolkit/eqcatalog.py:134; always at
    least one piece. *)
Fixpoint split_on (sep : ascii) (s : text) : list text :=
  match s with
  | [] => [[]]
  | c :: s' =>
      if Ascii.eqb c sep then [] :: split_on sep s'
      else match split_on sep s' with
           | p :: ps => (c :: p) :: ps
           | [] => [[c]]
           end
  end.

(** str.split() with no argument, nrml/reader.py:137,196,201: maximal runs of
    non-blank characters. [cur] is the current run, reversed. *)
Fixpoint split_ws_from (cur : text) (s : text) : list text :=
  match s with
  | [] => match cur with [] => [] | _ => [rev cur] end
  | c :: s' =>
      if is_space c
      then match cur with [] => split_ws_from [] s' | _ => rev cur :: split_ws_from [] s' end
      else split_ws_from (c :: cur) s'
  end.
Definition split_ws (s : text) : list text := split_ws_from [] s.

(** sep.join(pieces), nrml/writer.py:174,264,270. *)
Fixpoint join (sep : text) (ps : list text) : text :=
  match ps with
  | [] => []
  | [p] => p
  | p :: ps' => p ++ sep ++ join sep ps'
  end.

(** Digits to a number: None unless every character is a digit. *)
Definition digits_value (s : text) : option Z :=
  match NilEmpty.uint_of_string (string_of_list_ascii s) with
  | Some u => Some (Z.of_uint u)
  | None => None
  end.

(** int(s), mtoolkit/eqcatalog.py:177: optional surrounding blanks and sign, at least one
    decimal digit; ValueError (None) otherwise. *)
Definition parse_int (s : text) : option Z :=
  match strip s with
  | [] => None
  | c :: rest =>
      if Ascii.eqb c "-"%char then
        match rest with [] => None | _ => option_map Z.opp (digits_value rest) end
      else if Ascii.eqb c "+"%char then
        match rest with [] => None | _ => digits_value rest end
      else digits_value (c :: rest)
  end.

(** str(n) of a Python integer (csv writer, mtoolkit/eqcatalog.py:350). *)
Definition print_uint (u : uint) : text := list_ascii_of_string (NilEmpty.string_of_uint u).
Definition print_int (z : Z) : text :=
  match Z.to_int z with
  | Pos u => print_uint u
  | Neg u => "-"%char :: print_uint u
  end.

(** '%10.5f' % v for v = n / 100000 (np.savetxt, mtoolkit/jobs.py:278-279): sign, integer
    part, point, five digits, padded with blanks to width 10. *)
Definition pad_left (c : ascii) (w : nat) (s : text) : text :=
  repeat c (w - length s) ++ s.
Definition print_fixed5 (n : Z) : text :=
  let a := Z.abs n in
  let body := print_int (a / 100000) ++ ["."%char]
              ++ pad_left "0"%char 5 (print_int (a mod 100000)) in
  pad_left chr_space 10 (if (n <? 0)%Z then "-"%char :: body else body).

(** Reading back such a number (np.genfromtxt, mtoolkit/jobs.py:293-295): a decimal with
    digits on both sides of a point, as the number of 10^-5 units when it has five
    decimals.  Other float syntaxes accepted by genfromtxt are not modelled (None). *)
Definition parse_fixed5 (s : text) : option Z :=
  let s := strip s in
  let '(sgn, s) := match s with
                   | c :: s' => if Ascii.eqb c "-"%char then ((-1)%Z, s') else (1%Z, s)
                   | [] => (1%Z, s)
                   end in
  match split_on "."%char s with
  | [a; b] =>
      match a with
      | [] => None
      | _ =>
        if Nat.eqb (length b) 5 then
          match digits_value a, digits_value b with
          | Some x, Some y => Some (sgn * (x * 100000 + y))%Z
          | _, _ => None
          end
        else None
      end
  | _ => None
  end.
