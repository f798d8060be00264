(** Specification for C153: the lines of a stored completeness table ('%10.5f' separated by commas). *)
From Coq Require Import ZArith Ascii String List Reals.
From Verif Require Import Base PyStr PyStrProofs.
Import ListNotations.

(** A decimal number with five places, right-aligned in ten columns (more if it is longer), without
    superfluous zeros or blanks, next to [v]. *)
Definition field_of (v : R) (s : text) : Prop :=
  exists blanks sign q p, s = (blanks ++ sign ++ q ++ ["."%char] ++ p)%list /\
    Forall (fun c => c = " "%char) blanks /\ (length s = 10 \/ (10 < length s /\ blanks = []))%nat /\
    Forall digit q /\ (q = ["0"%char] \/ exists c q', q = c :: q' /\ c <> "0"%char) /\ Forall digit p /\ length p = 5%nat /\
    let n := (decimal_value q * 100000 + decimal_value p)%Z in
    ((sign = [] /\ (Rabs (IZR n / 100000 - v) <= 5 / 1000000)%R /\ (- 5 / 1000000 <= v)%R) \/
     (sign = ["-"%char] /\ (Rabs (- (IZR n / 100000) - v) <= 5 / 1000000)%R /\ (v < 0)%R)).

(** One line per row: year, comma, magnitude. *)
Definition row_line (r : R * R) (l : text) : Prop :=
  exists a b, field_of (fst r) a /\ field_of (snd r) b /\ l = (a ++ [","%char] ++ b ++ ["010"%char])%list.

Definition table_file (tab : list (R * R)) (content : text) : Prop :=
  exists ls, Forall2 row_line tab ls /\ content = List.concat ls.
