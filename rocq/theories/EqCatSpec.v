(** What a user of EqEntryReader expects, stated without the functions of EqCatalog.v that
    check or convert (docstrings of mtoolkit/eqcatalog.py:54-69,198-312). *)
From Coq Require Import ZArith Bool Ascii String List Permutation.
From Verif Require Import Base Ops PyStr EqCatalog.
Import ListNotations.
Local Open Scope string_scope.

(** The 25 documented columns, in file order. *)
Definition columns : list string :=
  ["eventID"; "Agency"; "Identifier"; "year"; "month"; "day"; "hour"; "minute"; "second";
   "timeError"; "longitude"; "latitude"; "SemiMajor90"; "SemiMinor90"; "ErrorStrike";
   "depth"; "depthError"; "Mw"; "sigmaMw"; "Ms"; "sigmaMs"; "mb"; "sigmamb"; "ML"; "sigmaML"].

(** The text in the named column of a row. *)
Definition cell (row : list text) (f : string) : text :=
  match find (fun p => String.eqb f (fst p)) (combine columns row) with
  | Some p => snd p
  | None => []
  end.

(** Any iteration order of a dictionary: the same keys, rearranged. *)
Definition rearranges (order : list key -> list key) : Prop :=
  forall ks, NoDup ks -> Permutation (order ks) ks.

(** [f] is visited before [g]. *)
Definition visited_before (ks : list key) (f g : string) : Prop :=
  exists l1 l2, ks = (l1 ++ Some g :: l2)%list /\ In (Some f) l1.

Section Spec.
Context {AR : Ops}.
Variable parse_float : text -> option T.
Variable now_year : Z.

Definition int_cell (row : list text) (f : string) (P : Z -> Prop) : Prop :=
  exists z, parse_int (cell row f) = Some z /\ P z.
Definition float_cell (row : list text) (f : string) (P : T -> Prop) : Prop :=
  exists x, parse_float (cell row f) = Some x /\ P x.

(** a <= x <= b *)
Definition within (a b : Z) (x : T) : Prop := leb (ofZ a) x = true /\ leb x (ofZ b) = true.

(** The compulsory columns, each with what the code demands of it. *)
Definition requirements (row : list text) : list (string * Prop) :=
  [ ("eventID", int_cell row "eventID" (fun z => 0 < z)%Z);
    ("Identifier", int_cell row "Identifier" (fun z => 0 < z)%Z);
    ("year", int_cell row "year" (fun z => -10000 <= z <= now_year)%Z);
    ("month", int_cell row "month" (fun z => 1 <= z <= 12)%Z);
    ("day", int_cell row "day" (fun d =>
              int_cell row "month" (fun m =>
                (m = 2 -> d <= 29) /\ (m <> 2 -> 1 <= d <= 31))))%Z;
    ("hour", int_cell row "hour" (fun z => 0 <= z <= 23)%Z);
    ("minute", int_cell row "minute" (fun z => 0 <= z <= 59)%Z);
    ("longitude", float_cell row "longitude" (within (-180) 180));
    ("latitude", float_cell row "latitude" (within (-90) 90));
    ("depth", float_cell row "depth" (fun x => ltb (ofZ 0) x = true));
    ("Mw", float_cell row "Mw" (fun _ => True)) ].

Definition acceptable (row : list text) : Prop := Forall snd (requirements row).

(** The optional columns outside the error ellipse: admissible values, and what is stored
    when there is none. *)
Definition optional_rules : list (string * (T -> bool) * pyval AR) :=
  let any := fun _ : T => true in
  let not_negative := fun x => negb (ltb x (ofZ 0)) in
  [ ("second", fun x => leb (ofZ 0) x && leb x (ofZ 59), VStr []);
    ("timeError", any, VStr []);
    ("depthError", not_negative, VStr []);
    ("sigmaMw", not_negative, VFlt (ofZ 0));
    ("Ms", any, VStr []);
    ("sigmaMs", not_negative, VStr []);
    ("mb", any, VStr []);
    ("sigmamb", not_negative, VStr []);
    ("ML", any, VStr []);
    ("sigmaML", not_negative, VStr []) ].

(** Parsed and admissible, or the substitute. *)
Definition kept_or (admissible : T -> bool) (substitute : pyval AR) (s : text) : pyval AR :=
  match parse_float s with
  | Some x => if admissible x then VFlt x else substitute
  | None => substitute
  end.

(** The columns that are stored exactly as parsed. *)
Definition ints : list string :=
  ["eventID"; "Identifier"; "year"; "month"; "day"; "hour"; "minute"].
Definition floats : list string := ["longitude"; "latitude"; "depth"; "Mw"].

Definition ellipse : list string := ["SemiMajor90"; "SemiMinor90"; "ErrorStrike"].

(** The three ellipse columns are individually in order. *)
Definition ellipse_admissible (row : list text) : Prop :=
  exists a b s, parse_float (cell row "SemiMajor90") = Some a /\
    parse_float (cell row "SemiMinor90") = Some b /\
    parse_float (cell row "ErrorStrike") = Some s /\
    ltb a (ofZ 0) = false /\ ltb b (ofZ 0) = false /\ leb b a = true /\ within 0 360 s.

(** All three blank, or all three as parsed. *)
Definition ellipse_all_blank (e : entry AR) : Prop :=
  forall f, In f ellipse -> get (Some f) e = VStr [].
Definition ellipse_kept (row : list text) (e : entry AR) : Prop :=
  forall f, In f ellipse -> exists x, parse_float (cell row f) = Some x /\ get (Some f) e = VFlt x.

(** What an accepted entry holds. *)
Definition valid_entry (e : entry AR) : Prop :=
  let int f (P : Z -> Prop) := exists z, get (Some f) e = VInt z /\ P z in
  let flt f (P : T -> Prop) := exists x, get (Some f) e = VFlt x /\ P x in
  let opt f (P : T -> Prop) := get (Some f) e = VStr [] \/ flt f P in
  let not_negative := fun x => ltb x (ofZ 0) = false in
  (int "eventID" (fun z => 0 < z) /\ int "Identifier" (fun z => 0 < z) /\
   int "year" (fun z => -10000 <= z <= now_year) /\ int "month" (fun z => 1 <= z <= 12) /\
   int "hour" (fun z => 0 <= z <= 23) /\ int "minute" (fun z => 0 <= z <= 59))%Z /\
  flt "longitude" (within (-180) 180) /\ flt "latitude" (within (-90) 90) /\
  flt "depth" (fun x => ltb (ofZ 0) x = true) /\ flt "Mw" (fun _ => True) /\
  opt "second" (within 0 59) /\ opt "timeError" (fun _ => True) /\
  opt "SemiMajor90" not_negative /\ opt "SemiMinor90" not_negative /\
  opt "ErrorStrike" (within 0 360) /\ opt "depthError" not_negative /\
  flt "sigmaMw" (fun x => x = ofZ 0 \/ ltb x (ofZ 0) = false) /\
  opt "Ms" (fun _ => True) /\ opt "sigmaMs" not_negative /\
  opt "mb" (fun _ => True) /\ opt "sigmamb" not_negative /\
  opt "ML" (fun _ => True) /\ opt "sigmaML" not_negative.

End Spec.

(** ** Files *)

(** The first line of a file: up to and including the first line feed, or everything. *)
Definition is_first_line (content line : text) : Prop :=
  (exists rest, content = (line ++ rest)%list /\ exists l, line = (l ++ [chr_lf])%list /\ ~ In chr_lf l) \/
  (content = line /\ ~ In chr_lf line).

(** Blanks around a name. *)
Definition padded (name : string) (piece : text) : Prop :=
  exists a b, Forall (fun c => is_space c = true) a /\ Forall (fun c => is_space c = true) b /\
    piece = (a ++ list_ascii_of_string name ++ b)%list.

(** Comma-separated pieces. *)
Fixpoint comma_separated (pieces : list text) : text :=
  match pieces with
  | [] => []
  | [p] => p
  | p :: ps => (p ++ ","%char :: comma_separated ps)%list
  end.

(** A first line that names the 25 columns in order. *)
Definition is_header (line : text) : Prop :=
  exists pieces, line = comma_separated pieces /\ Forall (fun p => ~ In ","%char p) pieces /\
    Forall2 padded columns pieces.

(** The three ellipse fields are all blank or all numbers. *)
Definition ellipse_consistent {AR : Ops} (e : entry AR) : Prop :=
  ellipse_all_blank e \/ (forall f, In f ellipse -> exists x, get (Some f) e = VFlt x).
