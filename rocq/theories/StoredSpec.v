(** Specification for C154: the text of a stored catalogue, character by character. *)
From Coq Require Import ZArith Ascii String List.
From Verif Require Import Base Ops PyStr PyStrProofs EqCatalog EqCatSpec.
Import ListNotations.

Definition cr : ascii := "013"%char.
Definition lf : ascii := "010"%char.

(** The heading, as the documentation of the format gives it. *)
Definition heading : text :=
  t "eventID,Agency,Identifier,year,month,day,hour,minute,second,timeError,longitude,latitude,SemiMajor90,SemiMinor90,ErrorStrike,depth,depthError,Mw,sigmaMw,Ms,sigmaMs,mb,sigmamb,ML,sigmaML".

(** An integer in decimal, without superfluous zeros. *)
Definition integer_text (z : Z) (s : text) : Prop :=
  exists sign q, s = (sign ++ q)%list /\ Forall digit q /\
    (q = ["0"%char] \/ exists c q', q = c :: q' /\ c <> "0"%char) /\
    ((sign = [] /\ decimal_value q = z) \/ (sign = ["-"%char] /\ (0 < decimal_value q)%Z /\ (- decimal_value q)%Z = z)).

Section S.
Context {AR : Ops}.
Variable repr_float : T -> text.

(** The characters of a value: a whole number in decimal, a float as repr prints it, a text as it is. *)
Inductive shows : pyval AR -> text -> Prop :=
| shows_int : forall z s, integer_text z s -> shows (VInt z) s
| shows_float : forall x, shows (VFlt x) (repr_float x)
| shows_text : forall s, shows (VStr s) s.

(** Quotes are doubled, all else is kept. *)
Inductive doubled : text -> text -> Prop :=
| doubled_end : doubled [] []
| doubled_quote : forall s d, doubled s d -> doubled ("034"%char :: s) ("034"%char :: "034"%char :: d)
| doubled_other : forall c s d, c <> "034"%char -> doubled s d -> doubled (c :: s) (c :: d).

Definition special (s : text) : Prop := exists c, In c s /\ In c [","%char; "034"%char; cr; lf].

(** A field stands in quotes exactly if it contains a comma, a quote or a line end. *)
Definition field_text (s f : text) : Prop :=
  (special s /\ exists d, doubled s d /\ f = ("034"%char :: d ++ ["034"%char])%list) \/ (~ special s /\ f = s).

(** The line of an entry: its 25 values in the documented order, separated by commas. *)
Definition entry_line (e : entry AR) (l : text) : Prop :=
  exists raws f fs, Forall2 (fun n s => shows (get (Some n) e) s) columns raws /\
    Forall2 field_text raws (f :: fs) /\
    l = (f ++ List.concat (map (fun g => ","%char :: g) fs) ++ [cr; lf])%list.

Definition stored_text (es : list (entry AR)) (out : text) : Prop :=
  exists ls, Forall2 entry_line es ls /\ out = (heading ++ [cr; lf] ++ List.concat ls)%list.
End S.
