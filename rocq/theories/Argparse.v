(** Model of the command line: the parser built by console.py:30-51 and how Python 2.7's argparse
    applies it (console.py:54-71).  Follows argparse.py of CPython 2.7 for this parser:
    options -h/--help, -i/--input-file with one value, -d/--detailed, -v/--version; no positional
    arguments.  The texts printed are not modelled. *)
From Coq Require Import ZArith Bool Ascii String List.
From Verif Require Import Base Ops PyStr SourceModel Nrml World Jobs Workflow Main.
Import ListNotations.

(** The four actions, console.py:36-50. *)
Inductive action : Type := Help | Input | Detailed | Version.

(** The option strings, console.py:36,42,48; argparse adds -h and --help. *)
Definition option_strings : list (text * action) :=
  [(t "-h", Help); (t "--help", Help); (t "-i", Input); (t "--input-file", Input);
   (t "-d", Detailed); (t "--detailed", Detailed); (t "-v", Version); (t "--version", Version)].

(** nargs=1, console.py:38; the other actions take no value. *)
Definition takes_value (a : action) : bool := match a with Input => true | _ => false end.

Definition find_option (s : text) : option action :=
  match filter (fun o => text_eqb (fst o) s) option_strings with
  | o :: _ => Some (snd o)
  | [] => None
  end.

(** str.startswith. *)
Fixpoint starts_with (p s : text) : bool :=
  match p, s with
  | [], _ => true
  | a :: p', b :: s' => Ascii.eqb a b && starts_with p' s'
  | _ :: _, [] => false
  end.

Definition dash : ascii := "-"%char.
Definition equals_sign : ascii := "="%char.

(** s.split('=', 1) when there is an equals sign. *)
Fixpoint split_equals (s : text) : option (text * text) :=
  match s with
  | [] => None
  | c :: s' => if Ascii.eqb c equals_sign then Some ([], s')
               else match split_equals s' with Some (a, b) => Some (c :: a, b) | None => None end
  end.

(** argparse's negative numbers: -\d+ or -\d*\.\d+ (a final line break is ignored by $). *)
Definition is_digit_char (c : ascii) : bool :=
  let n := nat_of_ascii c in Nat.leb 48 n && Nat.leb n 57.
Definition all_digits (s : text) : bool := forallb is_digit_char s.
Definition some_digits (s : text) : bool := match s with [] => false | _ => all_digits s end.
Definition drop_newline (s : text) : text :=
  match rev s with c :: r => if Ascii.eqb c chr_lf then rev r else s | [] => s end.
Definition negative_number (s : text) : bool :=
  match drop_newline s with
  | c :: r => Ascii.eqb c dash &&
      (some_digits r || match split_on "."%char r with [a; b] => all_digits a && some_digits b | _ => false end)
  | [] => false
  end.

(** How one argument is read (_parse_optional): a value, an option with the text given after it in
    the same argument, an unknown option, or an abbreviation of several options. *)
Inductive reading : Type :=
| Value
| Option (a : action) (long : bool) (given : option text)
| Unknown
| Ambiguous.

Definition is_long (s : text) : bool := starts_with (t "--") s.

(** _get_option_tuples: abbreviations of long options; a short option with text attached. *)
Definition candidates (s : text) : list (text * action * option text) :=
  if is_long s then
    let (p, e) := match split_equals s with Some (a, b) => (a, Some b) | None => (s, None) end in
    map (fun o => (fst o, snd o, e)) (filter (fun o => starts_with p (fst o)) option_strings)
  else
    flat_map (fun o =>
      if text_eqb (fst o) (firstn 2 s) then [(fst o, snd o, Some (skipn 2 s))]
      else if starts_with s (fst o) then [(fst o, snd o, None)] else []) option_strings.

Definition read_arg (s : text) : reading :=
  match s with
  | [] => Value
  | c :: s' =>
      if negb (Ascii.eqb c dash) then Value
      else match find_option s with
      | Some a => Option a (is_long s) None
      | None =>
          match s' with
          | [] => Value
          | _ =>
              match (match split_equals s with
                     | Some (o, e) => match find_option o with Some a => Some (a, is_long o, e) | None => None end
                     | None => None
                     end) with
              | Some (a, l, e) => Option a l (Some e)
              | None =>
                  match candidates s with
                  | [(o, a, e)] => Option a (is_long o) e
                  | _ :: _ :: _ => Ambiguous
                  | [] => if negative_number s then Value
                          else if existsb (Ascii.eqb chr_space) s then Value
                          else Unknown
                  end
              end
          end
      end
  end.

(** What parse_args gives: the options, the end of the program by help or version (status 0) or by
    an error message (status 2), or an exception of argparse itself. *)
Inductive parsed : Type :=
| Parsed (input_file : option (list text)) (detailed : bool)
| Informed
| Refused
| Crashed.

(** A group of short options in one argument (consume_optional): the actions without value in
    front, then the action with the text left for it. *)
Fixpoint short_group (fuel : nat) (a : action) (given : text) (before : list action)
  : res (list action * (action * option text)) :=
  match fuel with
  | 0 => Err OutOfFuel
  | S fuel' =>
      if takes_value a then Ok (before, (a, Some given))
      else match given with
           | [] => Err IndexError
           | c :: rest =>
               match find_option [dash; c] with
               | None => Err ValueError
               | Some b =>
                   match rest with
                   | [] => Ok (before ++ [a], (b, None))
                   | _ => short_group fuel' b rest (before ++ [a])
                   end
               end
           end
  end.

(** The actions of one argument in order, and whether the last one still needs a value from the
    next argument.  An option without value that is given one with = is refused
    ("ignored explicit argument"). *)
Definition expand (a : action) (long : bool) (given : option text)
  : res (list action * (action * option text)) :=
  match given with
  | None => Ok ([], (a, None))
  | Some e => if takes_value a then Ok ([], (a, Some e))
              else if long then Err ValueError
              else short_group (S (length e)) a e []
  end.

(** Does the parser end the program at one of these actions (-h, -v)? *)
Definition informs (l : list action) : bool :=
  existsb (fun a => match a with Help | Version => true | _ => false end) l.
Definition details (l : list action) : bool :=
  existsb (fun a => match a with Detailed => true | _ => false end) l.

(** _get_values removes "--" from the values of an option. *)
Definition values (v : text) : list text := if text_eqb v (t "--") then [] else [v].

(** The loop of _parse_known_args from left to right; the actions of one argument take place after
    the whole argument and its value have been found; [extra]: some argument was not recognised.
    After "--" everything is a value, and there is no place for values. *)
Fixpoint consume (args : list text) (input : option (list text)) (detailed extra : bool) : parsed :=
  match args with
  | [] => if extra then Refused else Parsed input detailed
  | s :: rest =>
      if text_eqb s (t "--") then Refused
      else match read_arg s with
      | Value | Unknown => consume rest input detailed true
      | Ambiguous => Refused
      | Option a long given =>
          match expand a long given with
          | Err IndexError => Crashed
          | Err _ => Refused
          | Ok (before, last) =>
              let go rest input detailed :=
                if informs before then Informed else consume rest input detailed extra in
              let detailed := detailed || details before in
              match last with
              | (Input, Some v) => go rest (Some (values v)) detailed
              | (Input, None) =>
                  match rest with
                  | v :: rest' =>
                      if text_eqb v (t "--") then Refused
                      else match read_arg v with
                           | Value => go rest' (Some [v]) detailed
                           | _ => Refused
                           end
                  | [] => Refused
                  end
              | (Detailed, _) => go rest input true
              | (_, _) => Informed
              end
          end
      end
  end.

(** Abbreviations of several options are refused before anything else (the classification of all
    arguments up to "--" comes first in _parse_known_args). *)
Fixpoint some_ambiguous (args : list text) : bool :=
  match args with
  | [] => false
  | s :: rest => if text_eqb s (t "--") then false
                 else match read_arg s with Ambiguous => true | _ => some_ambiguous rest end
  end.

(** parse_args, console.py:66. *)
Definition parse_args (args : list text) : parsed :=
  if some_ambiguous args then Refused else consume args None false false.

(** sys.argv[1:] to the argument of [main]: console.py:62-67. An empty list of input files makes
    args.input_file[0] raise IndexError, console.py:67. *)
Inductive command : Type :=
| Runs (a : argv)
| Fails (e : exn).

Definition command_line (args : list text) : command :=
  match args with
  | [] => Runs NoArguments
  | _ =>
      match parse_args args with
      | Parsed None d => Runs (Options None d)
      | Parsed (Some []) _ => Fails IndexError
      | Parsed (Some (p :: _)) d => Runs (Options (Some p) d)
      | Informed | Refused => Runs Exits
      | Crashed => Fails IndexError
      end
  end.
