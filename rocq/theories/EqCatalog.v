(** Model of mtoolkit/eqcatalog.py. *)
From Coq Require Import ZArith Bool Ascii String List.
From Verif Require Import Base Ops PyStr Csv.
Import ListNotations.
Local Open Scope res_scope.
Local Open Scope string_scope.

(** FIELDNAMES, eqcatalog.py:29-37. *)
Definition FIELDNAMES : list string :=
  ["eventID"; "Agency"; "Identifier"; "year"; "month"; "day"; "hour"; "minute"; "second";
   "timeError"; "longitude"; "latitude"; "SemiMajor90"; "SemiMinor90"; "ErrorStrike";
   "depth"; "depthError"; "Mw"; "sigmaMw"; "Ms"; "sigmaMs"; "mb"; "sigmamb"; "ML"; "sigmaML"].

(** to_int, eqcatalog.py:83-84. *)
Definition to_int : list string :=
  ["eventID"; "Identifier"; "year"; "month"; "day"; "hour"; "minute"].

(** to_float, eqcatalog.py:86-91. *)
Definition to_float : list string :=
  ["second"; "timeError"; "longitude"; "latitude"; "SemiMajor90"; "SemiMinor90";
   "ErrorStrike"; "depth"; "depthError"; "Mw"; "sigmaMw"; "Ms"; "sigmaMs"; "mb";
   "sigmamb"; "ML"; "sigmaML"].

(** compulsory_fields, eqcatalog.py:93-94. *)
Definition compulsory_fields : list string :=
  (to_int ++ [nth 2 to_float ""; nth 3 to_float ""; nth 7 to_float ""; nth 9 to_float ""])%list.

Definition mem (s : string) (l : list string) : bool := existsb (String.eqb s) l.

(** validate_csv_catalog, eqcatalog.py:126-136, on the first line of the file. *)
Definition validate_csv_catalog (first_line : text) : res unit :=
  let names := map strip (split_on chr_comma first_line) in
  if Nat.eqb (List.length names) (List.length FIELDNAMES)
     && forallb (fun b => b) (map2 text_eqb names (map t FIELDNAMES))
  then Ok tt else Err MalformedCatalogError.

Section EqCatalog.
Context {AR : Ops}.

(** Values that occur in entry dictionaries (eqcatalog.py:138-196): None and lists come
    from csv.DictReader for short and long rows. *)
Inductive pyval : Type :=
| VInt (z : Z)
| VFlt (f : T)
| VStr (s : text)
| VNone
| VList (l : list text).

(** Dictionary keys: field names, or None for the surplus columns of csv.DictReader. *)
Definition key := option string.

Definition key_eqb (a b : key) : bool :=
  match a, b with
  | Some x, Some y => String.eqb x y
  | None, None => true
  | _, _ => false
  end.

(** An entry dictionary as the list of its items in iteration order. *)
Definition entry := list (key * pyval).

(** d[k] for a key that is present; absent keys do not occur in the modelled code except
    for check_map[None]. *)
Fixpoint get (k : key) (e : entry) : pyval :=
  match e with
  | [] => VNone
  | (k', v) :: e' => if key_eqb k k' then v else get k e'
  end.

(** d[k] = v for a key that is present (does not change the iteration order). *)
Fixpoint put (k : key) (v : pyval) (e : entry) : entry :=
  match e with
  | [] => []
  | (k', v') :: e' => if key_eqb k k' then (k', v) :: e' else (k', v') :: put k v e'
  end.

(** ** Python 2 comparisons between a value and an integer constant, and between values.
    Numbers compare numerically; otherwise None < numbers < lists < strings. *)
Definition py_c_le (c : Z) (v : pyval) : bool :=        (* c <= v *)
  match v with
  | VInt z => (c <=? z)%Z
  | VFlt f => leb (ofZ c) f
  | VNone => false
  | _ => true
  end.
Definition py_le_c (v : pyval) (c : Z) : bool :=        (* v <= c *)
  match v with
  | VInt z => (z <=? c)%Z
  | VFlt f => leb f (ofZ c)
  | VNone => true
  | _ => false
  end.
Definition py_gt_c (v : pyval) (c : Z) : bool :=        (* v > c *)
  match v with
  | VInt z => (c <? z)%Z
  | VFlt f => ltb (ofZ c) f
  | VNone => false
  | _ => true
  end.
Definition py_lt_c (v : pyval) (c : Z) : bool :=        (* v < c *)
  match v with
  | VInt z => (z <? c)%Z
  | VFlt f => ltb f (ofZ c)
  | VNone => true
  | _ => false
  end.
Definition py_rank (v : pyval) : nat :=
  match v with VNone => 0 | VInt _ => 1 | VFlt _ => 1 | VList _ => 2 | VStr _ => 3 end.
(** v <= w; only reached by the code with two floats (eqcatalog.py:293): the other
    same-rank cases are filled in by equality of rank. *)
Definition py_le (v w : pyval) : bool :=
  match v, w with
  | VFlt f, VFlt g => leb f g
  | VInt x, VInt y => (x <=? y)%Z
  | VInt x, VFlt g => leb (ofZ x) g
  | VFlt f, VInt y => leb f (ofZ y)
  | _, _ => Nat.leb (py_rank v) (py_rank w)
  end.
(** v == '' *)
Definition is_blank (v : pyval) : bool := match v with VStr [] => true | _ => false end.
(** v == c *)
Definition py_eq_c (v : pyval) (c : Z) : bool :=
  match v with VInt z => (z =? c)%Z | VFlt f => eqb f (ofZ c) | _ => false end.

Definition blank : pyval := VStr [].

(** ** Checks, eqcatalog.py:198-312: (passed, entry after the check). *)

(** no_check, eqcatalog.py:198-203. *)
Definition no_check (field : string) (e : entry) : bool * entry := (true, e).

(** check_positive_value, eqcatalog.py:205-217. *)
Definition check_positive_value (field : string) (e : entry) : bool * entry :=
  if mem field compulsory_fields then (py_gt_c (get (Some field) e) 0, e)
  else if py_lt_c (get (Some field) e) 0 then (true, put (Some field) blank e)
  else (true, e).

(** check_year, eqcatalog.py:219-224; the current year is a parameter. *)
Definition check_year (now_year : Z) (field : string) (e : entry) : bool * entry :=
  let v := get (Some field) e in
  (py_c_le (-10000) v && py_le_c v now_year, e).

(** check_month, eqcatalog.py:226-231. *)
Definition check_month (field : string) (e : entry) : bool * entry :=
  let v := get (Some field) e in (py_c_le 1 v && py_le_c v 12, e).

(** check_day, eqcatalog.py:233-239. *)
Definition check_day (field : string) (e : entry) : bool * entry :=
  let v := get (Some field) e in
  let m := get (Some "month") e in
  ((py_eq_c m 2 && py_le_c v 29)
   || (negb (py_eq_c m 2) && (py_c_le 1 v && py_le_c v 31)), e).

(** check_hour, eqcatalog.py:241-246. *)
Definition check_hour (field : string) (e : entry) : bool * entry :=
  let v := get (Some field) e in (py_c_le 0 v && py_le_c v 23, e).

(** check_minute, eqcatalog.py:248-253. *)
Definition check_minute (field : string) (e : entry) : bool * entry :=
  let v := get (Some field) e in (py_c_le 0 v && py_le_c v 59, e).

(** check_second, eqcatalog.py:255-265. *)
Definition check_second (field : string) (e : entry) : bool * entry :=
  let v := get (Some field) e in
  if negb (py_c_le 0 v && py_le_c v 59) then (true, put (Some field) blank e) else (true, e).

(** check_longitude, eqcatalog.py:267-272. *)
Definition check_longitude (field : string) (e : entry) : bool * entry :=
  let v := get (Some field) e in (py_c_le (-180) v && py_le_c v 180, e).

(** check_latitude, eqcatalog.py:274-279. *)
Definition check_latitude (field : string) (e : entry) : bool * entry :=
  let v := get (Some field) e in (py_c_le (-90) v && py_le_c v 90, e).

(** check_epicentre_error_location, eqcatalog.py:281-297. *)
Definition check_epicentre_error_location (field : string) (e : entry) : bool * entry :=
  let v := get (Some field) e in
  let smin := get (Some "SemiMinor90") e in
  let smaj := get (Some "SemiMajor90") e in
  if negb (py_c_le 0 v && py_le_c v 360) || is_blank smin || is_blank smaj
     || negb (py_le smin smaj)
  then (true, put (Some field) blank
               (put (Some "SemiMajor90") blank (put (Some "SemiMinor90") blank e)))
  else (true, e).

(** check_sigma_mw, eqcatalog.py:299-312. *)
Definition check_sigma_mw (field : string) (e : entry) : bool * entry :=
  let v := get (Some field) e in
  if is_blank v || py_lt_c v 0 then (true, put (Some field) (VFlt (ofZ 0)) e) else (true, e).

(** check_map, eqcatalog.py:96-122; None: KeyError. *)
Definition check_map (now_year : Z) (k : key) : option (entry -> bool * entry) :=
  match k with
  | None => None
  | Some f =>
      if mem f ["eventID"; "Identifier"; "SemiMajor90"; "SemiMinor90"; "depth"; "depthError";
                "sigmaMs"; "sigmamb"; "sigmaML"] then Some (check_positive_value f)
      else if mem f ["Agency"; "timeError"; "Mw"; "Ms"; "mb"; "ML"] then Some (no_check f)
      else if String.eqb f "year" then Some (check_year now_year f)
      else if String.eqb f "month" then Some (check_month f)
      else if String.eqb f "day" then Some (check_day f)
      else if String.eqb f "hour" then Some (check_hour f)
      else if String.eqb f "minute" then Some (check_minute f)
      else if String.eqb f "second" then Some (check_second f)
      else if String.eqb f "longitude" then Some (check_longitude f)
      else if String.eqb f "latitude" then Some (check_latitude f)
      else if String.eqb f "ErrorStrike" then Some (check_epicentre_error_location f)
      else if String.eqb f "sigmaMw" then Some (check_sigma_mw f)
      else None
  end.

(** ** Reading *)

(** float(s) of Python (eqcatalog.py:187): None for ValueError.  Parameter. *)
Variable parse_float : text -> option T.
(** datetime.now().year (eqcatalog.py:224).  Parameter. *)
Variable now_year : Z.
(** Iteration order of a dictionary into which these keys were inserted in this order
    (Python 2 hash order, eqcatalog.py:148,174).  Parameter: any permutation. *)
Variable dict_order : list key -> list key.

(** csv.DictReader.next for one non-empty record (eqcatalog.py:144): missing columns are
    None, surplus columns go into a list under the key None. *)
Fixpoint zip_row (names : list string) (row : list text) : entry :=
  match names, row with
  | n :: names', v :: row' => (Some n, VStr v) :: zip_row names' row'
  | n :: names', [] => (Some n, VNone) :: zip_row names' []
  | [], [] => []
  | [], _ => [(None, VList row)]
  end.
Definition row_dict (row : list text) : entry :=
  let z := zip_row FIELDNAMES row in
  map (fun k => (k, get k z)) (dict_order (map fst z)).

(** Conversion of one item, eqcatalog.py:174-194.  int(None)/float(None) raise TypeError;
    for a compulsory float the exception class is called with two arguments instead of
    three (lines 191-192), which raises TypeError. *)
Definition convert_item (line : Z) (kv : key * pyval) : res (key * pyval) :=
  match fst kv with
  | None => Ok kv
  | Some f =>
      if mem f to_int then
        match snd kv with
        | VStr s => match parse_int s with
                    | Some z => Ok (fst kv, VInt z)
                    | None => Err (EqEntryValidationError f line)
                    end
        | _ => Err TypeError
        end
      else if mem f to_float then
        match snd kv with
        | VStr s => match parse_float s with
                    | Some x => Ok (fst kv, VFlt x)
                    | None => if mem f compulsory_fields then Err TypeError
                              else Ok (fst kv, blank)
                    end
        | _ => Err TypeError
        end
      else Ok kv
  end.

(** convert_values, eqcatalog.py:168-196. *)
Definition convert_values (line : Z) (e : entry) : res entry := mapM (convert_item line) e.

(** The check loop of read, eqcatalog.py:148-153. *)
Fixpoint check_fields (line : Z) (ks : list key) (e : entry) : res entry :=
  match ks with
  | [] => Ok e
  | k :: ks' =>
      match check_map now_year k with
      | None => Err KeyError
      | Some chk =>
          let (ok, e') := chk e in
          match k with
          | Some f =>
              if negb ok && mem f compulsory_fields
              then Err (EqEntryValidationError f line)
              else check_fields line ks' e'
          | None => check_fields line ks' e'
          end
      end
  end.

(** One pass of the loop of read, eqcatalog.py:146-154. *)
Definition read_entry (line : Z) (row : list text) : res entry :=
  let* e := convert_values line (row_dict row) in
  check_fields line (map fst e) e.

(** The generator read, eqcatalog.py:138-154, over the records of the csv reader: the
    entries yielded and the exception that ended it, if any.  DictReader passes over empty
    records; numbering starts at 2 and counts the records it returns. *)
Fixpoint read_rows (line : Z) (rows : list (list text)) (csv_exn : option exn)
  : list entry * option exn :=
  match rows with
  | [] => ([], csv_exn)
  | [] :: rows' => read_rows line rows' csv_exn
  | row :: rows' =>
      match read_entry line row with
      | Err e => ([], Some e)
      | Ok en => let (es, x) := read_rows (line + 1) rows' csv_exn in (en :: es, x)
      end
  end.

(** The file header: first line and remaining lines (readline, eqcatalog.py:134). *)
Definition first_line (ls : list text) : text := match ls with [] => [] | l :: _ => l end.

(** EqEntryReader(file).read() run to the end, eqcatalog.py:72-154: the constructor may
    raise before anything is yielded. *)
Definition read_file (content : text) : list entry * option exn :=
  let ls := file_lines content in
  match validate_csv_catalog (first_line ls) with
  | Err e => ([], Some e)
  | Ok _ => let (rows, x) := csv_read c_init (tl ls) in read_rows 2 rows x
  end.

(** EqEntryReader(file).read_eq_catalog(), eqcatalog.py:156-166. *)
Definition read_eq_catalog (content : text) : res (list entry) :=
  match read_file content with
  | (es, None) => Ok es
  | (_, Some e) => Err e
  end.

(** ** Writing *)

(** repr(x) of a float (csv writer, eqcatalog.py:350).  Parameter. *)
Variable repr_float : T -> text.

(** Text of a value in the csv writer, eqcatalog.py:350.  (Lists do not occur in entries
    that the reader yields.) *)
Definition value_text (v : pyval) : text :=
  match v with
  | VInt z => print_int z
  | VFlt f => repr_float f
  | VStr s => s
  | VNone => []
  | VList _ => []
  end.

(** rowdict.get(key, '') of csv.DictWriter. *)
Fixpoint get_or_blank (k : key) (e : entry) : pyval :=
  match e with
  | [] => blank
  | (k', v) :: e' => if key_eqb k k' then v else get_or_blank k e'
  end.

(** DictWriter.writerow, eqcatalog.py:350: a key outside FIELDNAMES raises ValueError. *)
Definition dict_row (e : entry) : res (list text) :=
  if forallb (fun k => match k with Some f => mem f FIELDNAMES | None => false end) (map fst e)
  then Ok (map (fun f => value_text (get_or_blank (Some f) e)) FIELDNAMES)
  else Err ValueError.

(** EqEntryWriter.write_rows, eqcatalog.py:344-350: the file contents (header row and one
    record per entry).  Simplification: on an exception the partial file is not modelled. *)
Definition write_rows (entries : list entry) : res text :=
  let* rows := mapM dict_row entries in
  Ok (write_row (map t FIELDNAMES) ++ List.concat (map write_row rows))%list.

End EqCatalog.
Arguments pyval AR : clear implicits.
Arguments entry AR : clear implicits.
