(** The things outside mtoolkit and nrml that a run depends on, as one record, and the file
    system. *)
From Coq Require Import ZArith Bool Ascii String List.
From Verif Require Import Base Ops CatUtil PyStr Csv EqCatalog SourceModel Nrml.
Import ListNotations.

(** The behaviour of the surroundings: libraries, clock and operating system.  Everything
    here is an arbitrary parameter of the theorems. *)
Record world (AR : Ops) : Type := mkWorld {
  w_argsort : list T -> list nat;          (* numpy argsort, declustering.py:188,342 *)
  w_parse_float : text -> option T;        (* float(s) *)
  w_repr_float : T -> text;                (* repr(x), csv writer *)
  w_str_float : T -> text;                 (* str(x), nrml/writer.py *)
  w_now_year : Z;                          (* datetime.now().year, eqcatalog.py:224 *)
  w_dict_order : list key -> list key;     (* dictionary iteration order *)
  w_xml_ok : text -> bool;                 (* strings lxml accepts *)
  w_xml_print : xml -> text;               (* tree.write, nrml/writer.py:62-64 *)
  w_xml_parse : text -> option xml;        (* etree.iterparse with schema: None when the
                                              text is not well formed or not valid *)
  w_polygon : list (T * T) -> res unit;    (* shapely Polygon(..) and is_valid,
                                              catalog_filter.py:64-65,84-102: RuntimeError
                                              when invalid *)
  w_contains : list (T * T) -> T -> T -> bool;  (* polygon.contains(Point(lon, lat)) *)
  w_normals : nat -> nat -> list (list T); (* np.random.normal draws: bootstraps, events *)
  w_fuel : nat;                            (* passes allowed to the unbounded loops *)
  w_exists : text -> bool;                 (* os.path.exists on directories *)
  w_can_write : text -> bool               (* open(path, 'w') succeeds *)
}.
Arguments w_argsort {AR}. Arguments w_parse_float {AR}. Arguments w_repr_float {AR}.
Arguments w_str_float {AR}. Arguments w_now_year {AR}. Arguments w_dict_order {AR}.
Arguments w_xml_ok {AR}. Arguments w_xml_print {AR}. Arguments w_xml_parse {AR}.
Arguments w_polygon {AR}. Arguments w_contains {AR}. Arguments w_normals {AR}.
Arguments w_fuel {AR}. Arguments w_exists {AR}. Arguments w_can_write {AR}.

(** Files: path to content. *)
Definition files := text -> option text.

(** Replace the content of one file. *)
Definition write_file (p c : text) (f : files) : files :=
  fun q => if text_eqb p q then Some c else f q.

(** os.path.dirname (eqcatalog.py:339, nrml/writer.py:45): everything before the last
    slash, without trailing slashes (unless it is all slashes). *)
Fixpoint drop_slashes (s : text) : text :=   (* on the reversed path *)
  match s with
  | c :: s' => if Ascii.eqb c "/"%char then drop_slashes s' else s
  | [] => []
  end.
Fixpoint drop_to_slash (s : text) : text :=
  match s with
  | c :: s' => if Ascii.eqb c "/"%char then s else drop_to_slash s'
  | [] => []
  end.
Definition dirname (p : text) : text :=
  let h := drop_to_slash (rev p) in
  match drop_slashes h with [] => rev h | h' => rev h' end.
