(** Model of nrml/reader.py, nrml/writer.py and nrml/nrml_xml.py over XML trees. *)
From Coq Require Import ZArith Bool Ascii String List.
From Verif Require Import Base Ops PyStr SourceModel.
Import ListNotations.
Local Open Scope res_scope.

(** An XML element as lxml presents it: qualified tag, attributes, text before the first
    child (None when there is none), child elements.  Simplification: comments and processing
    instructions inside a document are not modelled. *)
Inductive xml : Type :=
| Elem (tag : string) (attrs : list (string * text)) (txt : option text) (kids : list xml).

Definition x_tag (e : xml) := match e with Elem g _ _ _ => g end.
Definition x_attrs (e : xml) := match e with Elem _ a _ _ => a end.
Definition x_text (e : xml) := match e with Elem _ _ x _ => x end.
Definition x_kids (e : xml) := match e with Elem _ _ _ k => k end.

(** ** Constants, nrml_xml.py:38-101 *)
Local Open Scope string_scope.
Definition NRML : string := "{http://openquake.org/xmlns/nrml/0.3}".
Definition GML : string := "{http://www.opengis.net/gml}".
Definition ROOT := NRML ++ "nrml".
Definition SOURCE_MODEL := NRML ++ "sourceModel".
Definition CONFIG := NRML ++ "config".
Definition TYPE := "type".
Definition AREA_SOURCE := NRML ++ "areaSource".
Definition GML_ID := GML ++ "id".
Definition GML_NAME := GML ++ "name".
Definition TECTONIC_REGION := NRML ++ "tectonicRegion".
Definition AREA_BOUNDARY := NRML ++ "areaBoundary".
Definition POLYGON := GML ++ "Polygon".
Definition EXTERIOR := GML ++ "exterior".
Definition LINEAR_RING := GML ++ "LinearRing".
Definition LINEAR_RING_NAME := "srsName".
Definition POS_LIST := GML ++ "posList".
Definition RUPTURE_RATE_MODEL := NRML ++ "ruptureRateModel".
Definition TRUNCATED_GUTEN_RICHTER := NRML ++ "truncatedGutenbergRichter".
Definition A_VALUE_CUMULATIVE := NRML ++ "aValueCumulative".
Definition B_VALUE := NRML ++ "bValue".
Definition MIN_MAGNITUDE := NRML ++ "minMagnitude".
Definition MAX_MAGNITUDE := NRML ++ "maxMagnitude".
Definition STRIKE := NRML ++ "strike".
Definition DIP := NRML ++ "dip".
Definition RAKE := NRML ++ "rake".
Definition RUPTURE_DEPTH_DISTRIB := NRML ++ "ruptureDepthDistribution".
Definition MAGNITUDE := NRML ++ "magnitude".
Definition DEPTH := NRML ++ "depth".
Definition HYPOCENTRAL_DEPTH := NRML ++ "hypocentralDepth".
Definition SRS_NAME := "srsName".
Local Close Scope string_scope.

(** ** Tree access *)

(** elem.get(name), None when absent (reader.py:91-98,134,168,194). *)
Fixpoint assoc (name : string) (l : list (string * text)) : option text :=
  match l with
  | [] => None
  | (n, v) :: l' => if String.eqb name n then Some v else assoc name l'
  end.
Definition attr (name : string) (e : xml) : option text := assoc name (x_attrs e).

(** elem.find(tag): first child with the tag. *)
Definition find_child (tag : string) (e : xml) : option xml :=
  find (fun k => String.eqb (x_tag k) tag) (x_kids e).

(** elem.iter(): an element and all its descendants in document order. *)
Fixpoint iter_elems (e : xml) : list xml :=
  match e with Elem _ _ _ kids => e :: flat_map iter_elems kids end.

(** elem.find('.//tag'): first proper descendant with the tag, in document order. *)
Definition find_desc (tag : string) (e : xml) : option xml :=
  find (fun k => String.eqb (x_tag k) tag) (flat_map iter_elems (x_kids e)).

(** find(...).something on a missing element: 'NoneType' object has no attribute. *)
Definition some_elem (o : option xml) : res xml :=
  match o with Some e => Ok e | None => Err AttributeError end.

Section Nrml.
Context {AR : Ops}.

(** float(s), None for ValueError (reader.py:115,138,160-173,195-201). *)
Variable parse_float : text -> option T.
(** str(x) of a float (writer.py:138,175,197-205,228-242,265,271); Python 2 str keeps 12
    significant digits. *)
Variable str_float : T -> text.
(** May lxml hold this string as text or attribute value?  (Otherwise ValueError.) *)
Variable xml_ok : text -> bool.

(** float(text) of an element. *)
Definition float_of (x : option text) : res T :=
  match x with
  | None => Err TypeError
  | Some s => match parse_float s with Some v => Ok v | None => Err ValueError end
  end.

(** float(elem.find(tag).text). *)
Definition float_child (tag : string) (e : xml) : res T :=
  let* k := some_elem (find_child tag e) in float_of (x_text k).

(** text.split() *)
Definition split_of (x : option text) : res (list text) :=
  match x with None => Err AttributeError | Some s => Ok (split_ws s) end.

(** The comprehension of reader.py:138-139: consecutive pairs; an odd number of values
    raises IndexError. *)
Fixpoint points (vs : list text) : res (list (T * T)) :=
  match vs with
  | [] => Ok []
  | a :: b :: vs' =>
      let* x := float_of (Some a) in
      let* y := float_of (Some b) in
      let* ps := points vs' in
      Ok ((x, y) :: ps)
  | [a] => let* _ := float_of (Some a) in Err IndexError
  end.

(** _parse_area_boundary, reader.py:123-143. *)
Definition parse_area_boundary (e : xml) : res (boundary AR) :=
  let* ring := some_elem (find_desc LINEAR_RING e) in
  let* pl := some_elem (find_desc POS_LIST e) in
  let* vs := split_of (x_text pl) in
  let* ps := points vs in
  Ok (mkBoundary (attr LINEAR_RING_NAME ring) ps).

(** _parse_rupture_rate_model, reader.py:146-178. *)
Definition parse_rupture_rate_model (e : xml) : res (rate_model AR) :=
  let* g := some_elem (find_child TRUNCATED_GUTEN_RICHTER e) in
  let* a := float_child A_VALUE_CUMULATIVE g in
  let* b := float_child B_VALUE g in
  let* mn := float_child MIN_MAGNITUDE g in
  let* mx := float_child MAX_MAGNITUDE g in
  let* strike := float_child STRIKE e in
  let* dip := float_child DIP e in
  let* rake := float_child RAKE e in
  Ok (mkRate (mkTgr a b mn mx (attr TYPE g)) strike dip rake).

(** _parse_rupture_depth_distrib, reader.py:181-205. *)
Definition parse_rupture_depth_distrib (e : xml) : res (depth_dist AR) :=
  let* m := some_elem (find_child MAGNITUDE e) in
  let* ms := split_of (x_text m) in
  let* mags := mapM (fun s => float_of (Some s)) ms in
  let* d := some_elem (find_child DEPTH e) in
  let* ds := split_of (x_text d) in
  let* depths := mapM (fun s => float_of (Some s)) ds in
  Ok (mkDepth (attr TYPE m) mags depths).

(** _parse_area_source, reader.py:78-120, for an element and its chain of ancestors
    (nearest first).  The clear() calls only free memory: the cleared elements are not
    looked at again (an areaSource inside an areaSource is not schema valid). *)
Definition parse_area_source (anc : list xml) (e : xml) : res (area_source AR) :=
  match anc with
  | p :: g :: _ =>
      let* name := some_elem (find_child GML_NAME e) in
      let* tect := some_elem (find_child TECTONIC_REGION e) in
      let* be := some_elem (find_child AREA_BOUNDARY e) in
      let* b := parse_area_boundary be in
      let* re := some_elem (find_child RUPTURE_RATE_MODEL e) in
      let* r := parse_rupture_rate_model re in
      let* de := some_elem (find_child RUPTURE_DEPTH_DISTRIB e) in
      let* d := parse_rupture_depth_distrib de in
      let* h := float_child HYPOCENTRAL_DEPTH e in
      Ok (mkSource (attr GML_ID g) (attr GML_ID p) (attr GML_ID e)
            (x_text name) (x_text tect) b r d h None None None)
  | _ => Err AttributeError
  end.

(** The end events of iterparse (reader.py:72): every element after its descendants, with
    its ancestors. *)
Fixpoint end_events (anc : list xml) (e : xml) {struct e} : list (list xml * xml) :=
  match e with
  | Elem _ _ _ kids => flat_map (end_events (e :: anc)) kids ++ [(anc, e)]
  end.

(** The loop of read, reader.py:72-75, over the end events: objects yielded and the
    exception that ended it. *)
Fixpoint read_events (evs : list (list xml * xml)) : list (area_source AR) * option exn :=
  match evs with
  | [] => ([], None)
  | (anc, e) :: evs' =>
      if String.eqb (x_tag e) AREA_SOURCE then
        match parse_area_source anc e with
        | Ok s => let (ss, x) := read_events evs' in (s :: ss, x)
        | Err x => ([], Some x)
        end
      else read_events evs'
  end.

(** NRMLReader.read on a well-formed, schema-valid document, reader.py:62-75. *)
Definition read_doc (d : xml) : list (area_source AR) * option exn :=
  read_events (end_events [] d).

(** ** Writer *)

(** elem.attrib[name] = v: None raises TypeError, an unacceptable string ValueError. *)
Definition set_attr (name : string) (v : option text) : res (list (string * text)) :=
  match v with
  | None => Err TypeError
  | Some s => if xml_ok s then Ok [(name, s)] else Err ValueError
  end.

(** elem.text = v: None is allowed. *)
Definition set_text (v : option text) : res (option text) :=
  match v with
  | None => Ok None
  | Some s => if xml_ok s then Ok (Some s) else Err ValueError
  end.

(** An element with only text. *)
Definition leaf (tag : string) (v : option text) : res xml :=
  let* x := set_text v in Ok (Elem tag [] x []).
Definition num_leaf (tag : string) (v : T) : res xml := leaf tag (Some (str_float v)).

(** _write_area_boundary, writer.py:144-175. *)
Definition write_area_boundary (b : boundary AR) : res xml :=
  let* a := set_attr SRS_NAME (ab_srs b) in
  let vals := flat_map (fun p => [fst p; snd p]) (ab_pos b) in
  let* pl := leaf POS_LIST (Some (join [chr_space] (map str_float vals))) in
  Ok (Elem AREA_BOUNDARY [] None
       [Elem POLYGON [] None [Elem EXTERIOR [] None [Elem LINEAR_RING a None [pl]]]]).

(** _write_truncated_guten_richter, writer.py:208-242. *)
Definition write_truncated_guten_richter (g : tgr AR) : res xml :=
  let* a := set_attr TYPE (tg_type g) in
  let* e1 := num_leaf A_VALUE_CUMULATIVE (tg_a g) in
  let* e2 := num_leaf B_VALUE (tg_b g) in
  let* e3 := num_leaf MIN_MAGNITUDE (tg_min g) in
  let* e4 := num_leaf MAX_MAGNITUDE (tg_max g) in
  Ok (Elem TRUNCATED_GUTEN_RICHTER a None [e1; e2; e3; e4]).

(** _write_rupture_rate_model, writer.py:178-205. *)
Definition write_rupture_rate_model (r : rate_model AR) : res xml :=
  let* g := write_truncated_guten_richter (rm_tgr r) in
  let* e1 := num_leaf STRIKE (rm_strike r) in
  let* e2 := num_leaf DIP (rm_dip r) in
  let* e3 := num_leaf RAKE (rm_rake r) in
  Ok (Elem RUPTURE_RATE_MODEL [] None [g; e1; e2; e3]).

(** _write_rupture_depth_distrib, writer.py:245-272. *)
Definition write_rupture_depth_distrib (d : depth_dist AR) : res xml :=
  let* a := set_attr TYPE (dd_type d) in
  let* x := set_text (Some (join [chr_space] (map str_float (dd_mags d)))) in
  let* e := leaf DEPTH (Some (join [chr_space] (map str_float (dd_depth d)))) in
  Ok (Elem RUPTURE_DEPTH_DISTRIB [] None [Elem MAGNITUDE a x []; e]).

(** _area_source_elem, writer.py:109-141. *)
Definition area_source_elem (s : area_source AR) : res xml :=
  let* a := set_attr GML_ID (as_id s) in
  let* name := leaf GML_NAME (as_name s) in
  let* tect := leaf TECTONIC_REGION (as_tect s) in
  let* b := write_area_boundary (as_boundary s) in
  let* r := write_rupture_rate_model (as_rate s) in
  let* d := write_rupture_depth_distrib (as_depth s) in
  let* h := num_leaf HYPOCENTRAL_DEPTH (as_hypo s) in
  Ok (Elem AREA_SOURCE a None [name; tect; b; r; d; h]).

(** The tree built by serialize, writer.py:58-61,67-106: header from the first source
    (IndexError for an empty list), then one element per source. *)
Definition write_doc (ss : list (area_source AR)) : res xml :=
  match ss with
  | [] => Err IndexError
  | s0 :: _ =>
      let* ra := set_attr GML_ID (as_nrml_id s0) in
      let* ma := set_attr GML_ID (as_sm_id s0) in
      let* es := mapM area_source_elem ss in
      Ok (Elem ROOT ra None
           [Elem SOURCE_MODEL ma None (Elem CONFIG [] None [] :: es)])
  end.

End Nrml.

(** ** Text form of a document *)

(** The tree that parsing gives back for a tree written by tree.write(pretty_print=True)
    (writer.py:62-64): empty text is no text, and an element with children but no text gets
    the indentation of its depth as text. *)
Fixpoint reparsed (indent : nat -> option text) (depth : nat) (e : xml) : xml :=
  match e with
  | Elem g a x kids =>
      let x' := match kids, x with
                | [], Some [] => None
                | [], _ => x
                | _ :: _, None => indent depth
                | _ :: _, Some [] => indent depth
                | _ :: _, Some _ => x
                end in
      Elem g a x' (map (reparsed indent (S depth)) kids)
  end.
