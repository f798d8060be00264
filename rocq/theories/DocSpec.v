(** Specification for C152: the NRML document of a list of sources, with the names of the
    NRML 0.3 schema (nrml/schema/nrml.xsd, nrml_seismic.xsd) and of GML written out. *)
From Coq Require Import Ascii String List.
From Verif Require Import Base Ops PyStr SourceModel Nrml.
Import ListNotations.
Local Open Scope string_scope.

Definition in_nrml (local : string) : string := "{http://openquake.org/xmlns/nrml/0.3}" ++ local.
Definition in_gml (local : string) : string := "{http://www.opengis.net/gml}" ++ local.

Section DocSpec.
Context {AR : Ops}.
Variable str_float : T -> text.

Definition number (tag : string) (v : T) : xml := Elem tag [] (Some (str_float v)) [].
Definition numbers (vs : list T) : option text := Some (join [" "%char] (map str_float vs)).
Definition points (b : boundary AR) : list T := flat_map (fun p => [fst p; snd p]) (ab_pos b).

(** The element of a source with the identifier [i], the reference system [srs] and the two
    magnitude types [ty] and [dty]. *)
Definition source_element (s : area_source AR) (i srs ty dty : text) : xml :=
  Elem (in_nrml "areaSource") [(in_gml "id", i)] None [
    Elem (in_gml "name") [] (as_name s) [];
    Elem (in_nrml "tectonicRegion") [] (as_tect s) [];
    Elem (in_nrml "areaBoundary") [] None [
      Elem (in_gml "Polygon") [] None [
        Elem (in_gml "exterior") [] None [
          Elem (in_gml "LinearRing") [("srsName", srs)] None [
            Elem (in_gml "posList") [] (numbers (points (as_boundary s))) []]]]];
    Elem (in_nrml "ruptureRateModel") [] None [
      Elem (in_nrml "truncatedGutenbergRichter") [("type", ty)] None [
        number (in_nrml "aValueCumulative") (tg_a (rm_tgr (as_rate s)));
        number (in_nrml "bValue") (tg_b (rm_tgr (as_rate s)));
        number (in_nrml "minMagnitude") (tg_min (rm_tgr (as_rate s)));
        number (in_nrml "maxMagnitude") (tg_max (rm_tgr (as_rate s)))];
      number (in_nrml "strike") (rm_strike (as_rate s));
      number (in_nrml "dip") (rm_dip (as_rate s));
      number (in_nrml "rake") (rm_rake (as_rate s))];
    Elem (in_nrml "ruptureDepthDistribution") [] None [
      Elem (in_nrml "magnitude") [("type", dty)] (numbers (dd_mags (as_depth s))) [];
      Elem (in_nrml "depth") [] (numbers (dd_depth (as_depth s))) []];
    number (in_nrml "hypocentralDepth") (as_hypo s)].

Definition is_source_element (s : area_source AR) (e : xml) : Prop :=
  exists i srs ty dty, as_id s = Some i /\ ab_srs (as_boundary s) = Some srs /\
    tg_type (rm_tgr (as_rate s)) = Some ty /\ dd_type (as_depth s) = Some dty /\ e = source_element s i srs ty dty.

(** The document: the identifiers of the first source, an empty configuration, the sources in order. *)
Definition is_document (ss : list (area_source AR)) (d : xml) : Prop :=
  exists s0 rest n m es, ss = s0 :: rest /\ as_nrml_id s0 = Some n /\ as_sm_id s0 = Some m /\ Forall2 is_source_element ss es /\
    d = Elem (in_nrml "nrml") [(in_gml "id", n)] None [
          Elem (in_nrml "sourceModel") [(in_gml "id", m)] None (Elem (in_nrml "config") [] None [] :: es)].

(** Every text of the sources that is written can be part of an XML document. *)
Definition all_texts (xml_ok : text -> bool) (ss : list (area_source AR)) : Prop :=
  (forall s0 rest x, ss = s0 :: rest -> In x [as_nrml_id s0; as_sm_id s0] -> forall v, x = Some v -> xml_ok v = true) /\
  forall s, In s ss ->
    forall x, In x [as_name s; as_tect s; as_id s; ab_srs (as_boundary s); tg_type (rm_tgr (as_rate s)); dd_type (as_depth s)] ->
      forall v, x = Some v -> xml_ok v = true.

End DocSpec.
