(** The XML schema of NRML 0.3 for source models, transcribed from nrml/schema/nrml.xsd,
    nrml_seismic.xsd, nrml_common.xsd and gmlsf.xsd.  Only what the schema says; nothing of
    nrml/reader.py or nrml/writer.py.

    Simplifications: the root is the nrml element (libxml2 would accept any global element);
    point and fault sources and the other contents of nrml are only known by their tags and by not
    containing area sources, which their types do not; anyURI values are arbitrary; ids are
    compared without collapsing blanks.  Vertical tab and form feed, which str.split() counts as
    blanks, cannot occur in XML, so [blanks] of NrmlSpec is the blank of XML. *)
From Coq Require Import ZArith Bool Ascii String List.
From Verif Require Import Base Ops PyStr SourceModel Nrml NrmlSpec.
Import ListNotations.

(** ** Tags that the reader does not know *)
Definition DESCRIPTION := (GML ++ "description")%string.
Definition BOUNDED_BY := (GML ++ "boundedBy")%string.
Definition ENVELOPE := (GML ++ "Envelope")%string.
Definition LOWER_CORNER := (GML ++ "lowerCorner")%string.
Definition UPPER_CORNER := (GML ++ "upperCorner")%string.
Definition INTERIOR := (GML ++ "interior")%string.
Definition EVENLY_MFD := (NRML ++ "evenlyDiscretizedIncrementalMFD")%string.
Definition HAZARD_PROCESSING := (NRML ++ "hazardProcessing")%string.
Definition OTHER_SOURCES : list string :=
  [(NRML ++ "pointSource")%string; (NRML ++ "simpleFaultSource")%string; (NRML ++ "complexFaultSource")%string].
Definition OTHER_CONTENTS : list string :=
  map (fun s => (NRML ++ s)%string)
    ["hazardResult"; "pointRupture"; "simpleFaultRupture"; "complexFaultRupture"; "arbitrarilyComplexRupture";
     "riskResult"; "exposurePortfolio"; "vulnerabilityModel"; "logicTree"; "disaggregationResultField";
     "uhsResultSet"]%string.

(** ** xs:double *)

Definition decimal_digits (s : text) : Prop := Forall (fun c => (48 <= nat_of_ascii c <= 57)%nat) s.

(** 12, 12., 12.5 or .5 *)
Inductive unsigned_decimal : text -> Prop :=
| ud_int : forall a, a <> [] -> decimal_digits a -> unsigned_decimal a
| ud_point : forall a b, decimal_digits a -> decimal_digits b -> (a <> [] \/ b <> []) ->
    unsigned_decimal (a ++ "."%char :: b).

Definition sign (g : text) : Prop := g = [] \/ g = t "+" \/ g = t "-".

Inductive xs_double : text -> Prop :=
| xd_plain : forall g m, sign g -> unsigned_decimal m -> xs_double (g ++ m)
| xd_exp : forall g m c h e, sign g -> unsigned_decimal m -> c = "e"%char \/ c = "E"%char ->
    sign h -> e <> [] -> decimal_digits e -> xs_double (g ++ m ++ c :: h ++ e)
| xd_special : forall s, In s [t "INF"; t "-INF"; t "NaN"] -> xs_double s.

(** xs:ID is an NCName; bytes above 127 belong to letters of other alphabets. *)
Definition name_start (c : ascii) : Prop :=
  let n := nat_of_ascii c in ((65 <= n <= 90) \/ (97 <= n <= 122) \/ n = 95 \/ 128 <= n)%nat.
Definition name_char (c : ascii) : Prop :=
  let n := nat_of_ascii c in (name_start c \/ 48 <= n <= 57 \/ n = 45 \/ n = 46)%nat.
Definition nc_name (s : text) : Prop := exists c r, s = c :: r /\ name_start c /\ Forall name_char r.

(** ** Pieces of content *)

(** At most one element. *)
Definition optional (P : xml -> Prop) (l : list xml) : Prop := l = [] \/ exists e, l = [e] /\ P e.

(** Only the given attributes (schema location hints are allowed everywhere). *)
Definition attrs_among (names : list string) (e : xml) : Prop :=
  NoDup (map fst (x_attrs e)) /\
  Forall (fun a => In (fst a) (["{http://www.w3.org/2001/XMLSchema-instance}schemaLocation";
                                "{http://www.w3.org/2001/XMLSchema-instance}noNamespaceSchemaLocation"]%string ++ names))
    (x_attrs e).

(** Text content, no child elements. *)
Definition simple (tag : string) (names : list string) (ok : option text -> Prop) (e : xml) : Prop :=
  x_tag e = tag /\ attrs_among names e /\ x_kids e = [] /\ ok (x_text e).

(** Child elements, and only blanks as text. *)
Definition complex (tag : string) (names : list string) (content : list xml -> Prop) (e : xml) : Prop :=
  x_tag e = tag /\ attrs_among names e /\ (forall s, x_text e = Some s -> blanks s) /\ content (x_kids e).

Definition any_text (x : option text) : Prop := True.

(** The text is the literal [w] between blanks. *)
Definition literal (x : option text) (w : text) : Prop :=
  exists b b', blanks b /\ blanks b' /\ x = Some (b ++ w ++ b').

(** The text is a list of literals; no text is the empty list. *)
Definition literals (x : option text) (ws : list text) : Prop :=
  (x = None /\ ws = []) \/ exists s, x = Some s /\ words s ws.

Section Schema.
Context {AR : Ops}.
(** The value of an xs:double literal; float() of Python has the same values. *)
Variable value : text -> option T.

Definition double (x : option text) : Prop := exists w, literal x w /\ xs_double w.
Definition double_between (lo hi : Z) (x : option text) : Prop :=
  exists w v, literal x w /\ xs_double w /\ value w = Some v /\ leb (ofZ lo) v = true /\ leb v (ofZ hi) = true.
Definition non_negative_literal (w : text) : Prop :=
  xs_double w /\ exists v, value w = Some v /\ leb (ofZ 0) v = true.
Definition non_negative (x : option text) : Prop := exists w, literal x w /\ non_negative_literal w.
Definition double_list (x : option text) : Prop := exists ws, literals x ws /\ Forall xs_double ws.
Definition non_negative_list (x : option text) : Prop := exists ws, literals x ws /\ Forall non_negative_literal ws.

(** ** gmlsf.xsd *)

(** StandardObjectProperties, gmlsf.xsd:937-959: description?, name*. *)
Definition standard (ks : list xml) : Prop :=
  exists ds ns, ks = ds ++ ns /\ optional (simple DESCRIPTION [] any_text) ds /\
    Forall (simple GML_NAME ["codeSpace"%string] any_text) ns.

(** boundedBy, gmlsf.xsd:818-838,895-904. *)
Definition envelope : xml -> Prop :=
  complex ENVELOPE [SRS_NAME] (fun ks => exists lo hi, ks = [lo; hi] /\
    simple LOWER_CORNER [] double_list lo /\ simple UPPER_CORNER [] double_list hi).
Definition bounded_by : xml -> Prop :=
  complex BOUNDED_BY [] (fun ks => exists e, ks = [e] /\ envelope e /\ attr SRS_NAME e <> None).

(** AbstractFeatureType, gmlsf.xsd:856-893: the standard properties and boundedBy? in front. *)
Definition feature (ks : list xml) : Prop :=
  exists st bb, ks = st ++ bb /\ standard st /\ optional bounded_by bb.

(** LinearRing, gmlsf.xsd:563-592,626-659. *)
Definition linear_ring : xml -> Prop :=
  complex LINEAR_RING [GML_ID; SRS_NAME] (fun ks => exists st l, ks = st ++ [l] /\ standard st /\
    simple POS_LIST [] double_list l).
(** exterior and interior, gmlsf.xsd:528-561. *)
Definition ring_property (tag : string) : xml -> Prop :=
  complex tag [] (fun ks => exists r, ks = [r] /\ linear_ring r).
(** Polygon, gmlsf.xsd:503-524: exterior?, interior*. *)
Definition polygon : xml -> Prop :=
  complex POLYGON [GML_ID; SRS_NAME] (fun ks => exists st ext ints, ks = st ++ ext ++ ints /\ standard st /\
    optional (ring_property EXTERIOR) ext /\ Forall (ring_property INTERIOR) ints).

(** ** nrml_seismic.xsd *)

(** TectonicRegion, nrml_seismic.xsd:42-51. *)
Definition TECTONIC_REGIONS : list text :=
  [t "Active Shallow Crust"; t "Stable Shallow Crust"; t "Subduction Interface"; t "Subduction IntraSlab"; t "Volcanic"].
Definition tectonic_region : xml -> Prop :=
  simple TECTONIC_REGION [] (fun x => exists s, x = Some s /\ In s TECTONIC_REGIONS).

(** AreaBoundary, nrml_seismic.xsd:169-177. *)
Definition area_boundary : xml -> Prop :=
  complex AREA_BOUNDARY [] (fun ks => exists p, ks = [p] /\ polygon p).

(** MagnitudeType, nrml_common.xsd:51-56, of an optional attribute. *)
Definition MAGNITUDE_TYPES : list text := [t "ML"; t "Mw"].
Definition magnitude_type (e : xml) : Prop := forall v, attr TYPE e = Some v -> In v MAGNITUDE_TYPES.

(** TruncatedGutenbergRichter, nrml_seismic.xsd:218-228. *)
Definition truncated (e : xml) : Prop :=
  magnitude_type e /\
  complex TRUNCATED_GUTEN_RICHTER [TYPE] (fun ks => exists a b mn mx, ks = [a; b; mn; mx] /\
    simple A_VALUE_CUMULATIVE [] double a /\ simple B_VALUE [] non_negative b /\
    simple MIN_MAGNITUDE [TYPE] double mn /\ simple MAX_MAGNITUDE [TYPE] double mx) e.
(** EvenlyDiscretizedIncrementalMFD, nrml_seismic.xsd:230-238, nrml_common.xsd:88-103. *)
Definition evenly (e : xml) : Prop :=
  magnitude_type e /\ simple EVENLY_MFD [TYPE; "minVal"; "binSize"]%string double_list e /\
  double (attr "minVal" e) /\ non_negative (attr "binSize" e).
(** RuptureRateModel, nrml_seismic.xsd:207-216,23-40. *)
Definition rate_model_type : xml -> Prop :=
  complex RUPTURE_RATE_MODEL [] (fun ks => exists m s d k, ks = [m; s; d; k] /\ (truncated m \/ evenly m) /\
    simple STRIKE [] (double_between 0 360) s /\ simple DIP [] (double_between 0 90) d /\
    simple RAKE [] (double_between (-180) 180) k).
(** RuptureDepthDistribution, nrml_seismic.xsd:136-143, nrml_common.xsd:58-64. *)
Definition depth_distribution : xml -> Prop :=
  complex RUPTURE_DEPTH_DISTRIB [] (fun ks => exists m d, ks = [m; d] /\
    simple MAGNITUDE [TYPE] double_list m /\ magnitude_type m /\ simple DEPTH [] non_negative_list d).

(** AreaSource, nrml_seismic.xsd:112-134,157-167: one or more rate models. *)
Definition area_source_type (e : xml) : Prop :=
  attr GML_ID e <> None /\
  complex AREA_SOURCE [GML_ID] (fun ks => exists ft tr ab rs dd h,
    ks = ft ++ [tr; ab] ++ rs ++ [dd; h] /\ feature ft /\ tectonic_region tr /\ area_boundary ab /\
    rs <> [] /\ Forall rate_model_type rs /\ depth_distribution dd /\
    simple HYPOCENTRAL_DEPTH [] non_negative h) e.

(** Contents that are not described further. *)
Definition opaque (tags : list string) (e : xml) : Prop :=
  In (x_tag e) tags /\ forall k, In k (below e) -> x_tag k <> AREA_SOURCE.

(** SourceModel, nrml_seismic.xsd:394-404; Config, nrml_common.xsd:14-18. *)
Definition config_type : xml -> Prop :=
  complex CONFIG [] (optional (fun k => x_tag k = HAZARD_PROCESSING /\ x_kids k = [])).
Definition source_model (e : xml) : Prop :=
  attr GML_ID e <> None /\
  complex SOURCE_MODEL [GML_ID] (fun ks => exists ft cf srcs, ks = ft ++ cf ++ srcs /\ feature ft /\
    optional config_type cf /\ srcs <> [] /\ Forall (fun s => area_source_type s \/ opaque OTHER_SOURCES s) srcs) e.

(** NRML, nrml.xsd:27-46. *)
Definition root (e : xml) : Prop :=
  attr GML_ID e <> None /\
  complex ROOT [GML_ID] (fun ks => exists ft ch, ks = ft ++ ch /\ feature ft /\
    optional (fun c => source_model c \/ opaque OTHER_CONTENTS c) ch) e.

(** The ids of a document; gml:id is of type xs:ID, gmlsf.xsd:994-1006. *)
Definition ids (d : xml) : list text :=
  flat_map (fun p => match attr GML_ID (snd p) with Some v => [v] | None => [] end) (located [] d).

Definition valid_document (d : xml) : Prop := root d /\ NoDup (ids d) /\ Forall nc_name (ids d).

(** ** What the reader needs beyond the schema *)

(** The area source has a name, a ring whose coordinates come in pairs, a truncated
    Gutenberg-Richter distribution in its first rate model, and text in its two depth lists. *)
Record readable (e : xml) : Prop := {
  rd_name : exists k, In k (x_kids e) /\ x_tag k = GML_NAME;
  rd_ring : exists l s ws, first_tagged POS_LIST (below e) l /\ x_text l = Some s /\ words s ws /\
    Nat.even (length ws) = true;
  rd_rate : exists r g, first_tagged RUPTURE_RATE_MODEL (x_kids e) r /\ In g (x_kids r) /\
    x_tag g = TRUNCATED_GUTEN_RICHTER;
  rd_lists : exists m d, first_tagged MAGNITUDE (below e) m /\ x_text m <> None /\
    first_tagged DEPTH (below e) d /\ x_text d <> None }.

(** float() has a value for every xs:double literal, blanks around it included. *)
Definition reads_doubles : Prop :=
  forall b w b', blanks b -> blanks b' -> xs_double w ->
    (exists v, value w = Some v) /\ value (b ++ w ++ b') = value w.

(** ** What the writer needs beyond its own checks *)

(** The printed number is a literal, and within the limits. *)
Definition printed_between (lo hi : Z) (s : text) : Prop :=
  xs_double s /\ exists v, value s = Some v /\ leb (ofZ lo) v = true /\ leb v (ofZ hi) = true.

Record fits_schema (str : T -> text) (s : area_source AR) : Prop := {
  ft_tect : exists v, as_tect s = Some v /\ In v TECTONIC_REGIONS;
  ft_types : exists v w, tg_type (rm_tgr (as_rate s)) = Some v /\ In v MAGNITUDE_TYPES /\
    dd_type (as_depth s) = Some w /\ In w MAGNITUDE_TYPES;
  ft_doubles : Forall (fun x => xs_double (str x)) (flat_points (ab_pos (as_boundary s)) ++ dd_mags (as_depth s) ++
    let g := rm_tgr (as_rate s) in [tg_a g; tg_min g; tg_max g]);
  ft_limits : printed_between 0 360 (str (rm_strike (as_rate s))) /\
    printed_between 0 90 (str (rm_dip (as_rate s))) /\ printed_between (-180) 180 (str (rm_rake (as_rate s)));
  ft_signs : Forall (fun x => non_negative_literal (str x))
    (tg_b (rm_tgr (as_rate s)) :: as_hypo s :: dd_depth (as_depth s)) }.

(** The part of it that concerns numbers. *)
Record numbers_fit (str : T -> text) (s : area_source AR) : Prop := {
  nf_doubles : Forall (fun x => xs_double (str x)) (flat_points (ab_pos (as_boundary s)) ++ dd_mags (as_depth s) ++
    let g := rm_tgr (as_rate s) in [tg_a g; tg_min g; tg_max g]);
  nf_limits : printed_between 0 360 (str (rm_strike (as_rate s))) /\
    printed_between 0 90 (str (rm_dip (as_rate s))) /\ printed_between (-180) 180 (str (rm_rake (as_rate s)));
  nf_signs : Forall (fun x => non_negative_literal (str x))
    (tg_b (rm_tgr (as_rate s)) :: as_hypo s :: dd_depth (as_depth s)) }.

End Schema.

(** ** The same source with less in it *)

(** [e'] is [e] without the holes of its polygon and without the rate models after the first. *)
Inductive without_details : xml -> xml -> Prop :=
| wd : forall a x ft tr ba bx pa px st ea ex ek ints r rs dd h, let ext := Elem EXTERIOR ea ex ek in
    without_details
      (Elem AREA_SOURCE a x (ft ++ [tr; Elem AREA_BOUNDARY ba bx [Elem POLYGON pa px (st ++ [ext] ++ ints)]] ++ (r :: rs) ++ [dd; h]))
      (Elem AREA_SOURCE a x (ft ++ [tr; Elem AREA_BOUNDARY ba bx [Elem POLYGON pa px (st ++ [ext])]] ++ [r] ++ [dd; h])).

(** The optional attributes that the writer wants. *)
Definition labelled (e : xml) : Prop :=
  exists r g m, first_tagged LINEAR_RING (below e) r /\ attr SRS_NAME r <> None /\
    first_tagged TRUNCATED_GUTEN_RICHTER (below e) g /\ attr TYPE g <> None /\
    first_tagged MAGNITUDE (below e) m /\ attr TYPE m <> None.

(** All texts and attribute values of a document are accepted by lxml (they came from lxml). *)
Definition all_accepted (xml_ok : text -> bool) (d : xml) : Prop :=
  forall p, In p (located [] d) -> (forall s, x_text (snd p) = Some s -> xml_ok s = true) /\
    forall a, In a (x_attrs (snd p)) -> xml_ok (snd a) = true.
