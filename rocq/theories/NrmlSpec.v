(** Specification of reading and writing source models, independent of nrml/reader.py and
    nrml/writer.py. *)
From Coq Require Import ZArith Bool Ascii String List.
From Verif Require Import Base Ops PyStr SourceModel Nrml.
Import ListNotations.

(** ** Texts *)

Definition blanks (s : text) : Prop := Forall (fun c => is_space c = true) s.

(** A non-empty text without blanks. *)
Definition word (s : text) : Prop := s <> [] /\ Forall (fun c => is_space c = false) s.

(** [s] is the words [ws] surrounded and separated by blanks. *)
Inductive words : text -> list text -> Prop :=
| words_nil : forall b, blanks b -> words b []
| words_last : forall b w b', blanks b -> word w -> blanks b' -> words (b ++ w ++ b') [w]
| words_more : forall b w c s ws, blanks b -> word w -> is_space c = true -> words s ws ->
    words (b ++ w ++ c :: s) (w :: ws).

(** ** Elements of a document *)

(** Every element with its ancestors (nearest first), in document order. *)
Fixpoint located (anc : list xml) (e : xml) : list (list xml * xml) :=
  match e with
  | Elem _ _ _ kids => (anc, e) :: flat_map (located (e :: anc)) kids
  end.

Definition is_area (p : list xml * xml) : bool := String.eqb (x_tag (snd p)) AREA_SOURCE.

(** The areaSource elements of a document in document order, with their ancestors. *)
Definition area_elements (d : xml) : list (list xml * xml) := filter is_area (located [] d).

(** The elements below [e], in document order. *)
Definition below (e : xml) : list xml := tl (map snd (located [] e)).

(** No areaSource lies inside an areaSource (the schema forbids it). *)
Definition not_nested (d : xml) : Prop :=
  forall anc e, In (anc, e) (area_elements d) ->
    forall e', In e' (below e) -> x_tag e' <> AREA_SOURCE.

(** [k] is the first element of the list with the tag. *)
Definition first_tagged (tag : string) (l : list xml) (k : xml) : Prop :=
  exists pre post, l = pre ++ k :: post /\ x_tag k = tag /\ forall k', In k' pre -> x_tag k' <> tag.

Section NrmlSpec.
Context {AR : Ops}.
Variable parse_float : text -> option T.

Definition number_in (tag : string) (e : xml) (v : T) : Prop :=
  exists k s, first_tagged tag (x_kids e) k /\ x_text k = Some s /\ parse_float s = Some v.

(** The text of an element is a blank-separated list of numbers. *)
Definition numbers_in (k : xml) (vs : list T) : Prop :=
  exists s ws, x_text k = Some s /\ words s ws /\ Forall2 (fun w v => parse_float w = Some v) ws vs.

Definition flat_points (ps : list (T * T)) : list T := flat_map (fun p => [fst p; snd p]) ps.

(** The source object says what its element and the two enclosing elements say. *)
Record represents (anc : list xml) (e : xml) (s : area_source AR) : Prop := {
  rp_ids : exists p g rest, anc = p :: g :: rest /\ as_nrml_id s = attr GML_ID g /\ as_sm_id s = attr GML_ID p;
  rp_id : as_id s = attr GML_ID e;
  rp_name : exists k, first_tagged GML_NAME (x_kids e) k /\ as_name s = x_text k;
  rp_tect : exists k, first_tagged TECTONIC_REGION (x_kids e) k /\ as_tect s = x_text k;
  rp_bound : exists b r l, first_tagged AREA_BOUNDARY (x_kids e) b /\
    first_tagged LINEAR_RING (below b) r /\ ab_srs (as_boundary s) = attr LINEAR_RING_NAME r /\
    first_tagged POS_LIST (below b) l /\ numbers_in l (flat_points (ab_pos (as_boundary s)));
  rp_rate : exists r, first_tagged RUPTURE_RATE_MODEL (x_kids e) r /\
    number_in STRIKE r (rm_strike (as_rate s)) /\ number_in DIP r (rm_dip (as_rate s)) /\
    number_in RAKE r (rm_rake (as_rate s)) /\
    exists g, first_tagged TRUNCATED_GUTEN_RICHTER (x_kids r) g /\
      number_in A_VALUE_CUMULATIVE g (tg_a (rm_tgr (as_rate s))) /\
      number_in B_VALUE g (tg_b (rm_tgr (as_rate s))) /\
      number_in MIN_MAGNITUDE g (tg_min (rm_tgr (as_rate s))) /\
      number_in MAX_MAGNITUDE g (tg_max (rm_tgr (as_rate s))) /\
      tg_type (rm_tgr (as_rate s)) = attr TYPE g;
  rp_depth : exists d m p, first_tagged RUPTURE_DEPTH_DISTRIB (x_kids e) d /\
    first_tagged MAGNITUDE (x_kids d) m /\ dd_type (as_depth s) = attr TYPE m /\
    numbers_in m (dd_mags (as_depth s)) /\
    first_tagged DEPTH (x_kids d) p /\ numbers_in p (dd_depth (as_depth s));
  rp_hypo : number_in HYPOCENTRAL_DEPTH e (as_hypo s);
  rp_none : as_sigb s = None /\ as_siga s = None /\ as_mmsig s = None }.

(** ** What a source holds *)

(** Every number of a source. *)
Definition source_numbers (s : area_source AR) : list T :=
  flat_points (ab_pos (as_boundary s)) ++
  (let r := as_rate s in let g := rm_tgr r in
   [tg_a g; tg_b g; tg_min g; tg_max g; rm_strike r; rm_dip r; rm_rake r]) ++
  dd_mags (as_depth s) ++ dd_depth (as_depth s) ++ [as_hypo s].

(** Its texts other than the document ids. *)
Definition source_texts (s : area_source AR) : list (option text) :=
  [as_id s; as_name s; as_tect s; ab_srs (as_boundary s); tg_type (rm_tgr (as_rate s)); dd_type (as_depth s)].

(** Lengths of its three lists. *)
Definition source_shape (s : area_source AR) : nat * nat * nat :=
  (length (ab_pos (as_boundary s)), length (dd_mags (as_depth s)), length (dd_depth (as_depth s))).

(** Can the writer hold the texts of the source?  Attributes must be present; the name and the
    tectonic region may be missing but not empty; the lists of numbers are not empty. *)
Record writable (xml_ok : text -> bool) (s : area_source AR) : Prop := {
  wr_attrs : Forall (fun x => exists v, x = Some v /\ xml_ok v = true)
    [as_nrml_id s; as_sm_id s; as_id s; ab_srs (as_boundary s); tg_type (rm_tgr (as_rate s)); dd_type (as_depth s)];
  wr_texts : Forall (fun x => forall v, x = Some v -> v <> [] /\ xml_ok v = true) [as_name s; as_tect s];
  wr_lists : ab_pos (as_boundary s) <> [] /\ dd_mags (as_depth s) <> [] /\ dd_depth (as_depth s) <> [] }.

End NrmlSpec.
