(** Properties C102-C106: the reader, the writer and the results of runs against the XML schema of
    NRML (nrml/schema). *)
From Coq Require Import ZArith Bool Ascii String List.
From Coq Require Import Floats.SpecFloat.
From Verif Require Import Base Ops FloatOps PyStr PyFloat PyFloatProofs SourceModel Nrml NrmlSpec NrmlFinal NrmlSchema NrmlValid2 PyXsd NrmlValid3 NrmlValid4
  NrmlValid5 NrmlSamples World Jobs Main FlowSpec Demo FlowDemo FlowValid FlowValidCases.
Import ListNotations.

(** C102, as stated, is false: valid documents whose area source has no name, a discretised
    magnitude distribution, an odd number of coordinates, no ring or an empty list of magnitudes
    end the reader with an exception. *)
Theorem C102_valid_is_read_refuted :
  forall lm : libm, exists d1 d2 d3 d4 d5,
  (valid_document (AR := FOps lm) py_float d1 /\ read_doc (AR := FOps lm) py_float d1 = ([], Some AttributeError)) /\
  (valid_document (AR := FOps lm) py_float d2 /\ read_doc (AR := FOps lm) py_float d2 = ([], Some AttributeError)) /\
  (valid_document (AR := FOps lm) py_float d3 /\ read_doc (AR := FOps lm) py_float d3 = ([], Some IndexError)) /\
  (valid_document (AR := FOps lm) py_float d4 /\ read_doc (AR := FOps lm) py_float d4 = ([], Some AttributeError)) /\
  (valid_document (AR := FOps lm) py_float d5 /\ read_doc (AR := FOps lm) py_float d5 = ([], Some AttributeError)).
Proof.
  exact (fun lm => ex_intro _ _ (ex_intro _ _ (ex_intro _ _ (ex_intro _ _ (ex_intro _ _ (C102_refuted_proof lm)))))).
Qed.
Print Assumptions C102_valid_is_read_refuted.

(** C102, what holds: a valid document is read to the end exactly when each of its area sources has
    what the reader wants beyond the schema.  Missing: the other valid documents (refuted). *)
Theorem C102_valid_is_read_partial :
  forall (AR : Ops) (value : text -> option T), reads_doubles value -> forall d, valid_document value d ->
  ((exists ss, read_doc value d = (ss, None)) <-> Forall (fun p => readable (snd p)) (area_elements d)).
Proof. exact (@valid_read). Qed.
Print Assumptions C102_valid_is_read_partial.

(** CPython's float() reads every xs:double literal. *)
Theorem C102_float_reads_doubles_partial : forall lm : libm, reads_doubles (AR := FOps lm) py_float.
Proof. exact py_reads_doubles. Qed.
Print Assumptions C102_float_reads_doubles_partial.

Example C102_case : forall lm, exists d, valid_document (AR := FOps lm) py_float d /\ area_elements d <> [] /\
  Forall (fun p => readable (snd p)) (area_elements d).
Proof. intros lm. exists (doc_with [plain_area]). pose proof (plain_case lm) as H. tauto. Qed.

(** C103, as stated, is false: a zone with a hole, a zone with two rate models and the zone with
    neither are all read as the same source. *)
Theorem C103_reading_keeps_all_refuted :
  forall lm : libm, exists e1 e2 e3,
  valid_document (AR := FOps lm) py_float (doc_with [e1]) /\ valid_document (AR := FOps lm) py_float (doc_with [e2]) /\
  valid_document (AR := FOps lm) py_float (doc_with [e3]) /\
  (exists s, read_doc (AR := FOps lm) py_float (doc_with [e1]) = ([s], None) /\
     read_doc (AR := FOps lm) py_float (doc_with [e2]) = ([s], None) /\
     read_doc (AR := FOps lm) py_float (doc_with [e3]) = ([s], None)) /\
  without_details e1 e3 /\ without_details e2 e3 /\ e1 <> e3 /\ e2 <> e3.
Proof. exact (fun lm => ex_intro _ _ (ex_intro _ _ (ex_intro _ _ (C103_refuted_proof lm)))). Qed.
Print Assumptions C103_reading_keeps_all_refuted.

(** C103, what is lost: holes and rate models after the first never make a difference to a valid
    area source.  Missing: that they should (refuted). *)
Theorem C103_reading_keeps_all_partial :
  forall (AR : Ops) (value : text -> option T), forall e e', area_source_type value e -> without_details e e' ->
  area_source_type value e' /\
  forall anc s, parse_area_source value anc e = Ok s <-> parse_area_source value anc e' = Ok s.
Proof. exact (@details_unread). Qed.
Print Assumptions C103_reading_keeps_all_partial.

Example C103_case : forall lm, exists e e', area_source_type (AR := FOps lm) py_float e /\ without_details e e' /\ e <> e'.
Proof.
  intros lm. exists with_hole, plain_area. pose proof (C103_refuted_proof lm) as H. split; [apply with_hole_ok|]. tauto.
Qed.

(** C104, as stated, is false: sources read without srsName or without a magnitude type, and
    a document without area sources, cannot be written. *)
Theorem C104_read_is_written_refuted :
  forall lm : libm, exists d1 d2 d3,
  (exists s, valid_document (AR := FOps lm) py_float d1 /\ read_doc (AR := FOps lm) py_float d1 = ([s], None) /\
     write_doc (AR := FOps lm) py_str printableb [s] = Err TypeError) /\
  (exists s, valid_document (AR := FOps lm) py_float d2 /\ read_doc (AR := FOps lm) py_float d2 = ([s], None) /\
     write_doc (AR := FOps lm) py_str printableb [s] = Err TypeError) /\
  (valid_document (AR := FOps lm) py_float d3 /\ read_doc (AR := FOps lm) py_float d3 = ([], None) /\
     write_doc (AR := FOps lm) py_str printableb [] = Err IndexError).
Proof. exact (fun lm => ex_intro _ _ (ex_intro _ _ (ex_intro _ _ (C104_refuted_proof lm)))). Qed.
Print Assumptions C104_read_is_written_refuted.

(** C104, what holds: the sources of a valid document that was read can be written exactly when
    there are any and each has the three optional attributes.  Missing: the others (refuted). *)
Theorem C104_read_is_written_partial :
  forall (AR : Ops) (value : text -> option T) (str : T -> text) (xml_ok : text -> bool),
  accepts_printable xml_ok -> prints_words str -> forall d ss,
  valid_document value d -> all_accepted xml_ok d -> read_doc value d = (ss, None) ->
  ((exists dc, write_doc str xml_ok ss = Ok dc) <->
   area_elements d <> [] /\ Forall (fun p => labelled (snd p)) (area_elements d)).
Proof. exact (@read_written). Qed.
Print Assumptions C104_read_is_written_partial.

Example C104_case : forall lm, exists d ss, accepts_printable printableb /\ prints_words (AR := FOps lm) py_str /\
  valid_document (AR := FOps lm) py_float d /\ all_accepted printableb d /\ read_doc (AR := FOps lm) py_float d = (ss, None) /\
  area_elements d <> [] /\ Forall (fun p => labelled (snd p)) (area_elements d).
Proof.
  intros lm. exists (doc_with [plain_area]), [plain_source lm]. pose proof (plain_case lm) as H.
  split; [exact printableb_ok|]. split; [exact py_str_word|]. tauto.
Qed.

(** C105, as stated, is false: the default source is written with one id for everything, and an
    infinite maximum magnitude as inf. *)
Theorem C105_written_is_valid_refuted :
  forall lm : libm,
  (exists d, write_doc (AR := FOps lm) py_str printableb [default_area_source] = Ok d /\
     ~ valid_document (AR := FOps lm) py_float (reparsed demo_indent 0 d)) /\
  (exists s d, write_doc (AR := FOps lm) py_str printableb [s] = Ok d /\
     ~ valid_document (AR := FOps lm) py_float (reparsed demo_indent 0 d) /\
     as_tect s = Some (t "Volcanic") /\ tg_max (rm_tgr (as_rate s)) = S754_infinity false).
Proof. exact (fun lm => conj (proj1 (C105_refuted_proof lm)) (ex_intro _ _ (proj2 (C105_refuted_proof lm)))). Qed.
Print Assumptions C105_written_is_valid_refuted.

(** C105, what holds: what is written, indented and parsed is valid exactly when its ids are
    different names, and the texts and printed numbers of each source are what the schema allows.
    Missing: that writer or callers ensure this (refuted). *)
Theorem C105_written_is_valid_partial :
  forall (AR : Ops) (value : text -> option T) (str : T -> text) (xml_ok : text -> bool) (indent : nat -> option text),
  prints_words str -> (forall n s, indent n = Some s -> blanks s) -> forall ss dc,
  write_doc str xml_ok ss = Ok dc -> exists s0 ss', ss = s0 :: ss' /\
  exists l, map Some l = as_nrml_id s0 :: as_sm_id s0 :: map as_id ss /\
  (valid_document value (reparsed indent 0 dc) <-> NoDup l /\ Forall nc_name l /\ Forall (fits_schema value str) ss).
Proof. exact (@written_valid). Qed.
Print Assumptions C105_written_is_valid_partial.

(** What str() prints is an xs:double exactly for finite numbers. *)
Theorem C105_printed_doubles_partial : forall x, xs_double (py_str x) <-> finite x.
Proof. exact py_str_double. Qed.
Print Assumptions C105_printed_doubles_partial.

Example C105_case : forall lm, exists s d, prints_words (AR := FOps lm) py_str /\ (forall n s, demo_indent n = Some s -> blanks s) /\
  write_doc (AR := FOps lm) py_str printableb [s] = Ok d /\ valid_document (AR := FOps lm) py_float (reparsed demo_indent 0 d).
Proof.
  intros lm. destruct (C105_case_proof lm) as (d & W & V). exists (plain_source lm), d.
  split; [exact py_str_word|]. split; [exact blank_indent|]. split; [exact W|exact V].
Qed.

(** C106, as stated, is false: a run without a source model succeeds and its result is not valid. *)
Theorem C106_result_is_valid_refuted : exists cf f c' p d, run_config DW cf f = (c', None) /\ cf_result_file cf = Given p /\
  cx_files c' p = Some (w_xml_print DW d) /\ ~ valid_document (AR := FL) py_float (reparsed demo_indent 0 d).
Proof. exact C106_refuted_proof. Qed.
Print Assumptions C106_result_is_valid_refuted.

(** C106: without a source model the result is never valid. *)
Theorem C106_default_never_valid_partial :
  forall (AR : Ops) (W : world AR), prints_words (w_str_float W) -> forall indent, (forall n s, indent n = Some s -> blanks s) ->
  forall cf f c', run_config W cf f = (c', None) -> file_unset (cf_source_model_file cf) ->
  exists p d, cf_result_file cf = Given p /\ cx_files c' p = Some (w_xml_print W d) /\
    forall value : text -> option T, ~ valid_document value (reparsed indent 0 d).
Proof. exact (@default_invalid). Qed.
Print Assumptions C106_default_never_valid_partial.

(** C106, what holds: with a valid source model the result is that model with other rates, and it is
    valid exactly when its numbers are printed as the schema allows.  Missing: runs without
    a source model, and that the computed rates fit. *)
Theorem C106_result_is_valid_partial :
  forall (AR : Ops) (W : world AR), prints_words (w_str_float W) -> forall indent, (forall n s, indent n = Some s -> blanks s) ->
  forall cf f c' q ct dc, run_config W cf f = (c', None) ->
  cf_source_model_file cf = Given q -> f q = Some ct -> w_xml_parse W ct = Some dc -> q <> [] ->
  valid_document (w_parse_float W) dc ->
  exists p d ss ss', cf_result_file cf = Given p /\ cx_files c' p = Some (w_xml_print W d) /\
    read_doc (w_parse_float W) dc = (ss, None) /\ Forall2 same_but_rates ss ss' /\
    write_doc (w_str_float W) (w_xml_ok W) ss' = Ok d /\
    (valid_document (w_parse_float W) (reparsed indent 0 d) <-> Forall (numbers_fit (w_parse_float W) (w_str_float W)) ss').
Proof. exact (@result_valid). Qed.
Print Assumptions C106_result_is_valid_partial.

Example C106_case : exists cf f c' q ct dc, run_config DW cf f = (c', None) /\ cf_source_model_file cf = Given q /\
  f q = Some ct /\ w_xml_parse DW ct = Some dc /\ q <> [] /\ valid_document (AR := FL) py_float dc /\
  prints_words (w_str_float DW) /\ (forall n s, demo_indent n = Some s -> blanks s).
Proof.
  destruct C106_case_proof as (c & R & SM & F & X & V). exists basic, dfiles, c, (t "in/ab.xml"), (t "ab"), ab_doc.
  split; [exact R|]. split; [exact SM|]. split; [exact F|]. split; [exact X|]. split; [discriminate|]. split; [exact V|].
  split; [exact py_str_word|exact blank_indent].
Qed.
