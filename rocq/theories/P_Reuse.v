(** C113: the source model a run writes, given back to the same settings. *)
From Coq Require Import ZArith Bool Ascii String List.
From Coq Require Import Floats.SpecFloat.
From Verif Require Import Base Ops FloatOps PyStr PyFloat PyTexts FloatSpec SourceModel Nrml NrmlSpec NrmlRead NrmlRound NrmlFinal World CatalogFilter Jobs Workflow Main FlowSpec FlowPipe FlowReuse ReuseSpec
  Demo FlowDemo FlowWitness ReuseCases.
From Coq Require Import List.
Import ListNotations.

(** Full statement: a run completes and its sources are written to a document.  The source model file is
    replaced by that document and the same settings are run again.  Then the second run completes and leaves
    the same result file, and the same other files.  It fails for boundaries with more digits than [str] prints. *)
Theorem C113_result_as_source_model_refuted : exists (W : world FL) cf sm p f1 ss c1 ss1 d f2 ct c2,
  w_parse_float W = py_float /\ w_str_float W = py_str /\ only_processing cf /\ cf_source_model_file cf = Given sm /\ cf_result_file cf = Given p /\
  cf_eq_catalog_file cf <> Given sm /\ cf_completeness_table_file cf <> Given sm /\
  sources_read W cf f1 ss /\ Forall (writable (w_xml_ok W)) ss /\ run_config W cf f1 = (c1, None) /\ cx_sms c1 = Some ss1 /\
  write_doc (w_str_float W) (w_xml_ok W) ss1 = Ok d /\
  (forall q, q <> sm -> f2 q = f1 q) /\ f2 sm = Some ct /\ w_xml_parse W ct = Some (reparsed demo_indent 0 d) /\
  run_config W cf f2 = (c2, None) /\ cx_files c2 p <> cx_files c1 p.
Proof. exact C113_refuted_proof. Qed.
Print Assumptions C113_result_as_source_model_refuted.

(** For every arithmetic and every printing of numbers: it holds when the coordinates of the boundaries are
    read back as they were, and the numbers of the result are printed the same way after being read back. *)
Theorem C113_result_as_source_model_partial : forall {AR : Ops} (W : world AR) sm indent,
  accepts_printable (w_xml_ok W) -> prints_words (w_str_float W) ->
  forall cf f1 ss c1 ss1 d f2 ct, only_processing cf -> cf_source_model_file cf = Given sm ->
  cf_eq_catalog_file cf <> Given sm -> cf_completeness_table_file cf <> Given sm ->
  sources_read W cf f1 ss -> Forall (writable (w_xml_ok W)) ss -> run_config W cf f1 = (c1, None) ->
  cx_sms c1 = Some ss1 -> write_doc (w_str_float W) (w_xml_ok W) ss1 = Ok d ->
  (forall s x, In s ss -> In x (flat_points (ab_pos (as_boundary s))) -> read_back (w_parse_float W) (w_str_float W) x) ->
  (forall s x, In s ss1 -> In x (source_numbers s) -> written_again (w_parse_float W) (w_str_float W) x) ->
  (forall q, q <> sm -> f2 q = f1 q) -> f2 sm = Some ct -> w_xml_parse W ct = Some (reparsed indent 0 d) ->
  exists c2, run_config W cf f2 = (c2, None) /\
    forall q, q <> sm \/ cf_result_file cf = Given q -> cx_files c2 q = cx_files c1 q.
Proof. exact (fun AR W sm => C113_proof W sm). Qed.
Print Assumptions C113_result_as_source_model_partial.

(** With the numbers of CPython 2: it holds when the coordinates have at most twelve digits and the numbers of
    the result have an ordinary size.  Nothing is assumed about their digits. *)
Theorem C113_result_as_source_model_cpython_partial : forall lm (W : world (FOps lm)) sm, w_parse_float W = py_float -> w_str_float W = py_str ->
  forall indent, accepts_printable (w_xml_ok W) ->
  forall cf f1 ss c1 ss1 d f2 ct, only_processing cf -> cf_source_model_file cf = Given sm ->
  cf_eq_catalog_file cf <> Given sm -> cf_completeness_table_file cf <> Given sm ->
  sources_read W cf f1 ss -> Forall (writable (w_xml_ok W)) ss -> run_config W cf f1 = (c1, None) ->
  cx_sms c1 = Some ss1 -> write_doc (w_str_float W) (w_xml_ok W) ss1 = Ok d ->
  (forall s x, In s ss -> In x (flat_points (ab_pos (as_boundary s))) -> twelve_digits x) ->
  (forall s x, In s ss1 -> In x (source_numbers s) -> ordinary_size x) ->
  (forall q, q <> sm -> f2 q = f1 q) -> f2 sm = Some ct -> w_xml_parse W ct = Some (reparsed indent 0 d) ->
  exists c2, run_config W cf f2 = (c2, None) /\
    forall q, q <> sm \/ cf_result_file cf = Given q -> cx_files c2 q = cx_files c1 q.
Proof. exact C113_cpython_proof. Qed.
Print Assumptions C113_result_as_source_model_cpython_partial.

(** The case: the two zones of the demonstration, with their maximum likelihood recurrence. *)
Example C113_case : exists c1 ss1 d,
  only_processing basic /\ cf_source_model_file basic = Given (t "in/ab.xml") /\
  cf_eq_catalog_file basic <> Given (t "in/ab.xml") /\ cf_completeness_table_file basic <> Given (t "in/ab.xml") /\
  sources_read AW basic dfiles [zone_a; zone_b] /\ Forall (writable (w_xml_ok AW)) [zone_a; zone_b] /\
  run_config AW basic dfiles = (c1, None) /\ cx_sms c1 = Some ss1 /\ write_doc (w_str_float AW) (w_xml_ok AW) ss1 = Ok d /\
  (forall s x, In s [zone_a; zone_b] -> In x (flat_points (ab_pos (as_boundary s))) -> twelve_digits x) /\
  (forall s x, In s ss1 -> In x (source_numbers s) -> ordinary_size x) /\
  (forall q, q <> t "in/ab.xml" -> afiles q = dfiles q) /\ afiles (t "in/ab.xml") = Some (t "res") /\
  w_xml_parse AW (t "res") = Some (reparsed demo_indent 0 d).
Proof. exact C113_case_proof. Qed.
