(** Property C152: the document written for the sources (nrml/writer.py:38-272, nrml/nrml_xml.py:38-80). *)
From Coq Require Import Bool Ascii String List.
From Verif Require Import Base Ops Libm CatUtil PyStr EqCatalog SourceModel Nrml World CatalogFilter Jobs Workflow Main FlowSpec Demo FlowDemo FlowCases RangeCase
  DocSpec DocProofs.
Import ListNotations.

(** C152.  Whatever is written is exactly this document, with the element and attribute names of the
    schema, the sources in order and nothing else. *)
Theorem C152_document :
  forall (AR : Ops) (str_float : T -> text) xml_ok (ss : list (area_source AR)) d,
  write_doc str_float xml_ok ss = Ok d -> is_document str_float ss d.
Proof. exact (@C152_proof). Qed.
Print Assumptions C152_document.

(** C152.  It is written whenever the texts are acceptable in XML and printed numbers are. *)
Theorem C152_written :
  forall (AR : Ops) (str_float : T -> text) xml_ok, (forall vs, xml_ok (join [" "%char] (map str_float vs)) = true) ->
  forall (ss : list (area_source AR)) d, is_document str_float ss d -> all_texts xml_ok ss ->
  write_doc str_float xml_ok ss = Ok d.
Proof. exact (@C152_written_proof). Qed.
Print Assumptions C152_written.

(** C152.  The result file of every completed run is the print of such a document. *)
Theorem C152_result_document :
  forall (AR : Ops) (W : world AR) (cf : config AR) f c', run_config W cf f = (c', None) ->
  exists p d ss, cf_result_file cf = Given p /\ cx_files c' p = Some (w_xml_print W d) /\ is_document (w_str_float W) ss d.
Proof. exact (@C152_result_proof). Qed.
Print Assumptions C152_result_document.

(** The default source, and a completed run. *)
Example C152_case :
  (exists d, write_doc (AR := FL) (w_str_float DW) (fun _ => true) [default_area_source] = Ok d) /\
  all_texts (AR := FL) (fun _ => true) [default_area_source] /\
  (exists c, run_config DW steady_config steady_files = (c, None)).
Proof.
  split; [eexists; reflexivity|]. split; [split; reflexivity|].
  destruct (ok_gives _ _ steady_runs) as (c & R & _). eauto.
Qed.
