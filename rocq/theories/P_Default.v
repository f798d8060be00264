(** Property C149: the source of a run without source model (mtoolkit/source_model.py:92-121, jobs.py:94-104). *)
From Coq Require Import ZArith Bool Ascii String List.
From Verif Require Import Base Ops Libm CatUtil PyStr EqCatalog SourceModel Nrml World CatalogFilter Jobs Workflow Main Demo FlowSpec FlowDemo
  FlowCases RangeCase WholeSpec DefaultSpec DefaultProofs.
Import ListNotations.

(** C149.  Without a source model every completed run writes exactly one source, with these
    names, corner, rupture orientation, depths and magnitudes. *)
Theorem C149_default_source : forall (AR : Ops) (W : world AR) (cf : config AR) f c',
  run_config W cf f = (c', None) -> file_unset (cf_source_model_file cf) ->
  exists p d s, cf_result_file cf = Given p /\ cx_files c' p = Some (w_xml_print W d) /\
    write_doc (w_str_float W) (w_xml_ok W) [s] = Ok d /\ whole_region s.
Proof. exact (@C149_proof). Qed.
Print Assumptions C149_default_source.

(** C149.  Without processing jobs its rates and magnitudes are 0. *)
Theorem C149_no_processing : forall (AR : Ops) (W : world AR) (cf : config AR) f c',
  run_config W cf f = (c', None) -> only_processing cf ->
  (forall l, cf_preprocessing_jobs cf = Given l -> ~ In "Retrieve_completeness_table"%string l) ->
  file_unset (cf_source_model_file cf) -> cf_apply_processing_jobs cf = Null \/ jobs_unset (cf_processing_jobs cf) ->
  exists p d s, cf_result_file cf = Given p /\ cx_files c' p = Some (w_xml_print W d) /\
    write_doc (w_str_float W) (w_xml_ok W) [s] = Ok d /\ whole_region s /\ without_rates s.
Proof. exact (@C149_no_processing_proof). Qed.
Print Assumptions C149_no_processing.

(** A catalogue of three events without zones, and the same without processing. *)
Definition unprocessed : config FL := no_conf (Given (t "in/cat.csv")) Null Null Null Null Null (Given (t "out/res.xml")) (Given tt).

Example C149_case :
  (exists c, run_config DW steady_config steady_files = (c, None)) /\ file_unset (cf_source_model_file steady_config) /\
  (exists c, run_config DW unprocessed steady_files = (c, None)) /\ only_processing unprocessed /\
  file_unset (cf_source_model_file unprocessed) /\ jobs_unset (cf_processing_jobs unprocessed) /\
  (forall l, cf_preprocessing_jobs unprocessed = Given l -> ~ In "Retrieve_completeness_table"%string l).
Proof.
  split. { destruct (ok_gives _ _ steady_runs) as (c & R & _). eauto. }
  split; [left; reflexivity|].
  split. { assert (X : completes (fun _ => true) (run_config DW unprocessed steady_files) = true) by vm_cast_no_check (@eq_refl bool true).
    destruct (ok_gives _ _ X) as (c & R & _). eauto. }
  split; [intros l n E; discriminate E|].
  split; [left; reflexivity|]. split; [left; reflexivity|]. intros l E; discriminate E.
Qed.
