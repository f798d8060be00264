(** Property C139: what a run computes (main.py, workflow.py, jobs.py). *)
From Coq Require Import ZArith Bool Ascii String List.
From Verif Require Import Base Ops FloatOps Libm CatUtil PyStr EqCatalog SourceModel Nrml World CatalogFilter Jobs Workflow Main
  Demo FlowSpec FlowDemo FlowCases RangeCase WholeSpec WholeProofs WholeRuns WholeCase.
Import ListNotations.

(** C139.  The file written by a completed run holds the sources of the source model (or the
    default source), with the rates that the analyses named in the configuration give, called with
    the parameters of the configuration, for the events of each source in the catalogue that the
    listed preprocessing leaves. *)
Theorem C139_result : forall (AR : Ops) (W : world AR), forall cf f c', run_config W cf f = (c', None) -> only_processing cf ->
  (forall l, cf_preprocessing_jobs cf = Given l -> ~ In "Retrieve_completeness_table"%string l) ->
  exists p d ss', cf_result_file cf = Given p /\ cx_files c' p = Some (w_xml_print W d) /\
    computed W cf f ss' /\ write_doc (w_str_float W) (w_xml_ok W) ss' = Ok d.
Proof. exact (@C139_proof). Qed.
Print Assumptions C139_result.

(** C139.  The configuration and the input files determine these sources. *)
Theorem C139_determined : forall (AR : Ops) (W : world AR), forall cf f a b, computed W cf f a -> computed W cf f b -> a = b.
Proof. exact (@computed_fun). Qed.
Print Assumptions C139_determined.

(** C139.  Conversely, when every analysis succeeds and the result can be written, a run that
    stores no preprocessed catalogue completes and writes that result and nothing else. *)
Theorem C139_runs : forall (AR : Ops) (W : world AR), forall cf f ss' p d, computed W cf f ss' -> (exists js, processing_listed cf js) ->
  (forall l n, cf_preprocessing_jobs cf = Given l -> In n l -> ~ writes_only n) ->
  jobs_unset (cf_preprocessing_jobs cf) \/ file_unset (cf_pprocessing_result_file cf) ->
  cf_result_file cf = Given p -> w_exists W (dirname p) = true -> w_can_write W p = true ->
  write_doc (w_str_float W) (w_xml_ok W) ss' = Ok d ->
  exists c', run_config W cf f = (c', None) /\ cx_files c' p = Some (w_xml_print W d) /\ forall q, q <> p -> cx_files c' q = f q.
Proof. exact (@C139_runs_proof). Qed.
Print Assumptions C139_runs.

(** Two zones, Gardner-Knopoff declustering. *)
Example C139_case : exists c, run_config DW basic dfiles = (c, None) /\ only_processing basic /\
  (forall l, cf_preprocessing_jobs basic = Given l -> ~ In "Retrieve_completeness_table"%string l) /\
  cf_preprocessing_jobs basic = Given ["GardnerKnopoff"%string].
Proof. exact C139_case_proof. Qed.

(** No zones, no preprocessing. *)
Example C139_runs_case : exists ss' d, computed DW steady_config steady_files ss' /\ processing_listed steady_config [J_recurrence; J_maximum_magnitude] /\
  jobs_unset (cf_preprocessing_jobs steady_config) /\ cf_result_file steady_config = Given (t "out/res.xml") /\
  w_exists DW (dirname (t "out/res.xml")) = true /\ w_can_write DW (t "out/res.xml") = true /\
  write_doc (w_str_float DW) (w_xml_ok DW) ss' = Ok d.
Proof. exact C139_runs_case_proof. Qed.
