(** A run of the demonstration world for C143. *)
From Coq Require Import ZArith Bool Ascii String List.
From Verif Require Import Base Ops FloatOps Libm CatUtil PyStr SourceModel Nrml World Jobs Workflow Main
  Demo FlowSpec FlowDemo FlowCases RangeCase JobsetSpec.
Import ListNotations.
Local Open Scope string_scope.

(** The run of RangeCase.v with another list of processing jobs. *)
Definition with_processing (l : list string) (c : config FL) : config FL :=
  mkConfig (cf_eq_catalog_file c) (cf_source_model_file c) (cf_preprocessing_jobs c) (cf_pprocessing_result_file c)
    (cf_completeness_table_file c) (Given l) (cf_apply_processing_jobs c) (cf_result_file c)
    (cf_gk c) (cf_afteran c) (cf_stepp c) (cf_recurrence c) (cf_mm c).

Lemma C143_case_proof : exists c, run_config DW steady_config steady_files = (c, None) /\ only_processing steady_config /\
  cf_processing_jobs steady_config = Given ["Recurrence"; "MaximumMagnitude"] /\
  same_but_processing steady_config (with_processing ["MaximumMagnitude"; "Recurrence"; "MaximumMagnitude"] steady_config) /\
  same_members ["Recurrence"; "MaximumMagnitude"] ["MaximumMagnitude"; "Recurrence"; "MaximumMagnitude"].
Proof.
  destruct (ok_gives _ _ steady_runs) as (c & R & _). exists c. split; [exact R|]. clear R. split.
  { intros l n E I. cbn in E. injection E as <-. destruct I as [<-|[<-|[]]]; auto. }
  split; [reflexivity|]. split; [repeat split|]. intros n. cbn. tauto.
Qed.
