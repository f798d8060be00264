(** Property C143: the list of processing jobs (workflow.py:189-203, jobs.py). *)
From Coq Require Import ZArith Bool Ascii String List.
From Verif Require Import Base Ops FloatOps PyStr World Jobs Workflow Main FlowSpec Demo FlowDemo RangeCase
  JobsetSpec JobsetProofs JobsetCase.
Import ListNotations.
Local Open Scope string_scope.

(** C143.  The list of processing jobs matters as a set: a run that completes also completes with
    the same jobs in another order or listed repeatedly, and leaves the same files and sources. *)
Theorem C143_job_set : forall (AR : Ops) (W : world AR), forall cf cf' f c' l l', same_but_processing cf cf' ->
  cf_processing_jobs cf = Given l -> cf_processing_jobs cf' = Given l' -> same_members l l' -> only_processing cf ->
  run_config W cf f = (c', None) ->
  exists c'', run_config W cf' f = (c'', None) /\ cx_files c'' = cx_files c' /\ cx_sms c'' = cx_sms c'.
Proof. exact (@C143_proof). Qed.
Print Assumptions C143_job_set.

(** Two jobs in the other order, one of them twice. *)
Example C143_case : exists c, run_config DW steady_config steady_files = (c, None) /\ only_processing steady_config /\
  cf_processing_jobs steady_config = Given ["Recurrence"; "MaximumMagnitude"] /\
  same_but_processing steady_config (with_processing ["MaximumMagnitude"; "Recurrence"; "MaximumMagnitude"] steady_config) /\
  same_members ["Recurrence"; "MaximumMagnitude"] ["MaximumMagnitude"; "Recurrence"; "MaximumMagnitude"].
Proof. exact C143_case_proof. Qed.
