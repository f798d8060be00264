(** Property C144: declustering jobs in one list (jobs.py:141-199, workflow.py:159-187). *)
From Coq Require Import ZArith Bool Ascii String List.
From Verif Require Import Base Ops FloatOps CatUtil PyStr World Jobs Workflow Main FlowSpec Demo FlowDemo
  RestartSpec RestartProofs RestartCase.
Import ListNotations.
Local Open Scope string_scope.

(** C144 is false: an event that Gardner-Knopoff removes is back when Afteran is listed after it. *)
Theorem C144_declustering_accumulates_refuted : exists cf cf' f c c' w w',
  same_but_preprocessing cf cf' /\ cf_preprocessing_jobs cf = Given ["GardnerKnopoff"] /\
  cf_preprocessing_jobs cf' = Given ["GardnerKnopoff"; "Afteran"] /\
  run_config DW cf f = (c, None) /\ run_config DW cf' f = (c', None) /\ cx_working c = Some w /\ cx_working c' = Some w' /\
  exists e, In e w' /\ ~ In e w.
Proof. exact C144_refuted_proof. Qed.
Print Assumptions C144_declustering_accumulates_refuted.

(** C144, what holds instead: Afteran starts from the whole catalogue, and the declustering jobs
    listed before it have no effect on the run. *)
Theorem C144_afteran_starts_over : forall (AR : Ops) (W : world AR), forall cf cf' f c' l1 l2, same_but_preprocessing cf cf' ->
  cf_preprocessing_jobs cf = Given (l1 ++ "Afteran" :: l2)%list -> cf_preprocessing_jobs cf' = Given ("Afteran" :: l2) ->
  Forall declusters l1 -> run_config W cf f = (c', None) ->
  exists c'', run_config W cf' f = (c'', None) /\ cx_files c'' = cx_files c' /\ cx_sms c'' = cx_sms c' /\ cx_working c'' = cx_working c'.
Proof. exact (@C144_proof). Qed.
Print Assumptions C144_afteran_starts_over.

(** Gardner-Knopoff and Afteran. *)
Example C144_case : exists c, run_config DW (restart_config ["GardnerKnopoff"; "Afteran"]) restart_files = (c, None) /\
  same_but_preprocessing (restart_config ["GardnerKnopoff"; "Afteran"]) (restart_config ["Afteran"]) /\
  cf_preprocessing_jobs (restart_config ["GardnerKnopoff"; "Afteran"]) = Given (["GardnerKnopoff"] ++ "Afteran" :: [])%list /\
  cf_preprocessing_jobs (restart_config ["Afteran"]) = Given ["Afteran"] /\ Forall declusters ["GardnerKnopoff"].
Proof. exact C144_case_proof. Qed.
