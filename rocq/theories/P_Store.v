(** Property C145: storing the preprocessed catalogue and table (workflow.py:159-187, jobs.py:225-290). *)
From Coq Require Import ZArith Bool Ascii String List.
From Verif Require Import Base Ops FloatOps CatUtil PyStr World Jobs Workflow Main FlowSpec Demo FlowDemo RangeCase
  StoreSpec StoreProofs StoreCase.
Import ListNotations.
Local Open Scope string_scope.

(** C145.  What a run stores on the way does not change its result: with or without
    pprocessing_result_file, whatever completeness_table_file is, and with or without the listed
    jobs that select and store, the result file is the same. *)
Theorem C145_storing_changes_nothing : forall (AR : Ops) (W : world AR), forall cf cf' f c c' l l', same_but_storing cf cf' ->
  jobs_set (cf_preprocessing_jobs cf) l -> jobs_set (cf_preprocessing_jobs cf') l' -> same_analyses l l' ->
  only_processing cf -> ~ In "Retrieve_completeness_table" l ->
  run_config W cf f = (c, None) -> run_config W cf' f = (c', None) ->
  exists p content, cf_result_file cf = Given p /\ cx_files c p = Some content /\ cx_files c' p = Some content.
Proof. exact (@C145_proof). Qed.
Print Assumptions C145_storing_changes_nothing.

(** One run that stores both files and one that stores none. *)
Example C145_case : exists c c', run_config DW storing steady_files = (c, None) /\ run_config DW not_storing steady_files = (c', None) /\
  cx_files c (t "out/cat.csv") <> None /\ cx_files c' (t "out/cat.csv") = None /\
  same_but_storing storing not_storing /\ jobs_set (cf_preprocessing_jobs storing) ["GardnerKnopoff"] /\
  jobs_set (cf_preprocessing_jobs not_storing) ["GardnerKnopoff"; "Create_eq_vector"] /\
  same_analyses ["GardnerKnopoff"] ["GardnerKnopoff"; "Create_eq_vector"] /\ only_processing storing.
Proof. exact C145_case_proof. Qed.
