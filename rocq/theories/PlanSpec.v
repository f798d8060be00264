(** Specification for C155: what a configuration asks for before processing. *)
From Coq Require Import String List.
From Verif Require Import Base Ops World Jobs Workflow FlowSpec.
Import ListNotations.
Local Open Scope string_scope.

(** The names of the jobs after the catalogue and the source model are there: those listed, and the
    three that store their result when a file is given for it; or, with no job listed, the one that
    reads a completeness table when a file is given for it. *)
Inductive plan {AR : Ops} (cf : config AR) : list string -> Prop :=
| plan_listed : forall l, jobs_set (cf_preprocessing_jobs cf) l -> file_unset (cf_pprocessing_result_file cf) -> plan cf l
| plan_stored : forall l, jobs_set (cf_preprocessing_jobs cf) l -> file_set (cf_pprocessing_result_file cf) ->
    plan cf (l ++ ["Create_eq_vector"; "Store_eq_catalog"; "Store_completeness_table"])
| plan_table : jobs_unset (cf_preprocessing_jobs cf) -> file_set (cf_completeness_table_file cf) ->
    plan cf ["Retrieve_completeness_table"]
| plan_none : jobs_unset (cf_preprocessing_jobs cf) -> file_unset (cf_completeness_table_file cf) -> plan cf [].
