(** Specification for C143: configurations that differ in the list of processing jobs only. *)
From Coq Require Import String List.
From Verif Require Import Base Ops PyStr World Jobs Workflow.

Section JobsetSpec.
Context {AR : Ops}.

(** Same entries but for the list of processing jobs. *)
Definition same_but_processing (cf cf' : config AR) : Prop :=
  cf_eq_catalog_file cf' = cf_eq_catalog_file cf /\ cf_source_model_file cf' = cf_source_model_file cf /\
  cf_preprocessing_jobs cf' = cf_preprocessing_jobs cf /\ cf_pprocessing_result_file cf' = cf_pprocessing_result_file cf /\
  cf_completeness_table_file cf' = cf_completeness_table_file cf /\ cf_apply_processing_jobs cf' = cf_apply_processing_jobs cf /\
  cf_result_file cf' = cf_result_file cf /\ cf_gk cf' = cf_gk cf /\ cf_afteran cf' = cf_afteran cf /\ cf_stepp cf' = cf_stepp cf /\
  cf_recurrence cf' = cf_recurrence cf /\ cf_mm cf' = cf_mm cf.

(** Two lists with the same members, in any order and any number of times. *)
Definition same_members {A : Type} (l l' : list A) : Prop := forall a, In a l <-> In a l'.

End JobsetSpec.
