(** Specification for C144: configurations that differ in the list of preprocessing jobs only. *)
From Coq Require Import String List.
From Verif Require Import Base Ops CatUtil PyStr World Jobs Workflow.
Local Open Scope string_scope.

Section RestartSpec.
Context {AR : Ops}.

(** Same entries but for the list of preprocessing jobs. *)
Definition same_but_preprocessing (cf cf' : config AR) : Prop :=
  cf_eq_catalog_file cf' = cf_eq_catalog_file cf /\ cf_source_model_file cf' = cf_source_model_file cf /\
  cf_pprocessing_result_file cf' = cf_pprocessing_result_file cf /\ cf_completeness_table_file cf' = cf_completeness_table_file cf /\
  cf_processing_jobs cf' = cf_processing_jobs cf /\ cf_apply_processing_jobs cf' = cf_apply_processing_jobs cf /\
  cf_result_file cf' = cf_result_file cf /\ cf_gk cf' = cf_gk cf /\ cf_afteran cf' = cf_afteran cf /\ cf_stepp cf' = cf_stepp cf /\
  cf_recurrence cf' = cf_recurrence cf /\ cf_mm cf' = cf_mm cf.

(** Names of declustering jobs. *)
Definition declusters (n : string) : Prop := n = "GardnerKnopoff" \/ n = "Afteran".

End RestartSpec.
