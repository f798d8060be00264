(** Specification for C145: configurations that differ in what they store on the way. *)
From Coq Require Import Bool String List.
From Verif Require Import Base Ops CatUtil PyStr World Jobs Workflow.
Local Open Scope string_scope.

Section StoreSpec.
Context {AR : Ops}.

(** Same entries but for the preprocessing jobs, pprocessing_result_file and completeness_table_file. *)
Definition same_but_storing (cf cf' : config AR) : Prop :=
  cf_eq_catalog_file cf' = cf_eq_catalog_file cf /\ cf_source_model_file cf' = cf_source_model_file cf /\
  cf_processing_jobs cf' = cf_processing_jobs cf /\ cf_apply_processing_jobs cf' = cf_apply_processing_jobs cf /\
  cf_result_file cf' = cf_result_file cf /\ cf_gk cf' = cf_gk cf /\ cf_afteran cf' = cf_afteran cf /\ cf_stepp cf' = cf_stepp cf /\
  cf_recurrence cf' = cf_recurrence cf /\ cf_mm cf' = cf_mm cf.

(** The jobs of a list that select and store. *)
Definition stores (n : string) : bool :=
  String.eqb n "Create_eq_vector" || String.eqb n "Store_eq_catalog" || String.eqb n "Store_completeness_table".

(** The same other jobs in the same order. *)
Definition same_analyses (l l' : list string) : Prop :=
  filter (fun n => negb (stores n)) l = filter (fun n => negb (stores n)) l'.

End StoreSpec.
