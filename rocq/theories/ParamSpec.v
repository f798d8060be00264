(** Specification for C141: which entries of a configuration a run can depend on. *)
From Coq Require Import String List.
From Verif Require Import Base Ops PyStr World Jobs Workflow FlowSpec.
Import ListNotations.

Section ParamSpec.
Context {AR : Ops}.

(** The job is named in one of the two lists. *)
Definition named_in (n : string) (cf : config AR) : Prop :=
  (exists l, cf_preprocessing_jobs cf = Given l /\ In n l) \/ (exists l, cf_processing_jobs cf = Given l /\ In n l).

(** Entries outside the parameter groups, the file for the preprocessed catalogue excepted. *)
Definition same_common (cf cf' : config AR) : Prop :=
  cf_eq_catalog_file cf' = cf_eq_catalog_file cf /\ cf_source_model_file cf' = cf_source_model_file cf /\
  cf_preprocessing_jobs cf' = cf_preprocessing_jobs cf /\ cf_completeness_table_file cf' = cf_completeness_table_file cf /\
  cf_processing_jobs cf' = cf_processing_jobs cf /\ cf_apply_processing_jobs cf' = cf_apply_processing_jobs cf /\
  cf_result_file cf' = cf_result_file cf.

(** The parameter groups of the named jobs agree; other groups may differ or be missing. *)
Definition same_named_groups (cf cf' : config AR) : Prop :=
  (named_in "GardnerKnopoff" cf -> cf_gk cf' = cf_gk cf) /\ (named_in "Afteran" cf -> cf_afteran cf' = cf_afteran cf) /\
  (named_in "Stepp" cf -> cf_stepp cf' = cf_stepp cf) /\ (named_in "Recurrence" cf -> cf_recurrence cf' = cf_recurrence cf) /\
  (named_in "MaximumMagnitude" cf -> cf_mm cf' = cf_mm cf).

(** The entry for the preprocessed catalogue agrees when preprocessing jobs are listed or the job
    that stores it is. *)
Definition same_store_if_used (cf cf' : config AR) : Prop :=
  (exists l, jobs_set (cf_preprocessing_jobs cf) l) \/ named_in "Store_eq_catalog" cf ->
  cf_pprocessing_result_file cf' = cf_pprocessing_result_file cf.

(** Two outcomes that agree in everything but the configuration itself. *)
Definition same_outcome (r r' : context AR * option exn) : Prop :=
  snd r' = snd r /\ cx_files (fst r') = cx_files (fst r) /\ cx_sms (fst r') = cx_sms (fst r) /\
  cx_eq_catalog (fst r') = cx_eq_catalog (fst r) /\ cx_working (fst r') = cx_working (fst r) /\
  cx_table (fst r') = cx_table (fst r) /\ cx_flag (fst r') = cx_flag (fst r) /\ cx_selected (fst r') = cx_selected (fst r).

End ParamSpec.
