(** Specification of C108 and C109: the files a run reads and writes, from its configuration. *)
From Coq Require Import Bool String List.
From Verif Require Import Base Ops PyStr World Jobs Workflow.
Import ListNotations.
Local Open Scope string_scope.

Section RepeatSpec.
Context {AR : Ops}.

(** The names listed for preprocessing and for processing. *)
Definition job_names (cf : config AR) : list string :=
  (listed (cf_preprocessing_jobs cf) ++ listed (cf_processing_jobs cf))%list.

(** Is the completeness table file read?  When named, or when nothing is preprocessed. *)
Definition retrieves_table (cf : config AR) : Prop :=
  In "Retrieve_completeness_table" (job_names cf) \/ listed (cf_preprocessing_jobs cf) = [].

(** Are the two results of the preprocessing written?  When named, or when something is
    preprocessed and a file name for the catalogue is configured. *)
Definition stores (name : string) (cf : config AR) : Prop :=
  In name (job_names cf) \/
  listed (cf_preprocessing_jobs cf) <> [] /\
  exists p, cf_pprocessing_result_file cf = Given p /\ p <> [].

Definition read_path (cf : config AR) (q : text) : Prop :=
  cf_eq_catalog_file cf = Given q \/ cf_source_model_file cf = Given q \/
  retrieves_table cf /\ cf_completeness_table_file cf = Given q.

Definition written_path (cf : config AR) (q : text) : Prop :=
  stores "Store_eq_catalog" cf /\ cf_pprocessing_result_file cf = Given q \/
  stores "Store_completeness_table" cf /\ cf_completeness_table_file cf = Given q \/
  cf_result_file cf = Given q.

(** Everything in the context but the files. *)
Definition same_context (c1 c2 : context AR) : Prop :=
  set_files (fun _ => None) c1 = set_files (fun _ => None) c2.

End RepeatSpec.
