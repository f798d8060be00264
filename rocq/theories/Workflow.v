(** Model of mtoolkit/workflow.py. *)
From Coq Require Import ZArith Bool String List.
From Verif Require Import Base Ops CatUtil PyStr EqCatalog SourceModel World CatalogFilter Jobs.
Import ListNotations.
Local Open Scope res_scope.
Local Open Scope string_scope.

(** The jobs a pipeline can hold. *)
Inductive jobname : Type :=
| J_read_eq_catalog | J_read_source_model | J_create_default_source_model
| J_create_catalog_matrix | J_create_default_values
| J_gardner_knopoff | J_afteran | J_stepp | J_recurrence
| J_create_selected_eq_vector | J_store_preprocessed_catalog
| J_store_completeness_table | J_retrieve_completeness_table | J_maximum_magnitude.

(** map_job_callable, workflow.py:109-122. *)
Definition map_job_callable (s : string) : option jobname :=
  if String.eqb s "GardnerKnopoff" then Some J_gardner_knopoff
  else if String.eqb s "Afteran" then Some J_afteran
  else if String.eqb s "Stepp" then Some J_stepp
  else if String.eqb s "Recurrence" then Some J_recurrence
  else if String.eqb s "Create_eq_vector" then Some J_create_selected_eq_vector
  else if String.eqb s "Store_eq_catalog" then Some J_store_preprocessed_catalog
  else if String.eqb s "Store_completeness_table" then Some J_store_completeness_table
  else if String.eqb s "Retrieve_completeness_table" then Some J_retrieve_completeness_table
  else if String.eqb s "MaximumMagnitude" then Some J_maximum_magnitude
  else None.

(** append_jobs, workflow.py:134-147: RuntimeError for an unknown name. *)
Fixpoint append_jobs (pipeline : list jobname) (jobs : list string) : res (list jobname) :=
  match jobs with
  | [] => Ok pipeline
  | j :: jobs' =>
      match map_job_callable j with
      | Some a => append_jobs (pipeline ++ [a])%list jobs'
      | None => Err RuntimeError
      end
  end.

Section Workflow.
Context {AR : Ops}.

(** Truth of a configuration entry: KeyError when missing; null, '' and [] are false. *)
Definition truth {A} (empty : A -> bool) (v : cval A) : res bool :=
  match v with
  | Absent => Err KeyError
  | Null => Ok false
  | Given a => Ok (negb (empty a))
  end.
Definition no_text (s : text) : bool := match s with [] => true | _ => false end.
Definition no_jobs (l : list string) : bool := match l with [] => true | _ => false end.
Definition listed (v : cval (list string)) : list string :=
  match v with Given l => l | _ => [] end.

(** PreprocessingBuilder.build, workflow.py:159-187. *)
Definition preprocessing_build (cf : config AR) : res (list jobname) :=
  let* has_sm := truth no_text (cf_source_model_file cf) in
  let base := [J_read_eq_catalog;
               if has_sm then J_read_source_model else J_create_default_source_model;
               J_create_catalog_matrix; J_create_default_values] in
  let* has_jobs := truth no_jobs (cf_preprocessing_jobs cf) in
  if has_jobs then
    let* p := append_jobs base (listed (cf_preprocessing_jobs cf)) in
    let* store := truth no_text (cf_pprocessing_result_file cf) in
    if store
    then Ok (p ++ [J_create_selected_eq_vector; J_store_preprocessed_catalog;
                   J_store_completeness_table])%list
    else Ok p
  else
    let* has_table := truth no_text (cf_completeness_table_file cf) in
    if has_table then Ok (base ++ [J_retrieve_completeness_table])%list else Ok base.

(** ProcessingBuilder.build, workflow.py:198-205. *)
Definition processing_build (cf : config AR) : res (list jobname) :=
  let* has_jobs := truth no_jobs (cf_processing_jobs cf) in
  if has_jobs then append_jobs [] (listed (cf_processing_jobs cf)) else Ok [].

Variable W : world AR.

(** What a job does, jobs.py. *)
Definition run_job (j : jobname) : job AR :=
  match j with
  | J_read_eq_catalog => read_eq_catalog_job W
  | J_read_source_model => read_source_model W
  | J_create_default_source_model => create_default_source_model
  | J_create_catalog_matrix => create_catalog_matrix
  | J_create_default_values => create_default_values
  | J_gardner_knopoff => gardner_knopoff W
  | J_afteran => afteran W
  | J_stepp => stepp
  | J_recurrence => recurrence W
  | J_create_selected_eq_vector => create_selected_eq_vector
  | J_store_preprocessed_catalog => store_preprocessed_catalog W
  | J_store_completeness_table => store_completeness_table W
  | J_retrieve_completeness_table => retrieve_completeness_table W
  | J_maximum_magnitude => maximum_magnitude W
  end.

(** PipeLine.run, workflow.py:84-96. *)
Fixpoint pipeline_run (js : list jobname) (c : context AR) : context AR * option exn :=
  match js with
  | [] => (c, None)
  | j :: js' =>
      match run_job j c with
      | (c', None) => pipeline_run js' c'
      | (c', Some e) => (c', Some e)
      end
  end.

(** The loop of start over the sources from position i on, workflow.py:252-257.  The
    filter is a generator over the list sm_definitions and the working catalogue taken when
    the loop starts; each source is filtered when its turn comes. *)
Fixpoint process_sources (f : sm_filter) (js : list jobname) (working : list (event AR))
    (n : nat) (i : nat) (c : context AR) : context AR * option exn :=
  match n with
  | 0%nat => (c, None)
  | S n' =>
      match cx_sms c with
      | None => (c, Some TypeError)
      | Some ss =>
          match nth_error ss i with
          | None => (c, None)
          | Some s =>
              match filter_eqs W f s working with
              | Err e => (c, Some e)
              | Ok eqs =>
                  let c := set_filtered (Some eqs) (set_cur (Some i) c) in
                  match pipeline_run js c with
                  | (c', Some e) => (c', Some e)
                  | (c', None) => process_sources f js working n' (S i) c'
                  end
              end
          end
      end
  end.

(** Workflow.start, workflow.py:246-257. *)
Definition start (pre pro : list jobname) (f : sm_filter) (c : context AR)
  : context AR * option exn :=
  match pipeline_run pre c with
  | (c', Some e) => (c', Some e)
  | (c', None) =>
      match cf_apply_processing_jobs (cx_config c') with
      | Absent => (c', Some KeyError)
      | Null => (c', None)
      | Given _ =>
          match cx_sms c' with
          | None => (c', Some TypeError)
          | Some ss =>
              match ss, cx_working c' with
              | [], _ => (c', None)
              | _, None => (c', Some TypeError)
              | _, Some w => process_sources f pro w (List.length ss) 0 c'
              end
          end
      end
  end.

End Workflow.
