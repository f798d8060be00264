(** Model of class PipeLine, mtoolkit/workflow.py:51-96, apart from run (Workflow.v). *)
From Coq Require Import Bool List.
From Verif Require Import Base Ops World Jobs Workflow.
Import ListNotations.

(** Equality of two jobs, workflow.py:71.  Each job is one function object of mtoolkit/jobs.py, equal
    to itself only. *)
Definition job_eqb (a b : jobname) : bool :=
  match a, b with
  | J_read_eq_catalog, J_read_eq_catalog | J_read_source_model, J_read_source_model
  | J_create_default_source_model, J_create_default_source_model | J_create_catalog_matrix, J_create_catalog_matrix
  | J_create_default_values, J_create_default_values | J_gardner_knopoff, J_gardner_knopoff | J_afteran, J_afteran
  | J_stepp, J_stepp | J_recurrence, J_recurrence | J_create_selected_eq_vector, J_create_selected_eq_vector
  | J_store_preprocessed_catalog, J_store_preprocessed_catalog | J_store_completeness_table, J_store_completeness_table
  | J_retrieve_completeness_table, J_retrieve_completeness_table | J_maximum_magnitude, J_maximum_magnitude => true
  | _, _ => false
  end.

(** PipeLine.__init__, workflow.py:57-66.  Simplification: the list is copied, not shared with the caller. *)
Definition pipeline_init (jobs_list : option (list jobname)) : list jobname :=
  match jobs_list with Some l => l | None => [] end.

(** PipeLine.__eq__, workflow.py:68-71: the lists of jobs are compared. *)
Fixpoint pipeline_eq (p q : list jobname) : bool :=
  match p, q with
  | [], [] => true
  | a :: p', b :: q' => job_eqb a b && pipeline_eq p' q'
  | _, _ => false
  end.

(** PipeLine.__ne__, workflow.py:73-76. *)
Definition pipeline_ne (p q : list jobname) : bool := negb (pipeline_eq p q).

(** PipeLine.add_job, workflow.py:78-81. *)
Definition add_job (p : list jobname) (j : jobname) : list jobname := p ++ [j].
