(** Property C155: equality of pipelines (mtoolkit/workflow.py:51-96, 150-205). *)
From Coq Require Import Bool Ascii String List.
From Verif Require Import Base Ops PyStr World Jobs Workflow FlowSpec Demo Pipeline PlanSpec PlanProofs.
Import ListNotations.
Local Open Scope string_scope.

(** C155.  The preprocessing pipelines of two configurations are equal exactly if both or neither name
    a source model and they ask for the same jobs in the same order; != is the opposite. *)
Theorem C155_equal : forall (AR : Ops) (cf cf' : config AR) p p',
  preprocessing_build cf = Ok p -> preprocessing_build cf' = Ok p' ->
  exists l l', plan cf l /\ plan cf' l' /\ (forall k, plan cf k -> k = l) /\ (forall k, plan cf' k -> k = l') /\
    (pipeline_eq p p' = true <-> ((file_set (cf_source_model_file cf) <-> file_set (cf_source_model_file cf')) /\ l = l')) /\
    (pipeline_ne p p' = true <-> ~ ((file_set (cf_source_model_file cf) <-> file_set (cf_source_model_file cf')) /\ l = l')).
Proof. exact (@C155_proof). Qed.
Print Assumptions C155_equal.

(** C155.  Equal pipelines do the same in every surroundings. *)
Theorem C155_same_run : forall (AR : Ops) (W : world AR) p q c,
  pipeline_eq p q = true -> pipeline_run W p c = pipeline_run W q c.
Proof. exact (@C155_same_proof). Qed.
Print Assumptions C155_same_run.

(** C155.  A pipeline is a queue: built from a list or job by job it is the same, a job added is run
    after the others and only if they succeed, and two queues are equal only if they end alike. *)
Theorem C155_queue : forall (AR : Ops) l, pipeline_init (Some l) = fold_left add_job l (pipeline_init None) /\
  (forall (W : world AR) j c, pipeline_run W (add_job l j) c =
     match pipeline_run W l c with (c1, None) => run_job W j c1 | r => r end) /\
  (forall p i j, pipeline_eq (add_job l i) (add_job p j) = true <-> l = p /\ i = j).
Proof. exact (@C155_queue_proof). Qed.
Print Assumptions C155_queue.

(** Two configurations that differ in the jobs they list and in the result file. *)
Definition by_file : config FL := no_conf (Given (t "in/cat.csv")) Null (Given ["GardnerKnopoff"]) Null (Given (t "out/cat.csv")) Null Null Null.
Definition by_name : config FL := no_conf (Given (t "in/cat.csv")) (Given [])
  (Given ["GardnerKnopoff"; "Create_eq_vector"; "Store_eq_catalog"; "Store_completeness_table"]) Null Null Null Null Null.
Definition by_other : config FL := no_conf (Given (t "in/cat.csv")) Null (Given ["Afteran"]) Null (Given (t "out/cat.csv")) Null Null Null.

(** C155, that equal pipelines come from equal lists of jobs, is false. *)
Theorem C155_same_lists_refuted : exists (cf cf' : config FL) p p', preprocessing_build cf = Ok p /\ preprocessing_build cf' = Ok p' /\
  pipeline_eq p p' = true /\ cf_preprocessing_jobs cf <> cf_preprocessing_jobs cf' /\
  cf_pprocessing_result_file cf <> cf_pprocessing_result_file cf'.
Proof.
  exists by_file, by_name. eexists. eexists. split; [reflexivity|]. split; [reflexivity|]. split; [reflexivity|]. split; discriminate.
Qed.
Print Assumptions C155_same_lists_refuted.

Example C155_case : exists p q r, preprocessing_build by_file = Ok p /\ preprocessing_build by_name = Ok q /\ preprocessing_build by_other = Ok r /\
  pipeline_eq p q = true /\ pipeline_ne p r = true /\
  plan by_name ["GardnerKnopoff"; "Create_eq_vector"; "Store_eq_catalog"; "Store_completeness_table"].
Proof.
  eexists. eexists. eexists. split; [reflexivity|]. split; [reflexivity|]. split; [reflexivity|]. split; [reflexivity|]. split; [reflexivity|].
  apply plan_listed; [split; [reflexivity|discriminate]|now left].
Qed.
