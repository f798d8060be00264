(** Property C94: the event matrix built by jobs.py. *)
From Coq Require Import ZArith Bool Ascii String List Lia.
From Verif Require Import Base Ops CatUtil Libm PyStr Csv EqCatalog EqCatSpec EqCatFile SourceModel Nrml World CatalogFilter
  Jobs Workflow Main FlowSpec MatrixSpec FlowMatrix Demo FlowDemo FlowWitness FlowCases.
Import ListNotations.
Local Open Scope nat_scope.

(** C94.  Once the catalogue and the source model have been read, the event matrix is built
    without an exception; its rows are, one by one and in order, the records of the catalogue
    file, each number being the one in its own column. *)
Theorem C94_matrix_rows : forall (AR : Ops) (W : world AR), rearranges (w_dict_order W) ->
  forall cf f sj c, source_job (cf_source_model_file cf) sj ->
  steps W [J_read_eq_catalog; sj] (init_context cf f) c ->
  exists p content rows m c', cf_eq_catalog_file cf = Given p /\ f p = Some content /\
    csv_read c_init (tl (file_lines content)) = (rows, None) /\
    run_job W J_create_catalog_matrix c = (c', None) /\ cx_matrix c' = Some m /\ cx_working c' = Some m /\
    Forall2 (record_event W) (nonblank rows) m.
Proof. exact (@C94_proof). Qed.
Print Assumptions C94_matrix_rows.

(** A catalogue of fourteen events. *)
Example C94_case : rearranges (w_dict_order DW) /\ source_job (cf_source_model_file basic) J_read_source_model /\
  exists c es, steps DW [J_read_eq_catalog; J_read_source_model] (init_context basic dfiles) c /\
    cx_eq_catalog c = Some es /\ length es = 14.
Proof.
  split; [exact DW_order|]. split; [constructor; eexists; split; [reflexivity|discriminate]|].
  destruct (pipeline_gives [J_read_eq_catalog; J_read_source_model] (init_context basic dfiles) (fun c => match cx_eq_catalog c with Some es => Nat.eqb (length es) 14 | None => false end)
    ) as (c & S1 & P); [vm_compute; reflexivity|].
  destruct (cx_eq_catalog c) as [es|] eqn:E; [|discriminate].
  exists c, es. split; [exact S1|]. split; auto. now apply Nat.eqb_eq.
Qed.
