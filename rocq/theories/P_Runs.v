(** Property C151: which runs without jobs complete (main.py, mtoolkit/workflow.py:165-187, mtoolkit/jobs.py:60-137, 284-297). *)
From Coq Require Import ZArith Bool Ascii String List.
From Verif Require Import Base Ops Libm CatUtil PyStr Csv EqCatalog EqCatSpec SourceModel Nrml World CatalogFilter Jobs Workflow Main FlowSpec
  EqCatWitness Demo FlowDemo FlowWitness FlowCases InputSpec RunsSpec RunsProofs.
Import ListNotations.
Local Open Scope string_scope.
Local Open Scope list_scope.

(** C151.  With a usable configuration without preprocessing and processing, a run completes exactly
    when no input is bad in one of the ways of C148 and the result can be written: nothing else in
    the files can stop it. *)
Theorem C151_completes_iff :
  forall (AR : Ops) (W : world AR), rearranges (w_dict_order W) ->
  forall (cf : config AR) (f : files) q, usable cf -> jobs_unset (cf_preprocessing_jobs cf) ->
  cf_apply_processing_jobs cf = Null -> cf_eq_catalog_file cf = Given q ->
  ((exists c, run_config W cf f = (c, None)) <-> input_good W cf f /\ result_possible W cf f).
Proof. exact (@C151_proof). Qed.
Print Assumptions C151_completes_iff.

Definition copying : config FL := no_conf (Given (t "in/cat.csv")) Null Null Null Null (Given (t "in/tab.csv")) (Given (t "out/res.xml")) Null.
Definition files_with (tab : text) : files := demo_files [(t "in/cat.csv", ctext quakes); (t "in/tab.csv", tab)].

(** A table of two columns, with which the run completes, and one of three. *)
Example C151_case :
  usable copying /\ jobs_unset (cf_preprocessing_jobs copying) /\ cf_apply_processing_jobs copying = Null /\
  (exists c, run_config DW copying (files_with (t "1990.0,4.0")) = (c, None)) /\
  ~ input_good DW copying (files_with (t "1990.0,4.0,1.0")) /\ rearranges (w_dict_order DW).
Proof.
  split; [|split; [|split; [|split; [|split]]]].
  - split; [right; left; reflexivity|]. split; [right; split; [left; reflexivity|left; eexists; split; [reflexivity|discriminate]]|right; left; reflexivity].
  - left. reflexivity.
  - reflexivity.
  - assert (X : completes (fun _ => true) (run_config DW copying (files_with (t "1990.0,4.0"))) = true) by vm_cast_no_check (@eq_refl bool true).
    destruct (ok_gives _ _ X) as (c & R & _). eauto.
  - intros (_ & B). apply (B (t "in/tab.csv") ValueError eq_refl ltac:(discriminate)).
    apply (BT_odd _ _ (t "1990.0,4.0,1.0") 3); [reflexivity| |reflexivity]. intros l [<-|[]]. reflexivity.
  - exact DW_order.
Qed.
