(** Runs of the demonstration world for C139. *)
From Coq Require Import ZArith Bool Ascii String List.
From Verif Require Import Base Ops FloatOps Libm CatUtil PyStr EqCatalog SourceModel Nrml World CatalogFilter Jobs Workflow Main
  Demo FlowSpec FlowDemo FlowWitness FlowCases RangeCase WholeSpec WholeProofs WholeRuns.
Import ListNotations.
Local Open Scope string_scope.

Lemma basic_processing : only_processing basic.
Proof. intros l n E I. cbn in E. injection E as <-. destruct I as [<-|[<-|[]]]; auto. Qed.
Lemma basic_no_retrieve : forall l, cf_preprocessing_jobs basic = Given l -> ~ In "Retrieve_completeness_table" l.
Proof. intros l E I. cbn in E. injection E as <-. destruct I as [E|[]]. discriminate. Qed.

Lemma C139_case_proof : exists c, run_config DW basic dfiles = (c, None) /\ only_processing basic /\
  (forall l, cf_preprocessing_jobs basic = Given l -> ~ In "Retrieve_completeness_table" l) /\ cf_preprocessing_jobs basic = Given ["GardnerKnopoff"].
Proof.
  destruct C72_case_proof as ((c & R) & _). exists c. split; [exact R|]. split; [exact basic_processing|]. split; [exact basic_no_retrieve|reflexivity].
Qed.

Lemma C139_runs_case_proof : exists ss' d, computed DW steady_config steady_files ss' /\ processing_listed steady_config [J_recurrence; J_maximum_magnitude] /\
  jobs_unset (cf_preprocessing_jobs steady_config) /\ cf_result_file steady_config = Given (t "out/res.xml") /\
  w_exists DW (dirname (t "out/res.xml")) = true /\ w_can_write DW (t "out/res.xml") = true /\
  write_doc (w_str_float DW) (w_xml_ok DW) ss' = Ok d.
Proof.
  destruct (ok_gives _ _ steady_runs) as (c & R & _).
  destruct (C139_proof DW steady_config steady_files c R) as (p & d & ss' & _ & _ & C & D).
  - intros l n E I. cbn in E. injection E as <-. destruct I as [<-|[<-|[]]]; auto.
  - intros l E. discriminate E.
  - exists ss', d. split; [exact C|]. split.
    { left. exists ["Recurrence"; "MaximumMagnitude"]. split; [split; [reflexivity|discriminate]|]. repeat constructor. }
    split; [now left|]. split; [reflexivity|]. split; [reflexivity|]. split; [reflexivity|exact D].
Qed.
