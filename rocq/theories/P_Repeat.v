(** Properties C108 and C109: what a run depends on, and running it again. *)
From Coq Require Import ZArith Bool Ascii String List.
From Verif Require Import Base Ops PyStr EqCatWitness World Jobs Workflow Main FlowSpec RepeatSpec FlowRepeat Demo FlowDemo FlowCases RepeatCases.
Import ListNotations.
Local Open Scope nat_scope.
Local Open Scope string_scope.
Local Open Scope list_scope.

(** C108.  Two runs of one configuration whose catalogue file, source model file and -- when it is
    retrieved -- completeness table file are the same have the same outcome and the same context, and
    every file either has the same content after both or was left alone by both. *)
Theorem C108_only_input_files_matter :
  forall (AR : Ops) (W : world AR) f g cf c1 e1 c2 e2, (forall q, read_path cf q -> f q = g q) ->
  run_config W cf f = (c1, e1) -> run_config W cf g = (c2, e2) ->
  e1 = e2 /\ same_context c1 c2 /\
  forall q, cx_files c1 q = cx_files c2 q \/ cx_files c1 q = f q /\ cx_files c2 q = g q.
Proof. exact (@C108_proof). Qed.
Print Assumptions C108_only_input_files_matter.

Example C108_case :
  let g := write_file (t "out/cat.csv") (ctext quakes) (write_file (t "out/tab.csv") (ctext quakes) dfiles) in
  (forall q, read_path basic q -> dfiles q = g q) /\ dfiles (t "out/cat.csv") <> g (t "out/cat.csv") /\
  exists c1, run_config DW basic dfiles = (c1, None) /\ cx_files c1 (t "out/cat.csv") <> None.
Proof. exact C108_case_proof. Qed.

(** C108.  A run changes no file but those it stores: the preprocessed catalogue and the completeness
    table only when a job stores them. *)
Theorem C108_only_stored_files_change :
  forall (AR : Ops) (W : world AR) cf f c' x q, run_config W cf f = (c', x) -> ~ written_path cf q ->
  cx_files c' q = f q.
Proof. exact (@written_only_proof). Qed.
Print Assumptions C108_only_stored_files_change.

Example C108_case_stored : ~ written_path basic_again (t "out/tab.csv") /\ output_path basic_again (t "out/tab.csv") /\
  written_path basic (t "out/tab.csv").
Proof. exact C108_stored_case_proof. Qed.

(** C109.  When no file read is also written, running the same configuration again on the files the first
    run left has the same outcome and leaves every file as it is. *)
Theorem C109_running_again :
  forall (AR : Ops) (W : world AR) cf f c1 e, run_config W cf f = (c1, e) ->
  (forall q, read_path cf q -> ~ written_path cf q) ->
  exists c2, run_config W cf (cx_files c1) = (c2, e) /\ same_context c1 c2 /\
    forall q, cx_files c2 q = cx_files c1 q.
Proof. exact (@C109_proof). Qed.
Print Assumptions C109_running_again.

Example C109_case : (forall q, read_path basic q -> ~ written_path basic q) /\
  (exists c1, run_config DW basic dfiles = (c1, None)) /\ read_path basic (t "in/cat.csv") /\ written_path basic (t "out/cat.csv").
Proof. exact C109_case_proof. Qed.
