(** Concrete cases of C108 and C109 in the demonstration world. *)
From Coq Require Import ZArith Bool Ascii String List.
From Verif Require Import Base Ops PyStr PyStrProofs EqCatWitness World Jobs Workflow Main FlowSpec FlowFiles RepeatSpec Demo FlowDemo FlowCases.
Import ListNotations.
Local Open Scope nat_scope.
Local Open Scope string_scope.

Lemma basic_read : forall q, read_path basic q -> q = t "in/cat.csv" \/ q = t "in/ab.xml".
Proof.
  intros q [H|[H|[H _]]].
  - left. now injection H as <-.
  - right. now injection H as <-.
  - destruct H as [H|H]; [|discriminate H]. cbn in H. repeat destruct H as [H|H]; try discriminate H. destruct H.
Qed.
Lemma basic_written : forall q, written_path basic q -> q = t "out/cat.csv" \/ q = t "out/tab.csv" \/ q = t "out/res.xml".
Proof.
  intros q [[_ H]|[[_ H]|H]]; injection H as <-; auto.
Qed.
Lemma basic_stores : forall n, stores n basic.
Proof. intros n. right. split; [discriminate|]. exists (t "out/cat.csv"). split; [reflexivity|discriminate]. Qed.

Definition stored_catalogue (c : context FL) : bool :=
  match cx_files c (t "out/cat.csv") with Some _ => true | None => false end.
Lemma basic_stored : completes stored_catalogue (run_config DW basic dfiles) = true.
Proof. vm_compute. reflexivity. Qed.

Lemma C108_case_proof :
  let g := write_file (t "out/cat.csv") (ctext quakes) (write_file (t "out/tab.csv") (ctext quakes) dfiles) in
  (forall q, read_path basic q -> dfiles q = g q) /\ dfiles (t "out/cat.csv") <> g (t "out/cat.csv") /\
  exists c1, run_config DW basic dfiles = (c1, None) /\ cx_files c1 (t "out/cat.csv") <> None.
Proof.
  cbv zeta. split; [|split].
  - intros q R. destruct (basic_read q R) as [-> | ->]; reflexivity.
  - clear. discriminate.
  - destruct (ok_gives _ _ basic_stored) as (c1 & R & S). exists c1. split; [exact R|].
    unfold stored_catalogue in S. destruct (cx_files c1 (t "out/cat.csv")); discriminate.
Qed.

Lemma C108_stored_case_proof : ~ written_path basic_again (t "out/tab.csv") /\ output_path basic_again (t "out/tab.csv") /\
  written_path basic (t "out/tab.csv").
Proof.
  split; [|split].
  - intros [[_ H]|[[[H|[H _]] _]|H]].
    + discriminate H.
    + cbn in H. repeat destruct H as [H|H]; try discriminate H. destruct H.
    + now apply H.
    + discriminate H.
  - right. left. reflexivity.
  - right. left. split; [apply basic_stores|reflexivity].
Qed.

Lemma C109_case_proof : (forall q, read_path basic q -> ~ written_path basic q) /\
  (exists c1, run_config DW basic dfiles = (c1, None)) /\ read_path basic (t "in/cat.csv") /\ written_path basic (t "out/cat.csv").
Proof.
  split; [|split; [|split]].
  - intros q R H. destruct (basic_read q R) as [-> | ->]; destruct (basic_written _ H) as [E|[E|E]]; discriminate E.
  - destruct (ok_gives _ _ basic_runs) as (c1 & R & _). now exists c1.
  - now left.
  - left. split; [apply basic_stores|reflexivity].
Qed.
