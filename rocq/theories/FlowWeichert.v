(** C70 with Weichert's method: the counterexample.  The completeness analysis is locked and every
    event that maximum likelihood counts is complete; the incomplete events that the second run does
    not have still set the first edge of the time bins, and with it the bins that are set to zero. *)
From Coq Require Import ZArith Bool Ascii String List.
From Coq Require Import Floats.SpecFloat.
From Verif Require Import Base Ops FloatOps Libm CatUtil Decluster DeclusterSpec PyStr Csv PyFloat PyFloatProofs
  EqCatalog EqCatSpec EqCatRound EqCatWitness SourceModel Nrml World CatalogFilter Recurrence MaxMag Jobs Workflow Main
  FlowSpec FlowPipe FlowFiles FlowTable FlowPre FlowStore FlowTwoStep FlowOrder Demo FlowDemo FlowWitness FlowCases.
Import ListNotations.
Local Open Scope string_scope.

(** Weichert's method with time bins of nine years. *)
Definition nine_years (cf : config FL) : config FL :=
  with_rec (@mkRecConf FL (fl "0.5") "Weichert" (fl "4.0") (fl "9.0")) cf.
Definition weichert_first : config FL := nine_years (locked (one_run "Weichert" ["Stepp"])).
Definition weichert_second : config FL := nine_years (second_run "Weichert").

(** The event of 1965 is incomplete: the table starts in 1975. *)
Definition five_quakes : list (list text) := [
  quake "1" "1965" "3" "11" "20.6" "38.4" "5.0";
  quake "2" "1978" "9" "15" "20.7" "38.8" "5.0";
  quake "3" "1985" "11" "30" "20.4" "38.7" "5.8";
  quake "4" "1990" "5" "3" "20.5" "38.5" "5.0";
  quake "5" "2000" "10" "10" "30.3" "38.9" "5.5"].
Definition five_files : files := demo_files [(t "in/cat.csv", ctext five_quakes)].

Lemma nine_restarts : forall cf cf2 p q, restarts cf cf2 p q -> restarts (nine_years cf) (nine_years cf2) p q.
Proof. intros [] [] p q H. exact H. Qed.
Lemma nine_same : forall cf cf2, same_processing cf cf2 -> same_processing (nine_years cf) (nine_years cf2).
Proof. intros [] [] (H1 & H2 & H3 & H4). repeat split; auto. Qed.

Lemma only_stepp : gk_first ["Stepp"].
Proof. intros [|x [|y a]] b E; discriminate. Qed.

Definition weichert_pair (r1 : context FL * option exn) : bool :=
  different r1 (run_config DW weichert_second) && completes (restartable 5 4 (ctext five_quakes)) r1.
Lemma weichert_runs : weichert_pair (run_config DW weichert_first five_files) = true.
Proof. vm_compute. reflexivity. Qed.

Lemma C70_weichert_refuted_proof : exists (W : world FL) cf1 cf2 f l p pt c1 c2 s1 s2,
  cpython_numbers W /\ is_argsort (w_argsort W) /\ rearranges (w_dict_order W) /\
  restarts cf1 cf2 p pt /\ same_processing cf1 cf2 /\ only_processing cf1 /\
  jobs_set (cf_preprocessing_jobs cf1) l /\ gk_first l /\
  run_config W cf1 f = (c1, None) /\ run_config W cf2 (cx_files c1) = (c2, None) /\
  (forall es m flag kept tab w, catalogue_read W cf1 f es -> mapM matrix_row es = Ok m -> cx_flag c1 = Some flag ->
     cx_table c1 = Some tab -> cx_working c1 = Some w -> to_store tab es m flag kept ->
     kept <> [] /\ tab <> [] /\ Forall ellipse_consistent kept /\
     Forall (fun r => @stored5 FL (fst r) = fst r /\ @stored5 FL (snd r) = snd r) tab /\
     (forall e, In e w -> counted tab e -> complete tab e)) /\
  cx_sms c1 = Some [s1] /\ cx_sms c2 = Some [s2] /\
  @ltb FL (@add FL (b_value s1) (fl "0.1")) (b_value s2) = true.
Proof.
  pose proof weichert_runs as H. unfold weichert_pair in H. apply andb_true_iff in H. destruct H as (D & C).
  destruct (different_gives _ _ D) as (c1 & c2 & s1 & s2 & R1 & R2 & S1 & S2 & B).
  destruct (ok_gives _ _ C) as (c1' & R1' & P). assert (c1' = c1) by congruence. subst c1'.
  exists DW, weichert_first, weichert_second, five_files, ["Stepp"], (t "out/cat.csv"), (t "out/tab.csv"), c1, c2, s1, s2.
  split; [split; reflexivity|]. split; [exact demo_argsort_ok|]. split; [exact cpython_rearranges|].
  split; [exact (nine_restarts _ _ _ _ (locked_restarts _ _ _ _ (demo_restarts "Weichert" ["Stepp"])))|].
  split; [exact (nine_same _ _ (locked_same _ _ (demo_same_processing "Weichert" ["Stepp"])))|].
  split. { intros l n E I. cbn in E. injection E as <-. destruct I as [<-|[]]. now left. }
  split. { split; [reflexivity|clear; discriminate]. } split; [exact only_stepp|]. split; [exact R1|]. split; [exact R2|].
  split.
  { intros es m flag kept tab w A1 A2 A3 A4 A5 A6.
    destruct (restartable_ok 5 4 (ctext five_quakes) (t "in/cat.csv") weichert_first five_files c1 P eq_refl eq_refl es m flag kept tab w A1 A2 A3 A4 A5 A6) as (B1 & B2 & B3 & B4 & _ & B5 & B6 & B7).
    auto 10. }
  auto.
Qed.
