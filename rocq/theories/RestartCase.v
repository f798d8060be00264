(** Runs of the demonstration world for C144. *)
From Coq Require Import ZArith Bool Ascii String List.
From Coq Require Import Floats.SpecFloat.
From Verif Require Import Base Ops FloatOps Libm CatUtil PyStr Csv PyFloat EqCatalog EqCatWitness
  SourceModel Nrml World CatalogFilter Jobs Workflow Main Demo FlowSpec FlowDemo FlowCases RestartSpec.
Import ListNotations.
Local Open Scope string_scope.

(** A large earthquake and a small one a month later. *)
Definition restart_quakes : list (list text) := [
  quake "1" "2000" "3" "11" "20.6" "38.4" "7";
  quake "2" "2000" "4" "20" "20.6" "38.45" "5"].
Definition restart_files : files := demo_files [(t "in/cat.csv", ctext restart_quakes)].
Definition restart_config (pre : list string) : config FL :=
  with_gk (@mkGkConf FL "GardnerKnopoff" (fl "0.5"))
  (with_af (@mkAfConf FL "Uhrhammer" (fl "5.0"))
  (no_conf (Given (t "in/cat.csv")) Null (Given pre) (Given []) Null Null (Given (t "out/res.xml")) (Given tt))).
(** All events left are above magnitude 6, or not. *)
Definition large (e : event FL) : bool := @ltb FL (fl "6") (ev_mw e).
Definition only_large (b : bool) (c : context FL) : bool :=
  match cx_working c with Some w => Bool.eqb (forallb large w) b | None => false end.

Lemma restart_one : completes (only_large true) (run_config DW (restart_config ["GardnerKnopoff"]) restart_files) = true.
Proof. vm_cast_no_check (@eq_refl bool true). Qed.
Lemma restart_both : completes (only_large false) (run_config DW (restart_config ["GardnerKnopoff"; "Afteran"]) restart_files) = true.
Proof. vm_cast_no_check (@eq_refl bool true). Qed.

Lemma large_gives : forall b c, only_large b c = true -> exists w, cx_working c = Some w /\ forallb large w = b.
Proof. intros b c H. unfold only_large in H. destruct (cx_working c) as [w|]; [|discriminate H]. exists w. split; auto. now apply eqb_prop. Qed.

Lemma forallb_false : forall {A : Type} (g : A -> bool) l, forallb g l = false -> exists a, In a l /\ g a = false.
Proof.
  intros A g. induction l as [|a l IH]; intros H; [discriminate H|]. cbn [forallb] in H. destruct (g a) eqn:E.
  - destruct (IH H) as (x & I & G). exists x. split; [now right|exact G].
  - exists a. split; [now left|exact E].
Qed.

Lemma C144_refuted_proof : exists cf cf' f c c' w w',
  same_but_preprocessing cf cf' /\ cf_preprocessing_jobs cf = Given ["GardnerKnopoff"] /\ cf_preprocessing_jobs cf' = Given ["GardnerKnopoff"; "Afteran"] /\
  run_config DW cf f = (c, None) /\ run_config DW cf' f = (c', None) /\ cx_working c = Some w /\ cx_working c' = Some w' /\
  exists e, In e w' /\ ~ In e w.
Proof.
  destruct (ok_gives _ _ restart_one) as (c & R & E). destruct (ok_gives _ _ restart_both) as (c' & R' & E').
  apply large_gives in E, E'. destruct E as (w & K & L). destruct E' as (w' & K' & L').
  exists (restart_config ["GardnerKnopoff"]), (restart_config ["GardnerKnopoff"; "Afteran"]), restart_files, c, c', w, w'.
  split; [repeat split|]. split; [reflexivity|]. split; [reflexivity|]. split; [exact R|]. split; [exact R'|]. split; [exact K|]. split; [exact K'|].
  destruct (forallb_false _ _ L') as (e & I & G). exists e. split; [exact I|]. intro J.
  rewrite forallb_forall in L. rewrite (L e J) in G. discriminate G.
Qed.

Lemma C144_case_proof : exists c, run_config DW (restart_config ["GardnerKnopoff"; "Afteran"]) restart_files = (c, None) /\
  same_but_preprocessing (restart_config ["GardnerKnopoff"; "Afteran"]) (restart_config ["Afteran"]) /\
  cf_preprocessing_jobs (restart_config ["GardnerKnopoff"; "Afteran"]) = Given (["GardnerKnopoff"] ++ "Afteran" :: [])%list /\
  cf_preprocessing_jobs (restart_config ["Afteran"]) = Given ["Afteran"] /\ Forall declusters ["GardnerKnopoff"].
Proof.
  destruct (ok_gives _ _ restart_both) as (c & R & _). exists c. split; [exact R|]. split; [repeat split|]. split; [reflexivity|]. split; [reflexivity|].
  constructor; [now left|constructor].
Qed.
