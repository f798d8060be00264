(** Runs of the demonstration world for C145. *)
From Coq Require Import ZArith Bool Ascii String List.
From Verif Require Import Base Ops FloatOps Libm CatUtil PyStr EqCatalog SourceModel Nrml World CatalogFilter
  Jobs Workflow Main Demo FlowSpec FlowDemo FlowCases RangeCase StoreSpec.
Import ListNotations.
Local Open Scope string_scope.

(** The run of RangeCase.v after declustering, with and without files for catalogue and table. *)
Definition store_config (pre : list string) (store table : cval text) : config FL :=
  with_gk (@mkGkConf FL "GardnerKnopoff" (fl "0.5"))
  (with_rec (@mkRecConf FL (fl "0.1") "MLE" (fl "6.8") (fl "1.0"))
  (with_mm (@mkMmConf FL "Cumulative_Moment" (fl "0.001") 10 5 10 3)
  (no_conf (Given (t "in/cat.csv")) Null (Given pre) (Given ["Recurrence"; "MaximumMagnitude"]) store table (Given (t "out/res.xml")) (Given tt)))).
Definition storing : config FL := store_config ["GardnerKnopoff"] (Given (t "out/cat.csv")) (Given (t "out/tab.csv")).
Definition not_storing : config FL := store_config ["GardnerKnopoff"; "Create_eq_vector"] Null Null.

Definition stored (b : bool) (c : context FL) : bool :=
  Bool.eqb (match cx_files c (t "out/cat.csv") with Some _ => true | None => false end) b.
Lemma storing_runs : completes (stored true) (run_config DW storing steady_files) = true.
Proof. vm_cast_no_check (@eq_refl bool true). Qed.
Lemma not_storing_runs : completes (stored false) (run_config DW not_storing steady_files) = true.
Proof. vm_cast_no_check (@eq_refl bool true). Qed.

Lemma C145_case_proof : exists c c', run_config DW storing steady_files = (c, None) /\ run_config DW not_storing steady_files = (c', None) /\
  cx_files c (t "out/cat.csv") <> None /\ cx_files c' (t "out/cat.csv") = None /\
  same_but_storing storing not_storing /\ jobs_set (cf_preprocessing_jobs storing) ["GardnerKnopoff"] /\
  jobs_set (cf_preprocessing_jobs not_storing) ["GardnerKnopoff"; "Create_eq_vector"] /\
  same_analyses ["GardnerKnopoff"] ["GardnerKnopoff"; "Create_eq_vector"] /\ only_processing storing.
Proof.
  destruct (ok_gives _ _ storing_runs) as (c & R & E). destruct (ok_gives _ _ not_storing_runs) as (c' & R' & E').
  exists c, c'. split; [exact R|]. split; [exact R'|]. clear R R'. unfold stored in *. split.
  { intro X. rewrite X in E. discriminate E. }
  split. { destruct (cx_files c' (t "out/cat.csv")); [discriminate E'|reflexivity]. }
  split; [repeat split|]. split; [split; [reflexivity|intro X; discriminate X]|]. split; [split; [reflexivity|intro X; discriminate X]|].
  split; [reflexivity|]. intros l n X I. cbn in X. injection X as <-. destruct I as [<-|[<-|[]]]; auto.
Qed.
