(** A run whose result has an empty magnitude range (C138). *)
From Coq Require Import ZArith Bool Ascii String List.
From Coq Require Import Floats.SpecFloat.
From Verif Require Import Base Ops FloatOps Libm CatUtil PyStr Csv PyFloat EqCatalog EqCatWitness
  SourceModel Nrml World CatalogFilter Jobs Workflow Main Demo FlowSpec FlowDemo FlowWitness FlowCases.
Import ListNotations.
Local Open Scope string_scope.

(** Three large earthquakes in three years. *)
Definition steady_quakes : list (list text) := [
  quake "1" "2000" "3" "11" "20.6" "38.4" "7";
  quake "2" "2001" "1" "20" "20.2" "38.6" "6.9";
  quake "3" "2002" "6" "1" "20.3" "38.2" "7"].

Definition steady_files : files := demo_files [(t "in/cat.csv", ctext steady_quakes)].

Definition steady_config : config FL :=
  with_rec (@mkRecConf FL (fl "0.1") "MLE" (fl "6.8") (fl "1.0"))
  (with_mm (@mkMmConf FL "Cumulative_Moment" (fl "0.001") 10 5 10 3)
  (no_conf (Given (t "in/cat.csv")) Null Null (Given ["Recurrence"; "MaximumMagnitude"]) Null Null (Given (t "out/res.xml")) (Given tt))).

(** The only source of the result: maximum below minimum, and below 6.7. *)
Definition empty_range (c : context FL) : bool :=
  match cx_sms c with
  | Some [s] => @ltb FL (tg_max (rm_tgr (as_rate s))) (tg_min (rm_tgr (as_rate s)))
  | _ => false
  end.
Definition above_reference (es : list (entry FL)) : bool :=
  match mapM matrix_row es with
  | Ok m => forallb (fun e => @ltb FL (fl "6.8") (ev_mw e)) m
  | Err _ => false
  end.
Definition steady_entries : list (entry FL) :=
  match @read_eq_catalog FL (w_parse_float DW) (w_now_year DW) (w_dict_order DW) (ctext steady_quakes) with Ok es => es | Err _ => [] end.

Lemma steady_runs : completes empty_range (run_config DW steady_config steady_files) = true.
Proof. vm_cast_no_check (@eq_refl bool true). Qed.
Lemma steady_above : above_reference steady_entries = true.
Proof. vm_cast_no_check (@eq_refl bool true). Qed.
Lemma steady_read : @read_eq_catalog FL (w_parse_float DW) (w_now_year DW) (w_dict_order DW) (ctext steady_quakes) = Ok steady_entries.
Proof. vm_cast_no_check (@eq_refl (res (list (entry FL))) (Ok steady_entries)). Qed.

Lemma C138_refuted_proof : exists cf f c s es m k,
  run_config DW cf f = (c, None) /\ cx_sms c = Some [s] /\ catalogue_read DW cf f es /\ mapM matrix_row es = Ok m /\
  cf_recurrence cf = Ok k /\ (forall e, In e m -> @ltb FL (rc_reference k) (ev_mw e) = true) /\
  @ltb FL (tg_max (rm_tgr (as_rate s))) (tg_min (rm_tgr (as_rate s))) = true.
Proof.
  destruct (ok_gives _ _ steady_runs) as (c & R & E). unfold empty_range in E.
  destruct (cx_sms c) as [[|s [|s2 ss]]|] eqn:S; try discriminate E.
  assert (A := steady_above). unfold above_reference in A. destruct (mapM matrix_row steady_entries) as [m|] eqn:M; [|discriminate A].
  exists steady_config, steady_files, c, s, steady_entries, m, (@mkRecConf FL (fl "0.1") "MLE" (fl "6.8") (fl "1.0")).
  split; [exact R|]. split; [exact S|].
  split. { exists (t "in/cat.csv"), (ctext steady_quakes). split; [reflexivity|]. split; [reflexivity|exact steady_read]. }
  split; [exact M|]. split; [reflexivity|]. split; [|exact E].
  intros e I. rewrite forallb_forall in A. apply (A e I).
Qed.
