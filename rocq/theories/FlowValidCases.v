(** Runs in the demonstration world whose results are compared with the schema. *)
From Coq Require Import ZArith Bool Ascii String List Lia.
From Coq Require Import Floats.SpecFloat.
From Verif Require Import Base Ops BaseFacts FloatOps Libm PyStr PyStrProofs PyFloat PyFloatProofs SourceModel Nrml NrmlSpec NrmlRead NrmlRound NrmlFinal
  NrmlSchema NrmlValid3 NrmlSamples PyXsd World CatalogFilter Jobs Workflow Main FlowSpec FlowPipe FlowFiles FlowValid Demo FlowDemo FlowWitness FlowCases.
From Coq Require Import List.
Import ListNotations.
Local Open Scope string_scope.

(** The same project without a source model. *)
Definition modelless : config FL :=
  dconfig Null ["GardnerKnopoff"] ["Recurrence"; "MaximumMagnitude"] "MLE"
    (Given (t "out/cat.csv")) (Given (t "out/tab.csv")) (t "out/res.xml").

Lemma modelless_runs : completes (fun _ => true) (run_config DW modelless dfiles) = true.
Proof. vm_cast_no_check (@eq_refl bool true). Qed.

Lemma C106_refuted_proof : exists cf f c' p d, run_config DW cf f = (c', None) /\ cf_result_file cf = Given p /\
  cx_files c' p = Some (w_xml_print DW d) /\ ~ valid_document (AR := FL) py_float (reparsed demo_indent 0 d).
Proof.
  destruct (ok_gives _ _ modelless_runs) as (c & R & _).
  destruct (default_invalid DW py_str_word demo_indent blank_indent modelless dfiles c R (or_introl eq_refl)) as (p & d & A & B & C).
  exists modelless, dfiles, c, p, d. split; [exact R|]. split; [exact A|]. split; [exact B|]. apply C.
Qed.

(** The document of the two zones is valid. *)
Definition ab_doc : xml := document [zone_a; zone_b].

Lemma ab_written : write_doc (AR := FL) py_str (fun _ => true) [zone_a; zone_b] = Ok ab_doc.
Proof. vm_cast_no_check (@eq_refl (res xml) (Ok ab_doc)). Qed.
Lemma ab_reparsed : reparsed (fun _ => None) 0 ab_doc = ab_doc.
Proof. vm_cast_no_check (@eq_refl xml ab_doc). Qed.

Lemma fin_double : forall x y : spec_float, x = y -> match y with S754_zero _ | S754_finite _ _ _ => True | _ => False end -> xs_double (py_str x).
Proof. intros x y -> H. apply py_str_double. destruct y; auto. Qed.

Ltac fin := eapply fin_double; [vm_compute; reflexivity|exact I].

Lemma square_fits : forall id l0 l1, match fl l0 with S754_zero _ | S754_finite _ _ _ => True | _ => False end ->
  match fl l1 with S754_zero _ | S754_finite _ _ _ => True | _ => False end -> fits_schema (AR := FL) py_float py_str (square id l0 l1).
Proof.
  intros id l0 l1 F0 F1. constructor.
  - exists (t "Active Shallow Crust"). split; [reflexivity|now left].
  - exists (t "ML"), (t "ML"). split; [reflexivity|]. split; [now left|]. split; [reflexivity|now left].
  - cbn [flat_points flat_map fst snd app as_boundary as_depth as_rate square ab_pos dd_mags rm_tgr tg_a tg_min tg_max].
    assert (D0 : xs_double (py_str (fl l0))) by (apply (fin_double _ _ eq_refl F0)).
    assert (D1 : xs_double (py_str (fl l1))) by (apply (fin_double _ _ eq_refl F1)).
    apply Forall_cons; [exact D0|]. apply Forall_cons; [fin|]. apply Forall_cons; [exact D1|]. apply Forall_cons; [fin|].
    apply Forall_cons; [exact D1|]. apply Forall_cons; [fin|]. apply Forall_cons; [exact D0|]. apply Forall_cons; [fin|].
    repeat (apply Forall_cons; [fin|]). constructor.
  - split; [|split]; (split; [fin|]); eexists; (split; [vm_compute; reflexivity|split; vm_compute; reflexivity]).
  - repeat (apply Forall_cons; [split; [fin|eexists; split; vm_compute; reflexivity]|]). constructor.
Qed.

Lemma ab_valid : valid_document (AR := FL) py_float ab_doc.
Proof.
  rewrite <- ab_reparsed.
  destruct (written_valid (AR := FL) py_float py_str (fun _ => true) (fun _ => None) py_str_word ltac:(discriminate) _ _ ab_written)
    as (s0 & sl & X & l & L & WV).
  injection X as <- <-. apply WV.
  assert (E : l = [t "n1"; t "sm1"; t "a"; t "b"]).
  { assert (G : forall (l : list text) a b c d, map Some l = [Some a; Some b; Some c; Some d] -> l = [a; b; c; d]).
    { intros [|x [|y [|z [|w [|v m]]]]] a b c d H; try discriminate. cbn in H. now injection H as -> -> -> ->. }
    exact (G l _ _ _ _ L). }
  subst l. split; [apply nodupb_ok; vm_compute; reflexivity|]. split; [apply names_ok; vm_compute; reflexivity|].
  constructor; [|constructor; [|constructor]]; apply square_fits; vm_compute; exact I.
Qed.

Lemma C106_case_proof : exists c', run_config DW basic dfiles = (c', None) /\ cf_source_model_file basic = Given (t "in/ab.xml") /\
  dfiles (t "in/ab.xml") = Some (t "ab") /\ w_xml_parse DW (t "ab") = Some ab_doc /\ valid_document (AR := FL) py_float ab_doc.
Proof.
  destruct (ok_gives _ _ basic_runs) as (c & R & _). exists c. split; [exact R|]. split; [reflexivity|]. split; [reflexivity|]. split; [reflexivity|exact ab_valid].
Qed.
