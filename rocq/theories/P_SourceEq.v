(** Property C150: equality of sources, mtoolkit/source_model.py:76-89, in binary64. *)
From Coq Require Import ZArith Bool List String.
From Coq Require Import Floats.SpecFloat.
From Verif Require Import Base Ops FloatOps PyStr PyFloat SourceModel Nrml NrmlSpec NrmlFinal FlowSpec RegionEq SourceEq SourceEqProofs.
Import ListNotations.

Definition negative_zero_source (lm : libm) : area_source (FOps lm) :=
  @set_rates (FOps lm) default_area_source (S754_zero true) (F_ofZ 0) (F_ofZ 0) (F_ofZ 0) None None None.

(** C150.  Equal sources are not always written alike: -0.0 == 0.0. *)
Theorem C150_equal_written_same_refuted : forall lm : libm, exists (s o : area_source (FOps lm)) d d',
  source_eqb s o = true /\ write_doc (AR := FOps lm) py_str printableb [s] = Ok d /\
  write_doc (AR := FOps lm) py_str printableb [o] = Ok d' /\ d <> d'.
Proof.
  intros lm. exists (negative_zero_source lm), default_area_source. do 2 eexists.
  split; [vm_compute; reflexivity|]. split; [vm_compute; reflexivity|]. split; [vm_compute; reflexivity|]. intros E. discriminate E.
Qed.
Print Assumptions C150_equal_written_same_refuted.

(** C150.  Without -0.0, equal sources can replace each other in everything that is written,
    whatever the text form of the numbers. *)
Theorem C150_equal_written_same_partial : forall (lm : libm) (s o : area_source (FOps lm)), source_eqb s o = true ->
  (forall x, In x (source_numbers s) -> x <> S754_zero true) -> (forall x, In x (source_numbers o) -> x <> S754_zero true) ->
  forall str_float xml_ok before after,
  write_doc (AR := FOps lm) str_float xml_ok (before ++ s :: after) = write_doc (AR := FOps lm) str_float xml_ok (before ++ o :: after).
Proof. exact C150_proof. Qed.
Print Assumptions C150_equal_written_same_partial.

(** C150.  == is symmetric and transitive, != is its negation; sources without NaN that agree in
    everything but the computed uncertainties are equal, so == is reflexive on them. *)
Theorem C150_equality : forall (lm : libm) (s o r : area_source (FOps lm)),
  (source_eqb s o = true -> source_eqb o s = true) /\
  (source_eqb s o = true -> source_eqb o r = true -> source_eqb s r = true) /\
  (source_neb s o = true <-> source_eqb s o <> true) /\
  (forall sb sa mm, (forall x, In x (source_numbers s) -> x <> S754_nan) ->
     o = mkSource (as_nrml_id s) (as_sm_id s) (as_id s) (as_name s) (as_tect s) (as_boundary s) (as_rate s) (as_depth s) (as_hypo s) sb sa mm ->
     source_eqb s o = true).
Proof.
  intros lm s o r. split; [apply (eq_sym_source lm)|]. split; [apply (eq_trans_source lm)|].
  split; [unfold source_neb; rewrite negb_true_iff, not_true_iff_false; reflexivity|].
  intros sb sa mm N ->. apply (eq_of_part lm); [exact N|reflexivity].
Qed.
Print Assumptions C150_equality.

(** C150.  Equal sources have the same identifiers and texts, and numbers in the same places. *)
Theorem C150_differs : forall (lm : libm) (s o : area_source (FOps lm)), source_eqb s o = true ->
  as_nrml_id s = as_nrml_id o /\ as_sm_id s = as_sm_id o /\ source_texts s = source_texts o /\
  List.length (source_numbers s) = List.length (source_numbers o).
Proof. exact C150_differs_proof. Qed.
Print Assumptions C150_differs.

(** Two sources with one rate each: equal to itself with other uncertainties, different from the other. *)
Example C150_case : forall lm : libm, let s := wsource lm "sm" (F_ofZ 1) in let o := wsource lm "sm" (F_ofZ 2) in
  source_eqb s s = true /\ source_eqb s o = false /\
  source_eqb s (@set_rates (FOps lm) s (F_ofZ 1) (tg_b (rm_tgr (as_rate s))) (tg_min (rm_tgr (as_rate s))) (tg_max (rm_tgr (as_rate s)))
                  (Some (F_ofZ 3)) None None) = true /\
  (forall x, In x (source_numbers s) -> x <> S754_zero true /\ x <> S754_nan).
Proof.
  intros lm s o. split; [vm_compute; reflexivity|]. split; [vm_compute; reflexivity|]. split; [vm_compute; reflexivity|].
  intros x I. vm_compute in I. repeat (destruct I as [<-|I]; [split; discriminate|]). destruct I.
Qed.
