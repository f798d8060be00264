(** Property C70 with Weichert's method. *)
From Coq Require Import ZArith Bool Ascii String List.
From Coq Require Import Floats.SpecFloat.
From Verif Require Import Base Ops FloatOps Libm CatUtil Decluster DeclusterSpec PyStr Csv PyFloat
  EqCatalog EqCatSpec SourceModel Nrml World CatalogFilter Recurrence MaxMag Jobs Workflow Main
  FlowSpec FlowPipe FlowFiles FlowTable FlowPre FlowStore FlowTwoStep FlowOrder Demo FlowDemo FlowWitness FlowCases FlowWeichert.
Import ListNotations.
Local Open Scope string_scope.

(** C70 with Weichert's method is false under the conditions that are enough for maximum likelihood
    ([C70_two_steps_float_partial]): the b-values of one run and of two runs differ by more than 0.1. *)
Theorem C70_two_steps_weichert_refuted : exists (W : world FL) cf1 cf2 f l p pt c1 c2 s1 s2,
  cpython_numbers W /\ is_argsort (w_argsort W) /\ rearranges (w_dict_order W) /\
  restarts cf1 cf2 p pt /\ same_processing cf1 cf2 /\ only_processing cf1 /\
  jobs_set (cf_preprocessing_jobs cf1) l /\ gk_first l /\
  run_config W cf1 f = (c1, None) /\ run_config W cf2 (cx_files c1) = (c2, None) /\
  (forall es m flag kept tab w, catalogue_read W cf1 f es -> mapM matrix_row es = Ok m -> cx_flag c1 = Some flag ->
     cx_table c1 = Some tab -> cx_working c1 = Some w -> to_store tab es m flag kept ->
     kept <> [] /\ tab <> [] /\ Forall ellipse_consistent kept /\
     Forall (fun r => @stored5 FL (fst r) = fst r /\ @stored5 FL (snd r) = snd r) tab /\
     (forall e, In e w -> counted tab e -> complete tab e)) /\
  cx_sms c1 = Some [s1] /\ cx_sms c2 = Some [s2] /\
  @ltb FL (@add FL (b_value s1) (fl "0.1")) (b_value s2) = true.
Proof. exact C70_weichert_refuted_proof. Qed.
Print Assumptions C70_two_steps_weichert_refuted.
