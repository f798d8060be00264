(** Property C154: the text of a stored catalogue (mtoolkit/eqcatalog.py:331-350, mtoolkit/jobs.py:242-266). *)
From Coq Require Import ZArith Bool Ascii String List Permutation.
From Verif Require Import Base Ops FloatOps PyStr Csv EqCatalog EqCatSpec EqCatWitness PyFloat P_Catalog StoredSpec StoredProofs StoredExact.
From Verif Require Import CatUtil DeclusterSpec SourceModel Nrml World CatalogFilter Jobs Workflow Main FlowSpec Demo FlowDemo FlowWitness FlowCases P_Flow.
Import ListNotations.
Local Open Scope string_scope.

(** C154.  Entries that were read are written as the heading and one line each: the 25 values in the
    documented order, separated by commas, whole numbers in decimal, floats as repr prints them, and a
    field in quotes exactly if it has a comma, a quote or a line end in it. *)
Theorem C154_text : forall (AR : Ops) (parse_float : text -> option T) (repr_float : T -> text) (now : Z)
    (order : list key -> list key), rearranges order ->
  forall content es sel, read_eq_catalog parse_float now order content = Ok es -> incl sel es ->
  exists out, write_rows repr_float sel = Ok out /\ stored_text repr_float sel out.
Proof. exact (@C154_proof). Qed.
Print Assumptions C154_text.

(** C154.  The description leaves no choice: it holds of the text written and of no other. *)
Theorem C154_exact : forall (AR : Ops) (parse_float : text -> option T) (repr_float : T -> text) (now : Z)
    (order : list key -> list key), rearranges order ->
  forall content es sel, read_eq_catalog parse_float now order content = Ok es -> incl sel es ->
  forall out, write_rows repr_float sel = Ok out <-> stored_text repr_float sel out.
Proof. exact C154_exact_proof. Qed.
Print Assumptions C154_exact.

(** C154.  The file that a preprocessing run stores. *)
Theorem C154_run : forall (AR : Ops) (W : world AR), is_argsort (w_argsort W) -> rearranges (w_dict_order W) ->
  forall cf f pre l p c', preprocessing_build cf = Ok pre -> jobs_set (cf_preprocessing_jobs cf) l -> gk_first l ->
  cf_pprocessing_result_file cf = Given p -> p <> [] -> cf_completeness_table_file cf <> Given p ->
  steps W pre (init_context cf f) c' ->
  exists es m flag tab kept content,
    catalogue_read W cf f es /\ mapM matrix_row es = Ok m /\ cx_flag c' = Some flag /\ cx_table c' = Some tab /\
    to_store tab es m flag kept /\ cx_files c' p = Some content /\ stored_text (w_repr_float W) kept content.
Proof. exact C154_run_proof. Qed.
Print Assumptions C154_run.

(** A catalogue whose agency needs quotes is read, and what a field may look like. *)
Example C154_case : rearranges cpython_order /\
  (forall lm, exists e x, @read_eq_catalog (FOps lm) py_float 2013 cpython_order (ctext [long_row]) = Ok [e] /\
    get (Some "Mw") e = VFlt x /\ py_repr x = t "5.300000000000001") /\
  field_text (t "GEM, ""Pavia""") (t """GEM, """"Pavia""""""") /\ field_text (t "ISC") (t "ISC") /\
  ~ field_text (t "ISC") (t """ISC""") /\ ~ field_text (t "a,b") (t "a,b") /\
  integer_text (-5) (t "-5") /\ integer_text 0 (t "0") /\ ~ integer_text 5 (t "05").
Proof.
  split; [exact cpython_rearranges|]. split.
  - intros lm. destruct (C11_cpython_case lm) as (e & x & A & B & C & _). exists e, x. auto.
  - destruct field_cases_text as (A & B & C & D). destruct integer_cases as (E & F & G). auto 10.
Qed.

(** A run that stores twelve of fourteen events. *)
Example C154_run_case : is_argsort (w_argsort DW) /\ rearranges (w_dict_order DW) /\ preprocessing_build basic = Ok (base4 ++ [J_gardner_knopoff] ++ stores3)%list /\
  jobs_set (cf_preprocessing_jobs basic) ["GardnerKnopoff"] /\ gk_first ["GardnerKnopoff"] /\
  cf_pprocessing_result_file basic = Given (t "out/cat.csv") /\ cf_completeness_table_file basic <> Given (t "out/cat.csv") /\
  exists c fl, steps DW (base4 ++ [J_gardner_knopoff] ++ stores3) (init_context basic dfiles) c /\
    cx_flag c = Some fl /\ length fl = 14 /\ length (filter (fun z => negb (Z.eqb z 0)) fl) = 2.
Proof. split; [apply C68_case|]. split; [exact DW_order|exact C67_case]. Qed.
