(** Properties C141 and C142: entries of the configuration without effect, identifiers of events
    (configuration.rst:41-53, catalogue.rst:20-21, workflow.py:159-187, eqcatalog.py). *)
From Coq Require Import ZArith Bool Ascii String List.
From Verif Require Import Base Ops FloatOps CatUtil PyStr EqCatalog World Jobs Workflow Main FlowSpec Demo FlowDemo
  ParamSpec ParamProofs ParamCase.
Import ListNotations.
Local Open Scope string_scope.

(** C141.  Parameter groups of jobs that are not listed have no effect, whether they are there,
    wrong or missing, and without preprocessing jobs neither has pprocessing_result_file. *)
Theorem C141_unlisted : forall (AR : Ops) (W : world AR) cf cf' f,
  same_common cf cf' -> same_named_groups cf cf' -> same_store_if_used cf cf' ->
  same_outcome (run_config W cf f) (run_config W cf' f).
Proof. intros AR W cf cf' f A B D. exact (C141_unlisted_proof W cf cf' A B D f). Qed.
Print Assumptions C141_unlisted.

(** C141, the documented way to start from preprocessed results is false: the run completes and
    analyses the events of eq_catalog_file, not those of the preprocessed catalogue. *)
Theorem C141_preprocessed_input_refuted : exists cf f c p content es,
  run_config DW cf f = (c, None) /\ jobs_unset (cf_preprocessing_jobs cf) /\
  cf_pprocessing_result_file cf = Given p /\ f p = Some content /\
  read_eq_catalog (w_parse_float DW) (w_now_year DW) (w_dict_order DW) content = Ok es /\ cx_eq_catalog c <> Some es.
Proof. exact C141_refuted_proof. Qed.
Print Assumptions C141_preprocessed_input_refuted.

(** The group of an unlisted job added with an unknown window, the file entry taken away. *)
Example C141_case : exists c, run_config DW prepared_config prepared_files = (c, None) /\
  let cf' := with_gk (@mkGkConf FL "Other" (fl "0")) (with_store Absent prepared_config) in
  same_common prepared_config cf' /\ same_named_groups prepared_config cf' /\ same_store_if_used prepared_config cf' /\
  cf_gk prepared_config = Err KeyError /\ cf_pprocessing_result_file cf' = Absent.
Proof. exact C141_case_proof. Qed.

(** C142 is false: a catalogue in which two rows have the same identifier is read. *)
Theorem C142_unique_identifiers_refuted : exists content es i j e e' z,
  read_eq_catalog (w_parse_float DW) (w_now_year DW) (w_dict_order DW) content = Ok es /\
  i <> j /\ nth_error es i = Some e /\ nth_error es j = Some e' /\
  In (Some "eventID", VInt z) e /\ In (Some "eventID", VInt z) e'.
Proof. exact C142_refuted_proof. Qed.
Print Assumptions C142_unique_identifiers_refuted.
