(** Properties C63-C75, C86 and C87: workflow.py, jobs.py, catalog_filter.py, console.py, main.py. *)
From Coq Require Import ZArith Bool Ascii String List Lia Reals Permutation.
From Coq Require Import Floats.SpecFloat.
From Verif Require Import Base Ops BaseFacts FloatOps FloatSpec Libm CatUtil Decluster DeclusterSpec Completeness PyStr Csv PyFloat
  EqCatalog EqCatSpec SourceModel Nrml World CatalogFilter Recurrence MaxMag Jobs Workflow Main
  FlowSpec FlowPipe FlowFiles PathSpec FlowDir FlowTable FlowPre FlowStore FlowTwoStep FlowInterfere FlowOrder FlowFive Demo FlowDemo FlowWitness FlowCases.
From Coq Require Import List.
Import ListNotations.
Local Open Scope nat_scope.
Local Open Scope string_scope.
Local Open Scope list_scope.

(** C63.  The preprocessing pipeline by configuration. *)
Theorem C63_preprocessing_pipeline :
  forall (AR : Ops),  forall (cf : config AR) sj, source_job (cf_source_model_file cf) sj ->
  let base := [J_read_eq_catalog; sj; J_create_catalog_matrix; J_create_default_values] in
  let stores := [J_create_selected_eq_vector; J_store_preprocessed_catalog; J_store_completeness_table] in
  (forall l js, jobs_set (cf_preprocessing_jobs cf) l -> Forall2 names l js ->
     (file_set (cf_pprocessing_result_file cf) -> preprocessing_build cf = Ok (base ++ js ++ stores)%list) /\
     (file_unset (cf_pprocessing_result_file cf) -> preprocessing_build cf = Ok (base ++ js)%list)) /\
  (forall l, jobs_set (cf_preprocessing_jobs cf) l -> (exists n, In n l /\ forall j, ~ names n j) ->
     preprocessing_build cf = Err RuntimeError) /\
  (jobs_unset (cf_preprocessing_jobs cf) ->
     (file_set (cf_completeness_table_file cf) -> preprocessing_build cf = Ok (base ++ [J_retrieve_completeness_table])%list) /\
     (file_unset (cf_completeness_table_file cf) -> preprocessing_build cf = Ok base)).
Proof. exact (@C63_proof). Qed.
Print Assumptions C63_preprocessing_pipeline.

(** C63.  The processing pipeline by configuration. *)
Theorem C63_processing_pipeline :
  forall (AR : Ops),  forall cf : config AR,
  (forall l js, jobs_set (cf_processing_jobs cf) l -> Forall2 names l js -> processing_build cf = Ok js) /\
  (forall l, jobs_set (cf_processing_jobs cf) l -> (exists n, In n l /\ forall j, ~ names n j) -> processing_build cf = Err RuntimeError) /\
  (jobs_unset (cf_processing_jobs cf) -> processing_build cf = Ok []).
Proof. exact (@C63_processing_proof). Qed.
Print Assumptions C63_processing_pipeline.

(** C63.  When a pipeline cannot be built nothing runs: no file and no value is touched. *)
Theorem C63_nothing_runs :
  forall (AR : Ops) (W : world AR),  forall (cf : config AR) (f : files) e,
  preprocessing_build cf = Err e \/ processing_build cf = Err e ->
  exists e', run_config W cf f = (init_context cf f, Some e').
Proof. exact (@C63_nothing_runs_proof). Qed.
Print Assumptions C63_nothing_runs.

(** C63.  A configuration without the keys the builder looks up raises KeyError before anything runs. *)
Theorem C63_missing_key :
  forall (AR : Ops) (W : world AR),  forall (cf : config AR) f,
  cf_source_model_file cf = Absent \/ (source_job (cf_source_model_file cf) J_read_source_model /\ cf_preprocessing_jobs cf = Absent) ->
  run_config W cf f = (init_context cf f, Some KeyError).
Proof. exact (@C63_missing_key_proof). Qed.
Print Assumptions C63_missing_key.

(** The demonstration configuration, and a name that is not a job. *)
Example C63_case :
  source_job (cf_source_model_file basic) J_read_source_model /\ jobs_set (cf_preprocessing_jobs basic) ["GardnerKnopoff"] /\
  Forall2 names ["GardnerKnopoff"] [J_gardner_knopoff] /\ file_set (cf_pprocessing_result_file basic) /\
  jobs_set (cf_processing_jobs basic) ["Recurrence"; "MaximumMagnitude"] /\ Forall2 names ["Recurrence"; "MaximumMagnitude"] both /\
  (forall j, ~ names "Reasenberg" j) /\ jobs_unset (cf_preprocessing_jobs basic_again) /\ file_set (cf_completeness_table_file basic_again).
Proof. exact C63_case_proof. Qed.

(** C64.  A pipeline runs its jobs in order, to the end or to the first exception. *)
Theorem C64_pipeline_runs_in_order :
  forall (AR : Ops) (W : world AR),  forall js c,
  (exists c', steps W js c c' /\ pipeline_run W js c = (c', None)) \/
  (exists pre j post c1 c' e, js = (pre ++ j :: post)%list /\ steps W pre c c1 /\ run_job W j c1 = (c', Some e) /\
     pipeline_run W js c = (c', Some e)).
Proof. exact (@C64_proof). Qed.
Print Assumptions C64_pipeline_runs_in_order.

(** C64.  A job that raises leaves the context as it found it, except the one that reads the source
    model (the sources read so far stay) and the one that sets the default values. *)
Theorem C64_failing_job :
  forall (AR : Ops) (W : world AR),  forall j c c' e, run_job W j c = (c', Some e) ->
  j <> J_read_source_model -> j <> J_create_default_values -> c' = c.
Proof. exact (@C64_failing_job_proof). Qed.
Print Assumptions C64_failing_job.

(** Declustering twice: the second flag vector is too short and the selection raises; the values
    computed before it stay. *)
Example C64_case : exists c fl, 
  pipeline_run DW (base4 ++ [J_gardner_knopoff; J_gardner_knopoff] ++ stores3) (init_context twice dfiles) = (c, Some ValueError) /\
  cx_flag c = Some fl /\ length fl = 12.
Proof. exact C64_case_proof. Qed.

(** C65.  After preprocessing, the processing jobs run once for each source, on the events of that
    source, and change nothing but the rates of that source. *)
Theorem C65_processing_per_source :
  forall (AR : Ops) (W : world AR),  forall pre pro flt c c', Forall processing_job pro ->
  start W pre pro flt c = (c', None) -> 
  exists c1, steps W pre c c1 /\
    ((cf_apply_processing_jobs (cx_config c1) = Null /\ c' = c1) \/
     exists u ss w ss', cf_apply_processing_jobs (cx_config c1) = Given u /\ cx_sms c1 = Some ss /\ (ss <> [] -> cx_working c1 = Some w) /\
       cx_sms c' = Some ss' /\ only_sources c1 c' /\
       Forall2 (fun s s' => exists eqs, events_of W flt s w eqs /\
         processed W (cx_config c1) (cx_table c1) eqs pro s s' /\ same_but_rates s s') ss ss').
Proof. exact (@C65_proof). Qed.
Print Assumptions C65_processing_per_source.

(** Two zones; both b-values change (from 0.8). *)
Example C65_case : Forall processing_job both /\ exists c a b,
  start DW (base4 ++ [J_gardner_knopoff] ++ stores3) both SourceModelCatalogFilter (init_context basic dfiles) = (c, None) /\
  cx_sms c = Some [a; b] /\ @ltb FL (b_value a) (fl "0.5") = true /\ @ltb FL (fl "0.6") (b_value b) = true.
Proof. exact C65_case_proof. Qed.

(** C66.  Two runs that complete and differ in nothing but the source model file give a source that
    is in both files the same result, whatever its position and the other sources. *)
Theorem C66_other_sources_irrelevant :
  forall (AR : Ops) (W : world AR) (sm : text),  forall cf f1 f2 ss1 ss2 i j s c1 c2,
  only_processing cf -> cf_source_model_file cf = Given sm ->
  cf_eq_catalog_file cf <> Given sm -> cf_completeness_table_file cf <> Given sm ->
  (forall q, q <> sm -> f2 q = f1 q) ->
  sources_read W cf f1 ss1 -> sources_read W cf f2 ss2 ->
  run_config W cf f1 = (c1, None) -> run_config W cf f2 = (c2, None) ->
  nth_error ss1 i = Some s -> nth_error ss2 j = Some s ->
  exists ss1' ss2' s', cx_sms c1 = Some ss1' /\ cx_sms c2 = Some ss2' /\
    length ss1' = length ss1 /\ length ss2' = length ss2 /\
    nth_error ss1' i = Some s' /\ nth_error ss2' j = Some s'.
Proof. exact (@C66_run_proof). Qed.
Print Assumptions C66_other_sources_irrelevant.

(** C66.  The same for processing from contexts with the same configuration, table and working
    catalogue. *)
Theorem C66_same_events_same_result :
  forall (AR : Ops) (W : world AR),  forall pre1 pre2 pro flt c1 c2 d1 d2 c1' c2' ss1 ss2 i j s, Forall processing_job pro ->
  steps W pre1 c1 d1 -> steps W pre2 c2 d2 ->
  start W pre1 pro flt c1 = (c1', None) -> start W pre2 pro flt c2 = (c2', None) ->
  cx_config d1 = cx_config d2 -> cx_table d1 = cx_table d2 -> cx_working d1 = cx_working d2 ->
  cx_sms d1 = Some ss1 -> cx_sms d2 = Some ss2 -> nth_error ss1 i = Some s -> nth_error ss2 j = Some s ->
  exists ss1' ss2' s', cx_sms c1' = Some ss1' /\ cx_sms c2' = Some ss2' /\ nth_error ss1' i = Some s' /\ nth_error ss2' j = Some s'.
Proof. exact (@C66_proof). Qed.
Print Assumptions C66_same_events_same_result.

(** C66.  The order of the two processing jobs is irrelevant for one source. *)
Theorem C66_job_order :
  forall (AR : Ops) (W : world AR),  forall cf tab eqs s s',
  processed W cf tab eqs [J_recurrence; J_maximum_magnitude] s s' <->
  processed W cf tab eqs [J_maximum_magnitude; J_recurrence] s s'.
Proof. exact (@C66_swap_proof). Qed.
Print Assumptions C66_job_order.

(** C66.  And for all sources of a run. *)
Theorem C66_job_order_run :
  forall (AR : Ops) (W : world AR),  forall pre flt c c',
  start W pre [J_recurrence; J_maximum_magnitude] flt c = (c', None) ->
  exists c'', start W pre [J_maximum_magnitude; J_recurrence] flt c = (c'', None) /\
    cx_sms c'' = cx_sms c' /\ only_sources c' c''.
Proof. exact (@C66_swap_run_proof). Qed.
Print Assumptions C66_job_order_run.

(** The zones of the demonstration in both orders. *)
Example C66_case : exists c1 c2,
  only_processing basic /\ cf_source_model_file basic = Given (t "in/ab.xml") /\
  cf_eq_catalog_file basic <> Given (t "in/ab.xml") /\ cf_completeness_table_file basic <> Given (t "in/ab.xml") /\
  (forall q, q <> t "in/ab.xml" -> swapped q = dfiles q) /\
  sources_read DW basic dfiles [zone_a; zone_b] /\ sources_read DW basic swapped [zone_b; zone_a] /\
  run_config DW basic dfiles = (c1, None) /\ run_config DW basic swapped = (c2, None).
Proof. exact C66_case_proof. Qed.

(** C67.  The stored catalogue is the entries of the input whose event is neither flagged by
    declustering nor incomplete, unaltered and in order. *)
Theorem C67_stored_catalogue :
  forall (AR : Ops) (W : world AR), is_argsort (w_argsort W) ->  forall cf f pre l p c', preprocessing_build cf = Ok pre -> jobs_set (cf_preprocessing_jobs cf) l -> gk_first l ->
  cf_pprocessing_result_file cf = Given p -> p <> [] -> cf_completeness_table_file cf <> Given p ->
  steps W pre (init_context cf f) c' ->
  exists es m flag tab kept content,
    catalogue_read W cf f es /\ mapM matrix_row es = Ok m /\ cx_flag c' = Some flag /\ cx_table c' = Some tab /\
    to_store tab es m flag kept /\ write_rows (w_repr_float W) kept = Ok content /\ cx_files c' p = Some content.
Proof. exact (@C67_proof). Qed.
Print Assumptions C67_stored_catalogue.

(** Two of fourteen events are removed. *)
Example C67_case : preprocessing_build basic = Ok (base4 ++ [J_gardner_knopoff] ++ stores3)%list /\
  jobs_set (cf_preprocessing_jobs basic) ["GardnerKnopoff"] /\ gk_first ["GardnerKnopoff"] /\
  cf_pprocessing_result_file basic = Given (t "out/cat.csv") /\ cf_completeness_table_file basic <> Given (t "out/cat.csv") /\
  exists c fl, steps DW (base4 ++ [J_gardner_knopoff] ++ stores3) (init_context basic dfiles) c /\ 
    cx_flag c = Some fl /\ length fl = 14 /\ length (filter (fun z => negb (Z.eqb z 0)) fl) = 2.
Proof. exact C67_case_proof. Qed.

(** C68, as stated, is false: declustering twice. *)
Theorem C68_flags_aligned_refuted : exists (W : world FL) cf f pre p q c, is_argsort (w_argsort W) /\
  preprocessing_build cf = Ok pre /\ pre = (p ++ q)%list /\ 4 <= length p /\ steps W p (init_context cf f) c /\ ~ aligned c.
Proof. exact C68_refuted_proof. Qed.
Print Assumptions C68_flags_aligned_refuted.

(** C68, what holds: Gardner-Knopoff is not preceded by another declustering job.  Missing: the
    sequences in which it is (refuted; the next two theorems say what happens then). *)
Theorem C68_flags_aligned_partial :
  forall (AR : Ops) (W : world AR), is_argsort (w_argsort W) ->  forall cf f pre p q c, preprocessing_build cf = Ok pre -> gk_first (listed (cf_preprocessing_jobs cf)) ->
  pre = p ++ q -> 4 <= length p -> steps W p (init_context cf f) c -> aligned c.
Proof. exact (@C68_proof). Qed.
Print Assumptions C68_flags_aligned_partial.

(** C68.  Gardner-Knopoff after a job that removed events always leaves the flags misaligned. *)
Theorem C68_misaligned_again :
  forall (AR : Ops) (W : world AR), is_argsort (w_argsort W) ->  forall c c' m w, cx_matrix c = Some m -> cx_working c = Some w -> length w < length m ->
  run_job W J_gardner_knopoff c = (c', None) -> ~ aligned c'.
Proof. exact (@C68_again_proof). Qed.
Print Assumptions C68_misaligned_again.

(** C68.  The selection then raises ValueError, unless a single event was left, in which case numpy
    broadcasts the one flag and every complete event is selected. *)
Theorem C68_selection_after_misalignment :
  forall (AR : Ops) (W : world AR), is_argsort (w_argsort W) ->  forall c c' m w tab, cx_matrix c = Some m -> cx_working c = Some w -> length w < length m ->
  cx_table c = Some tab -> run_job W J_gardner_knopoff c = (c', None) ->
  (length w <> 1 -> run_job W J_create_selected_eq_vector c' = (c', Some ValueError)) /\
  (length w = 1 -> exists c'' sel, run_job W J_create_selected_eq_vector c' = (c'', None) /\ cx_selected c'' = Some sel /\
     selected_eq_flag_vector (map ev_year m) (map ev_mw m) tab (repeat 0%Z (length m)) = Ok sel).
Proof. exact (@C68_again_selection_proof). Qed.
Print Assumptions C68_selection_after_misalignment.

(** Declustering once: the hypotheses of C68_flags_aligned_partial, for the whole pipeline. *)
Example C68_case : is_argsort (w_argsort DW) /\ gk_first (listed (cf_preprocessing_jobs basic)) /\
  exists c fl, preprocessing_build basic = Ok (base4 ++ [J_gardner_knopoff] ++ stores3) /\
    steps DW (base4 ++ [J_gardner_knopoff] ++ stores3) (init_context basic dfiles) c /\ cx_flag c = Some fl /\ length fl = 14.
Proof.
  split; [exact demo_argsort_ok|]. split; [exact gk_only|].
  destruct C67_case_proof as (B & _ & _ & _ & _ & c & fl & S1 & F & L & _). exists c, fl. auto.
Qed.

(** C69.  A stored and retrieved table is the original rounded to five decimals, and the original
    if its values have at most five decimals. *)
Theorem C69_table_round_trip : forall (W : world ROps) p tab (c c1 : context ROps) p' c2,
  cf_completeness_table_file (cx_config c) = Given p -> cx_table c = Some tab -> tab <> [] ->
  run_job W J_store_completeness_table c = (c1, None) ->
  cf_completeness_table_file (cx_config c2) = Given p' -> cx_files c2 p' = cx_files c1 p ->
  exists tab' c3, run_job W J_retrieve_completeness_table c2 = (c3, None) /\ cx_table c3 = Some tab' /\
    Forall2 (fun r r' => rounded5 (fst r) (fst r') /\ rounded5 (snd r) (snd r')) tab tab' /\
    (Forall (fun r => five_decimals (fst r) /\ five_decimals (snd r)) tab -> tab' = tab).
Proof. exact C69_proof. Qed.
Print Assumptions C69_table_round_trip.

(** C69.  For doubles: a table of doubles that are nearest to decimals of at most five places is
    recovered bit for bit. *)
Theorem C69_table_round_trip_float : forall lm (W : world (FOps lm)) p tab (c c1 : context (FOps lm)) p' c2,
  cf_completeness_table_file (cx_config c) = Given p -> cx_table c = Some tab -> tab <> [] ->
  run_job W J_store_completeness_table c = (c1, None) ->
  cf_completeness_table_file (cx_config c2) = Given p' -> cx_files c2 p' = cx_files c1 p ->
  Forall (fun r => five_places (fst r) /\ five_places (snd r)) tab ->
  exists c3, run_job W J_retrieve_completeness_table c2 = (c3, None) /\ cx_table c3 = Some tab.
Proof. exact C69_float_proof. Qed.
Print Assumptions C69_table_round_trip_float.

(** C69.  One such double. *)
Theorem C69_five_places_stored : forall lm x, five_places x -> @stored5 (FOps lm) x = x.
Proof. exact five_places_stored. Qed.
Print Assumptions C69_five_places_stored.

(** C69.  They are what float() makes of such decimals. *)
Theorem C69_five_places_read : forall neg n, (0 < n < 10 ^ 12)%Z -> five_places (F_decimal neg n (-5)).
Proof. exact decimal_five_places. Qed.
Print Assumptions C69_five_places_read.

(** C69.  An empty table cannot be retrieved. *)
Theorem C69_empty_table : forall (AR : Ops) (W : world AR) p (c c1 : context AR) p' c2,
  cf_completeness_table_file (cx_config c) = Given p -> cx_table c = Some [] ->
  run_job W J_store_completeness_table c = (c1, None) ->
  cf_completeness_table_file (cx_config c2) = Given p' -> cx_files c2 p' = cx_files c1 p ->
  cx_files c1 p = Some [] /\ run_job W J_retrieve_completeness_table c2 = (c2, Some IOError).
Proof. exact C69_empty_proof. Qed.
Print Assumptions C69_empty_table.

(** A table of two rows. *)
Example C69_case : let tab : list (@T ROps * @T ROps) := [(1990%R, (45 / 10)%R); (1965%R, (50001 / 10000)%R)] in exists c1,
  cf_completeness_table_file (cx_config (rcontext tab)) = Given (t "tab.csv") /\ cx_table (rcontext tab) = Some tab /\
  run_job RW J_store_completeness_table (rcontext tab) = (c1, None) /\
  Forall (fun r => five_decimals (fst r) /\ five_decimals (snd r)) tab.
Proof. exact C69_case_proof. Qed.

(** The empty table. *)
Example C69_empty_case : exists c1, run_job RW J_store_completeness_table (rcontext []) = (c1, None).
Proof. exact C69_empty_case_proof. Qed.

(** C70, as stated, is false: with a completeness table in which magnitudes grow with the years the
    one-run analysis counts events that the stored catalogue no longer has. *)
Theorem C70_two_steps_refuted : exists (W : world FL) cf1 cf2 f l p pt c1 c2 s1 s2,
  is_argsort (w_argsort W) /\ rearranges (w_dict_order W) /\
  restarts cf1 cf2 p pt /\ same_processing cf1 cf2 /\ only_mle cf1 /\
  jobs_set (cf_preprocessing_jobs cf1) l /\ gk_first l /\
  run_config W cf1 f = (c1, None) /\ run_config W cf2 (cx_files c1) = (c2, None) /\
  cx_sms c1 = Some [s1] /\ cx_sms c2 = Some [s2] /\
  @ltb FL (@add FL (b_value s1) (fl "0.1")) (b_value s2) = true.
Proof. exact C70_refuted_proof. Qed.
Print Assumptions C70_two_steps_refuted.

(** C70, what holds: maximum likelihood analyses of catalogues in which every event that is counted
    is complete.  Missing: the other tables and Weichert (both refuted). *)
Theorem C70_two_steps_mle_partial :
  forall (AR : Ops) (W : world AR), is_argsort (w_argsort W) -> rearranges (w_dict_order W) ->
  (forall s x, w_parse_float W s = Some x -> w_parse_float W (w_repr_float W x) = Some x /\ ~ In chr_nul (w_repr_float W x)) ->
  (w_parse_float W (w_repr_float W (ofZ 0)) = Some (ofZ 0) /\ ~ In chr_nul (w_repr_float W (ofZ 0))) ->
  w_parse_float W [] = None ->  forall cf1 cf2 f l p pt c1 g,
  restarts cf1 cf2 p pt -> same_processing cf1 cf2 -> only_mle cf1 ->
  jobs_set (cf_preprocessing_jobs cf1) l -> gk_first l ->
  run_config W cf1 f = (c1, None) ->
  (forall q, q = p \/ q = pt \/ cf_source_model_file cf1 = Given q -> g q = cx_files c1 q) ->
  cf_result_file cf1 <> Given p -> cf_result_file cf1 <> Given pt -> cf_result_file cf1 <> cf_source_model_file cf1 ->
  (forall es m flag kept tab w, catalogue_read W cf1 f es -> mapM matrix_row es = Ok m -> cx_flag c1 = Some flag ->
     cx_table c1 = Some tab -> cx_working c1 = Some w -> to_store tab es m flag kept ->
     kept <> [] /\ tab <> [] /\ Forall ellipse_consistent kept /\
     Forall (fun r => stored5 (fst r) = fst r /\ stored5 (snd r) = snd r) tab /\
     (forall e, In e w -> counted tab e -> complete tab e)) ->
  exists c2 rf, run_config W cf2 g = (c2, None) /\ cf_result_file cf1 = Given rf /\
    cx_sms c2 = cx_sms c1 /\ cx_files c2 rf = cx_files c1 rf.
Proof. exact (@C70_proof). Qed.
Print Assumptions C70_two_steps_mle_partial.

(** C70, what holds for every processing job: when every event left by declustering is complete. *)
Theorem C70_two_steps_complete_partial :
  forall (AR : Ops) (W : world AR), is_argsort (w_argsort W) -> rearranges (w_dict_order W) ->
  (forall s x, w_parse_float W s = Some x -> w_parse_float W (w_repr_float W x) = Some x /\ ~ In chr_nul (w_repr_float W x)) ->
  (w_parse_float W (w_repr_float W (ofZ 0)) = Some (ofZ 0) /\ ~ In chr_nul (w_repr_float W (ofZ 0))) ->
  w_parse_float W [] = None ->  forall cf1 cf2 f l p pt c1 g,
  restarts cf1 cf2 p pt -> same_processing cf1 cf2 -> cf_mm cf2 = cf_mm cf1 -> only_processing cf1 ->
  jobs_set (cf_preprocessing_jobs cf1) l -> gk_first l ->
  run_config W cf1 f = (c1, None) ->
  (forall q, q = p \/ q = pt \/ cf_source_model_file cf1 = Given q -> g q = cx_files c1 q) ->
  cf_result_file cf1 <> Given p -> cf_result_file cf1 <> Given pt -> cf_result_file cf1 <> cf_source_model_file cf1 ->
  (forall es m flag kept tab w, catalogue_read W cf1 f es -> mapM matrix_row es = Ok m -> cx_flag c1 = Some flag ->
     cx_table c1 = Some tab -> cx_working c1 = Some w -> to_store tab es m flag kept ->
     kept <> [] /\ tab <> [] /\ Forall ellipse_consistent kept /\
     Forall (fun r => stored5 (fst r) = fst r /\ stored5 (snd r) = snd r) tab /\
     (forall e, In e w -> complete tab e)) ->
  exists c2 rf, run_config W cf2 g = (c2, None) /\ cf_result_file cf1 = Given rf /\
    cx_sms c2 = cx_sms c1 /\ cx_files c2 rf = cx_files c1 rf.
Proof. exact (@C70_complete_proof). Qed.
Print Assumptions C70_two_steps_complete_partial.

(** C70, what holds for doubles: declustering without completeness analysis and magnitudes of at most
    five decimals give the same result in two steps, for all processing jobs.  Missing: runs with a
    completeness analysis. *)
Theorem C70_two_steps_five_places_partial : forall lm (W : world (FOps lm)), cpython_numbers W ->
  is_argsort (w_argsort W) -> rearranges (w_dict_order W) -> (w_now_year W < 10000)%Z ->
  forall cf1 cf2 f l p pt c1 g,
  restarts cf1 cf2 p pt -> same_processing cf1 cf2 -> cf_mm cf2 = cf_mm cf1 -> only_processing cf1 ->
  jobs_set (cf_preprocessing_jobs cf1) l -> gk_first l ->
  ~ In "Stepp"%string l -> ~ In "Retrieve_completeness_table"%string l ->
  run_config W cf1 f = (c1, None) ->
  (forall q, q = p \/ q = pt \/ cf_source_model_file cf1 = Given q -> g q = cx_files c1 q) ->
  cf_result_file cf1 <> Given p -> cf_result_file cf1 <> Given pt -> cf_result_file cf1 <> cf_source_model_file cf1 ->
  (forall es, catalogue_read W cf1 f es -> Forall ellipse_consistent es) ->
  (forall es m, catalogue_read W cf1 f es -> mapM matrix_row es = Ok m -> Forall (fun e => five_places (@ev_mw (FOps lm) e)) m) ->
  (forall w, cx_working c1 = Some w -> w <> []) ->
  exists c2 rf, run_config W cf2 g = (c2, None) /\ cf_result_file cf1 = Given rf /\
    cx_sms c2 = cx_sms c1 /\ cx_files c2 rf = cx_files c1 rf.
Proof. exact C70_five_places_proof. Qed.
Print Assumptions C70_two_steps_five_places_partial.

(** C70.  The same for any default table that the file restores. *)
Theorem C70_two_steps_declustered_partial : forall lm (W : world (FOps lm)), cpython_numbers W ->
  is_argsort (w_argsort W) -> rearranges (w_dict_order W) ->
  forall cf1 cf2 f l p pt c1 g,
  restarts cf1 cf2 p pt -> same_processing cf1 cf2 -> cf_mm cf2 = cf_mm cf1 -> only_processing cf1 ->
  jobs_set (cf_preprocessing_jobs cf1) l -> gk_first l ->
  ~ In "Stepp"%string l -> ~ In "Retrieve_completeness_table"%string l ->
  run_config W cf1 f = (c1, None) ->
  (forall q, q = p \/ q = pt \/ cf_source_model_file cf1 = Given q -> g q = cx_files c1 q) ->
  cf_result_file cf1 <> Given p -> cf_result_file cf1 <> Given pt -> cf_result_file cf1 <> cf_source_model_file cf1 ->
  (forall es, catalogue_read W cf1 f es -> Forall ellipse_consistent es) ->
  (forall w, cx_working c1 = Some w -> w <> []) ->
  (forall y0 m0, cx_table c1 = Some [(y0, m0)] -> @stored5 (FOps lm) y0 = y0 /\ @stored5 (FOps lm) m0 = m0) ->
  exists c2 rf, run_config W cf2 g = (c2, None) /\ cf_result_file cf1 = Given rf /\
    cx_sms c2 = cx_sms c1 /\ cx_files c2 rf = cx_files c1 rf.
Proof. exact C70_declustered_float_proof. Qed.
Print Assumptions C70_two_steps_declustered_partial.

(** C70.  The maximum likelihood case with CPython's number conversions. *)
Theorem C70_two_steps_float_partial : forall lm (W : world (FOps lm)), cpython_numbers W ->
  is_argsort (w_argsort W) -> rearranges (w_dict_order W) ->
  forall cf1 cf2 f l p pt c1 g,
  restarts cf1 cf2 p pt -> same_processing cf1 cf2 -> only_mle cf1 ->
  jobs_set (cf_preprocessing_jobs cf1) l -> gk_first l ->
  run_config W cf1 f = (c1, None) ->
  (forall q, q = p \/ q = pt \/ cf_source_model_file cf1 = Given q -> g q = cx_files c1 q) ->
  cf_result_file cf1 <> Given p -> cf_result_file cf1 <> Given pt -> cf_result_file cf1 <> cf_source_model_file cf1 ->
  (forall es m flag kept tab w, catalogue_read W cf1 f es -> mapM matrix_row es = Ok m -> cx_flag c1 = Some flag ->
     cx_table c1 = Some tab -> cx_working c1 = Some w -> to_store tab es m flag kept ->
     kept <> [] /\ tab <> [] /\ Forall ellipse_consistent kept /\
     Forall (fun r => @stored5 (FOps lm) (fst r) = fst r /\ @stored5 (FOps lm) (snd r) = snd r) tab /\
     (forall e, In e w -> counted tab e -> complete tab e)) ->
  exists c2 rf, run_config W cf2 g = (c2, None) /\ cf_result_file cf1 = Given rf /\
    cx_sms c2 = cx_sms c1 /\ cx_files c2 rf = cx_files c1 rf.
Proof. exact C70_float_proof. Qed.
Print Assumptions C70_two_steps_float_partial.

(** C70.  In a table in which earlier periods have larger magnitudes every counted event is
    complete. *)
Theorem C70_locked_tables : forall (tab : list (R * R)) (e : event ROps), mle_table tab -> @counted ROps tab e -> @complete ROps tab e.
Proof. exact C70_table_proof. Qed.
Print Assumptions C70_locked_tables.

(** C70.  What the second run starts from: the complete events of the working catalogue and the
    table rounded to five decimals. *)
Theorem C70_restart :
  forall (AR : Ops) (W : world AR), is_argsort (w_argsort W) -> rearranges (w_dict_order W) ->
  (forall s x, w_parse_float W s = Some x -> w_parse_float W (w_repr_float W x) = Some x /\ ~ In chr_nul (w_repr_float W x)) ->
  (w_parse_float W (w_repr_float W (ofZ 0)) = Some (ofZ 0) /\ ~ In chr_nul (w_repr_float W (ofZ 0))) ->
  w_parse_float W [] = None ->  forall cf1 cf2 f pre1 l p pt c1 g,
  preprocessing_build cf1 = Ok pre1 -> jobs_set (cf_preprocessing_jobs cf1) l -> gk_first l ->
  steps W pre1 (init_context cf1 f) c1 ->
  restarts cf1 cf2 p pt ->
  (forall q, q = p \/ q = pt \/ cf_source_model_file cf1 = Given q -> g q = cx_files c1 q) ->
  (forall es m flag tab kept, catalogue_read W cf1 f es -> mapM matrix_row es = Ok m -> cx_flag c1 = Some flag -> cx_table c1 = Some tab ->
     to_store tab es m flag kept -> kept <> [] /\ tab <> [] /\ Forall ellipse_consistent kept) ->
  exists pre2 c2 w1 w2 tab,
    preprocessing_build cf2 = Ok pre2 /\ steps W pre2 (init_context cf2 g) c2 /\
    cx_working c1 = Some w1 /\ cx_working c2 = Some w2 /\ picks (complete tab) w1 w2 /\
    cx_table c1 = Some tab /\ cx_table c2 = Some (map (fun r => (stored5 (fst r), stored5 (snd r))) tab) /\
    cx_sms c2 = cx_sms c1 /\ cx_files c2 = g.
Proof. exact (@C70_restart_proof). Qed.
Print Assumptions C70_restart.

(** A locked completeness analysis: twelve events in the first run, nine of them in the second. *)
Example C70_case : exists c1,
  restarts mle_first (second_run "MLE") (t "out/cat.csv") (t "out/tab.csv") /\ same_processing mle_first (second_run "MLE") /\ only_mle mle_first /\
  jobs_set (cf_preprocessing_jobs mle_first) ["GardnerKnopoff"; "Stepp"] /\ gk_first ["GardnerKnopoff"; "Stepp"] /\
  run_config DW mle_first dfiles = (c1, None) /\
  (forall es m flag kept tab w, catalogue_read DW mle_first dfiles es -> mapM matrix_row es = Ok m -> cx_flag c1 = Some flag ->
     cx_table c1 = Some tab -> cx_working c1 = Some w -> to_store tab es m flag kept ->
     length w = 12 /\ length kept = 9 /\
     kept <> [] /\ tab <> [] /\ Forall ellipse_consistent kept /\
     Forall (fun r => @stored5 FL (fst r) = fst r /\ @stored5 FL (snd r) = snd r) tab /\
     (forall e, In e w -> counted tab e -> complete tab e)).
Proof. exact C70_case_proof. Qed.

(** Declustering only, with two zones and both processing jobs. *)
Example C70_declustered_case : exists c1,
  restarts basic basic_again (t "out/cat.csv") (t "out/tab.csv") /\ same_processing basic basic_again /\ cf_mm basic_again = cf_mm basic /\ only_processing basic /\
  jobs_set (cf_preprocessing_jobs basic) ["GardnerKnopoff"] /\ gk_first ["GardnerKnopoff"] /\
  run_config DW basic dfiles = (c1, None) /\
  (forall es, catalogue_read DW basic dfiles es -> Forall ellipse_consistent es) /\
  (forall w, cx_working c1 = Some w -> w <> []) /\
  (forall y0 m0, cx_table c1 = Some [(y0, m0)] -> @stored5 FL y0 = y0 /\ @stored5 FL m0 = m0).
Proof. exact C70_declustered_case_proof. Qed.

(** C71, as documented, is false: the second of three zones has no events; the run raises IndexError,
    the third zone, which has events, is not processed and no result is written. *)
Theorem C71_empty_zone_refuted : exists (W : world FL) cf f a s s' c w eqs,
  sources_read W cf f [a; s; s'] /\ run_config W cf f = (c, Some IndexError) /\ cx_working c = Some w /\
  events_of W SourceModelCatalogFilter s w [] /\ events_of W SourceModelCatalogFilter s' w eqs /\ eqs <> [] /\
  cf_result_file cf = Given (t "out/res.xml") /\ cx_files c (t "out/res.xml") = None.
Proof. exact C71_refuted_proof. Qed.
Print Assumptions C71_empty_zone_refuted.

(** C71, what holds: without processing jobs an empty zone does not matter. *)
Theorem C71_empty_zone_partial :
  forall (AR : Ops) (W : world AR),  forall flt w c ss, cx_sms c = Some ss ->
  Forall (fun s => exists eqs, events_of W flt s w eqs) ss ->
  exists c', process_sources W flt [] w (length ss) 0 c = (c', None) /\ cx_sms c' = Some ss.
Proof. exact (@C71_no_jobs_proof). Qed.
Print Assumptions C71_empty_zone_partial.

(** C71.  In general: a run stops with IndexError at the first source without events; the sources
    before it are processed, it and the later ones keep their values, and no result is written. *)
Theorem C71_empty_zone_stops :
  forall (AR : Ops) (W : world AR),  forall cf f pre j js flt c1 u w dn s rest dn',
  preprocessing_build cf = Ok pre -> processing_build cf = Ok (j :: js) -> filter_for cf flt ->
  steps W pre (init_context cf f) c1 -> cf_apply_processing_jobs cf = Given u -> cx_working c1 = Some w ->
  processing_job j ->
  cx_sms c1 = Some (dn ++ s :: rest) ->
  Forall2 (fun s s' => exists eqs, events_of W flt s w eqs /\ processed W cf (cx_table c1) eqs (j :: js) s s') dn dn' ->
  events_of W flt s w [] ->
  exists c', run_config W cf f = (c', Some IndexError) /\ cx_sms c' = Some (dn' ++ s :: rest) /\ cx_files c' = cx_files c1.
Proof. exact (@C71_run_proof). Qed.
Print Assumptions C71_empty_zone_stops.

(** C71.  The same for the processing loop. *)
Theorem C71_empty_zone_stops_loop :
  forall (AR : Ops) (W : world AR),  forall flt j js w dn s rest dn' c,
  processing_job j ->
  cx_sms c = Some (dn ++ s :: rest) ->
  Forall2 (fun s s' => exists eqs, events_of W flt s w eqs /\ processed W (cx_config c) (cx_table c) eqs (j :: js) s s') dn dn' ->
  events_of W flt s w [] ->
  exists c', process_sources W flt (j :: js) w (length (dn ++ s :: rest)) 0 c = (c', Some IndexError) /\
    cx_sms c' = Some (dn' ++ s :: rest) /\ cx_files c' = cx_files c.
Proof. exact (@C71_loop_proof). Qed.
Print Assumptions C71_empty_zone_stops_loop.

(** C72.  A run that succeeds ran every job of both pipelines and then wrote the result. *)
Theorem C72_result_after_success :
  forall (AR : Ops) (W : world AR),  forall cf f c', run_config W cf f = (c', None) ->
  exists pre pro flt c1 p d ss,
    preprocessing_build cf = Ok pre /\ processing_build cf = Ok pro /\ filter_for cf flt /\
    workflow_done W pre pro flt (init_context cf f) c1 /\
    cf_result_file cf = Given p /\ cx_sms c1 = Some ss /\ write_doc (w_str_float W) (w_xml_ok W) ss = Ok d /\
    cx_files c' p = Some (w_xml_print W d) /\ (forall q, q <> p -> cx_files c' q = cx_files c1 q).
Proof. exact (@C72_success_proof). Qed.
Print Assumptions C72_result_after_success.

(** C72.  A run that fails, wherever, leaves the result file as it was. *)
Theorem C72_failure_keeps_result :
  forall (AR : Ops) (W : world AR),  forall cf f c' e p, run_config W cf f = (c', Some e) -> cf_result_file cf = Given p ->
  cf_pprocessing_result_file cf <> Given p -> cf_completeness_table_file cf <> Given p ->
  cx_files c' p = f p.
Proof. exact (@C72_failure_proof). Qed.
Print Assumptions C72_failure_keeps_result.

(** A run that succeeds and one that fails. *)
Example C72_case : (exists c, run_config DW basic dfiles = (c, None)) /\
  (exists c, run_config DW with_empty_zone dfiles = (c, Some IndexError)) /\ cf_result_file with_empty_zone = Given (t "out/res.xml") /\
  cf_pprocessing_result_file with_empty_zone <> Given (t "out/res.xml") /\ cf_completeness_table_file with_empty_zone <> Given (t "out/res.xml").
Proof. exact C72_case_proof. Qed.

(** C73.  The events of a source are exactly those strictly inside, in order; without a source model
    all of them. *)
Theorem C73_geographic_filter :
  forall (AR : Ops) (W : world AR),  forall f s cat eqs, filter_eqs W f s cat = Ok eqs <-> events_of W f s cat eqs.
Proof. exact (@C73_proof). Qed.
Print Assumptions C73_geographic_filter.

(** C73.  An invalid polygon raises. *)
Theorem C73_invalid_polygon :
  forall (AR : Ops) (W : world AR),  forall s cat e, w_polygon W (ab_pos (as_boundary s)) = Err e ->
  filter_eqs W SourceModelCatalogFilter s cat = Err e.
Proof. exact (@C73_invalid_proof). Qed.
Print Assumptions C73_invalid_polygon.

(** Zone b has four events, zone c none, and a source without a polygon raises. *)
Example C73_case : exists w eqs, w <> [] /\ events_of DW SourceModelCatalogFilter zone_b w eqs /\ length eqs = 4 /\ events_of DW SourceModelCatalogFilter zone_c w [] /\
  (forall cat, filter_eqs DW SourceModelCatalogFilter (@mkSource FL None None None None None (@mkBoundary FL None []) (as_rate zone_a) (as_depth zone_a) (fl "0") None None None) cat = Err RuntimeError).
Proof. exact C73_case_proof. Qed.

(** C74.  The default flags and the default table, in any arithmetic. *)
Theorem C74_default_values : forall (AR : Ops) (W : world AR) cf f sj c, source_job (cf_source_model_file cf) sj ->
  steps W [J_read_eq_catalog; sj; J_create_catalog_matrix; J_create_default_values] (init_context cf f) c ->
  exists m y0 m0, m <> [] /\ cx_matrix c = Some m /\ cx_working c = Some m /\
    cx_flag c = Some (repeat 0%Z (length m)) /\ cx_table c = Some [(y0, m0)] /\
    (ordered_values (map ev_year m) -> In y0 (map ev_year m) /\ (forall e, In e m -> ltb (ev_year e) y0 = false) /\
       forall e, In e m -> complete [(y0, m0)] e) /\
    (ordered_values (map ev_mw m) -> In m0 (map ev_mw m) /\ forall e, In e m -> ltb (ev_mw e) m0 = false).
Proof. exact C74_proof. Qed.
Print Assumptions C74_default_values.

(** C74.  For doubles. *)
Theorem C74_default_values_float : forall lm (W : world (FOps lm)), rearranges (w_dict_order W) ->
  forall cf f sj c, source_job (cf_source_model_file cf) sj ->
  steps W [J_read_eq_catalog; sj; J_create_catalog_matrix; J_create_default_values] (init_context cf f) c ->
  exists m y0 m0, m <> [] /\ cx_matrix c = Some m /\ cx_table c = Some [(y0, m0)] /\
    In y0 (map ev_year m) /\ (forall e, In e m -> @ltb (FOps lm) (ev_year e) y0 = false) /\ (forall e, In e m -> complete [(y0, m0)] e) /\
    ((forall e, In e m -> ev_mw e <> S754_nan) -> In m0 (map ev_mw m) /\ forall e, In e m -> @ltb (FOps lm) (ev_mw e) m0 = false).
Proof. exact C74_float_proof. Qed.
Print Assumptions C74_default_values_float.

(** C74.  Over the reals. *)
Theorem C74_default_values_real : forall (W : world ROps) cf f sj c, source_job (cf_source_model_file cf) sj ->
  steps W [J_read_eq_catalog; sj; J_create_catalog_matrix; J_create_default_values] (init_context cf f) c ->
  exists m y0 m0, m <> [] /\ cx_matrix c = Some m /\ cx_table c = Some [(y0, m0)] /\
    (In y0 (map ev_year m) /\ forall e, In e m -> (y0 <= ev_year e)%R) /\
    (In m0 (map ev_mw m) /\ forall e, In e m -> (m0 <= ev_mw e)%R) /\
    forall e, In e m -> complete [(y0, m0)] e.
Proof. exact C74_real_proof. Qed.
Print Assumptions C74_default_values_real.

(** C74.  Without a completeness job the stored catalogue is all unflagged events. *)
Theorem C74_stored_without_completeness : forall (AR : Ops) (W : world AR), is_argsort (w_argsort W) ->
  forall cf f pre l p c', preprocessing_build cf = Ok pre -> jobs_set (cf_preprocessing_jobs cf) l -> gk_first l ->
  ~ In "Stepp"%string l -> ~ In "Retrieve_completeness_table"%string l ->
  cf_pprocessing_result_file cf = Given p -> p <> [] -> cf_completeness_table_file cf <> Given p ->
  steps W pre (init_context cf f) c' ->
  (forall m, cx_matrix c' = Some m -> ordered_values (map ev_year m)) ->
  exists es flag kept content, catalogue_read W cf f es /\ cx_flag c' = Some flag /\ unflagged es flag kept /\
    write_rows (w_repr_float W) kept = Ok content /\ cx_files c' p = Some content.
Proof. exact C74_stored_proof. Qed.
Print Assumptions C74_stored_without_completeness.

Example C74_case : source_job (cf_source_model_file basic) J_read_source_model /\ rearranges (w_dict_order DW) /\
  exists c fl, steps DW [J_read_eq_catalog; J_read_source_model; J_create_catalog_matrix; J_create_default_values] (init_context basic dfiles) c /\
    cx_flag c = Some fl /\ length fl = 14.
Proof. exact C74_case_proof. Qed.

Example C74_stored_case : is_argsort (w_argsort DW) /\ preprocessing_build basic = Ok (base4 ++ [J_gardner_knopoff] ++ stores3)%list /\
  jobs_set (cf_preprocessing_jobs basic) ["GardnerKnopoff"] /\ gk_first ["GardnerKnopoff"] /\
  exists c, steps DW (base4 ++ [J_gardner_knopoff] ++ stores3) (init_context basic dfiles) c /\
    (forall m, cx_matrix c = Some m -> @ordered_values FL (map ev_year m)).
Proof. exact C74_stored_case_proof. Qed.

(** C75.  Help is shown exactly when there are no arguments; the workflow runs exactly when the
    configuration file exists and is a configuration. *)
Theorem C75_command_line :
  forall (AR : Ops) (W : world AR) (yaml_load : text -> res (config AR)),  forall a f,
  (main W yaml_load a f = HelpShown <-> a = NoArguments) /\
  (forall c x, main W yaml_load a f = Ran c x <->
     exists p d content cf, a = Options (Some p) d /\ f p = Some content /\ yaml_load content = Ok cf /\
       run_config W cf f = (c, x)).
Proof. exact (@C75_proof). Qed.
Print Assumptions C75_command_line.

(** C75.  The other cases raise. *)
Theorem C75_command_line_errors :
  forall (AR : Ops) (W : world AR) (yaml_load : text -> res (config AR)),  forall f,
  (forall p d, f p = None -> main W yaml_load (Options (Some p) d) f = Raised IOError /\ prints_help (Options (Some p) d) f = true) /\
  (forall d, main W yaml_load (Options None d) f = Raised TypeError) /\
  (forall p d content e, f p = Some content -> yaml_load content = Err e -> main W yaml_load (Options (Some p) d) f = Raised e).
Proof. exact (@C75_errors_proof). Qed.
Print Assumptions C75_command_line_errors.

(** A configuration file that is there, and one that is not. *)
Example C75_case :
  (exists c, main DW (fun _ => Ok basic) (Options (Some (t "conf.yml")) true) conf_files = Ran c None) /\ conf_files (t "other.yml") = None.
Proof. exact C75_case_proof. Qed.

(** C86.  A run, successful or not, changes no file but the configured outputs. *)
Theorem C86_only_output_files :
  forall (AR : Ops) (W : world AR),  forall cf f c' x q, run_config W cf f = (c', x) -> ~ output_path cf q ->
  cx_files c' q = f q.
Proof. exact (@C86_proof). Qed.
Print Assumptions C86_only_output_files.

Example C86_case : ~ output_path basic (t "in/cat.csv") /\ ~ output_path basic (t "in/ab.xml") /\ output_path basic (t "out/cat.csv").
Proof.
  split; [|split]; [intros [H|[H|H]]; discriminate H|intros [H|[H|H]]; discriminate H|now left].
Qed.

(** C87.  A result file without a directory part never gets written: the whole workflow runs and then
    raises IOError. *)
Theorem C87_result_file_needs_directory :
  forall (AR : Ops) (W : world AR),  forall cf f p, cf_result_file cf = Given p -> bare_name p -> w_exists W [] = false ->
  (forall c', run_config W cf f <> (c', None)) /\
  (forall pre pro flt c1, preprocessing_build cf = Ok pre -> processing_build cf = Ok pro -> filter_for cf flt ->
     start W pre pro flt (init_context cf f) = (c1, None) -> run_config W cf f = (c1, Some IOError)).
Proof. exact (@C87_proof). Qed.
Print Assumptions C87_result_file_needs_directory.

Example C87_case : cf_result_file bare = Given (t "res.xml") /\ bare_name (t "res.xml") /\ w_exists DW [] = false.
Proof. exact C87_case_proof. Qed.

(** C87.  With a directory part, the directory decides: IOError after the whole workflow if it does
    not exist, else the document is in the file. *)
Theorem C87_result_file_in_directory :
  forall (AR : Ops) (W : world AR), forall cf f p d pre pro flt c1, cf_result_file cf = Given p -> lies_in p d ->
  preprocessing_build cf = Ok pre -> processing_build cf = Ok pro -> filter_for cf flt ->
  start W pre pro flt (init_context cf f) = (c1, None) ->
  (w_exists W d = false -> run_config W cf f = (c1, Some IOError)) /\
  (w_exists W d = true -> w_can_write W p = true ->
   forall ss doc, cx_sms c1 = Some ss -> write_doc (w_str_float W) (w_xml_ok W) ss = Ok doc ->
   exists c', run_config W cf f = (c', None) /\ cx_files c' p = Some (w_xml_print W doc)).
Proof. exact (@C87_dir_proof). Qed.
Print Assumptions C87_result_file_in_directory.

Example C87_directory_case : lies_in (t "/home/a//r.xml") (t "/home/a") /\ lies_in (t "/r.xml") (t "/").
Proof.
  assert (B : bare_name (t "r.xml")).
  { intros I. cbn in I. repeat (destruct I as [I|I]; [discriminate I|]). exact I. }
  split.
  - apply (LI_dir _ _ (t "/home/") "a"%char (t "//") (t "r.xml")); auto; try discriminate.
    split; [discriminate|]. intros c [<-|[<-|[]]]; auto.
  - apply (LI_root _ _ (t "r.xml")); auto. split; [discriminate|]. intros c [<-|[]]; auto.
Qed.
