(** C114, C115: what of the catalogue the result depends on. *)
From Coq Require Import ZArith Bool Ascii String List.
From Verif Require Import Base Ops CatUtil PyStr EqCatalog EqCatSpec EqCatWitness SourceModel Nrml World CatalogFilter Jobs Workflow Main FlowSpec FlowPipe
  Demo FlowDemo FlowWitness ZoneSpec FlowZones ZoneCases.
From Coq Require Import List.
Import ListNotations.
Local Open Scope nat_scope.

(** C114, full statement: without declustering, earthquakes that lie in none of the sources do not change the
    result.  It is false: without a completeness table, the oldest year and the smallest magnitude of the whole
    catalogue are taken, and one old small earthquake in no zone changes the result of the others. *)
Theorem C114_outside_events_refuted : exists (W : world FL) cf cat p f1 f2 ss es1 es2 m1 m2 c1 c2,
  only_processing cf /\ jobs_unset (cf_preprocessing_jobs cf) /\ cf_eq_catalog_file cf = Given cat /\
  cf_source_model_file cf <> Given cat /\ cf_completeness_table_file cf <> Given cat /\ cf_result_file cf = Given p /\
  (forall q, q <> cat -> f2 q = f1 q) /\ sources_read W cf f1 ss /\
  catalogue_read W cf f1 es1 /\ mapM matrix_row es1 = Ok m1 /\ catalogue_read W cf f2 es2 /\ mapM matrix_row es2 = Ok m2 /\ m2 <> [] /\
  differ_outside (in_some_zone W ss) m1 m2 /\
  run_config W cf f1 = (c1, None) /\ run_config W cf f2 = (c2, None) /\ cx_files c2 p <> cx_files c1 p.
Proof. exact C114_refuted_proof. Qed.
Print Assumptions C114_outside_events_refuted.

(** It holds when a completeness table is given, or when the oldest year and the smallest magnitude stay the
    same.  Every arithmetic; the two catalogues may differ by any number of events outside the sources. *)
Theorem C114_outside_events_partial : forall {AR : Ops} (W : world AR) cf f1 f2 cat ss es1 es2 m1 m2 c1,
  only_processing cf -> jobs_unset (cf_preprocessing_jobs cf) ->
  cf_eq_catalog_file cf = Given cat -> cf_source_model_file cf <> Given cat -> cf_completeness_table_file cf <> Given cat ->
  (forall q, q <> cat -> f2 q = f1 q) -> sources_read W cf f1 ss ->
  catalogue_read W cf f1 es1 -> mapM matrix_row es1 = Ok m1 -> catalogue_read W cf f2 es2 -> mapM matrix_row es2 = Ok m2 -> m2 <> [] ->
  differ_outside (in_some_zone W ss) m1 m2 ->
  (file_set (cf_completeness_table_file cf) \/
   (minv (map ev_year m2) = minv (map ev_year m1) /\ minv (map ev_mw m2) = minv (map ev_mw m1))) ->
  run_config W cf f1 = (c1, None) ->
  exists c2, run_config W cf f2 = (c2, None) /\ cx_sms c2 = cx_sms c1 /\
    forall q, q <> cat \/ cf_result_file cf = Given q -> cx_files c2 q = cx_files c1 q.
Proof. exact (@C114_proof). Qed.
Print Assumptions C114_outside_events_partial.

(** The case: the fourteen earthquakes with a table, and one more of 1950 outside the two zones. *)
Example C114_case : exists m1 m2 c1,
  only_processing tabled /\ jobs_unset (cf_preprocessing_jobs tabled) /\ cf_eq_catalog_file tabled = Given (t "in/cat.csv") /\
  cf_source_model_file tabled <> Given (t "in/cat.csv") /\ cf_completeness_table_file tabled <> Given (t "in/cat.csv") /\
  (forall q, q <> t "in/cat.csv" -> far_files q = near_files q) /\ sources_read DW tabled near_files [zone_a; zone_b] /\
  catalogue_read DW tabled near_files (entries_in (ctext quakes)) /\ mapM matrix_row (entries_in (ctext quakes)) = Ok m1 /\
  catalogue_read DW tabled far_files (entries_in (ctext far_quakes)) /\ mapM matrix_row (entries_in (ctext far_quakes)) = Ok m2 /\ m2 <> [] /\
  differ_outside (in_some_zone DW [zone_a; zone_b]) m1 m2 /\ length m2 = 15 /\
  file_set (cf_completeness_table_file tabled) /\ run_config DW tabled near_files = (c1, None).
Proof. exact C114_case_proof. Qed.

(** C115: changing, in every row, columns other than year, month, day, longitude, latitude, Mw and sigmaMw changes
    neither the outcome of a run nor its files, except the stored catalogue itself. *)
Theorem C115_unused_columns : forall {AR : Ops} (W : world AR), rearranges (w_dict_order W) ->
  forall cf f1 f2 cat es1 es2 c1, only_processing cf ->
  cf_eq_catalog_file cf = Given cat -> cf_source_model_file cf <> Given cat -> cf_completeness_table_file cf <> Given cat ->
  (forall q, cf_completeness_table_file cf = Given q -> cf_pprocessing_result_file cf <> Given q) ->
  (forall q, q <> cat -> f2 q = f1 q) -> catalogue_read W cf f1 es1 -> catalogue_read W cf f2 es2 -> Forall2 same_used es1 es2 ->
  run_config W cf f1 = (c1, None) ->
  exists c2, run_config W cf f2 = (c2, None) /\ cx_sms c2 = cx_sms c1 /\
    forall q, (q <> cat /\ cf_pprocessing_result_file cf <> Given q) \/ cf_result_file cf = Given q -> cx_files c2 q = cx_files c1 q.
Proof. exact (@C115_proof). Qed.
Print Assumptions C115_unused_columns.

(** The case: another agency, hour, minute, second and depth for all fourteen earthquakes. *)
Example C115_case : exists es1 es2 c1,
  rearranges (w_dict_order DW) /\ only_processing basic /\ cf_eq_catalog_file basic = Given (t "in/cat.csv") /\ 
  cf_source_model_file basic <> Given (t "in/cat.csv") /\ cf_completeness_table_file basic <> Given (t "in/cat.csv") /\
  (forall q, cf_completeness_table_file basic = Given q -> cf_pprocessing_result_file basic <> Given q) /\
  (forall q, q <> t "in/cat.csv" -> files2 q = dfiles q) /\ catalogue_read DW basic dfiles es1 /\ catalogue_read DW basic files2 es2 /\
  Forall2 same_used es1 es2 /\ length es1 = 14 /\ run_config DW basic dfiles = (c1, None).
Proof. exact C115_case_proof. Qed.
