(** Specification of a whole run: the numbers of the result in terms of the analyses called with
    the parameters of the configuration, independent of pipelines, jobs and contexts. *)
From Coq Require Import ZArith Bool Ascii String List.
From Verif Require Import Base Ops CatUtil PyStr EqCatalog SourceModel Nrml World CatalogFilter
  Decluster Completeness Recurrence MaxMag Jobs Workflow FlowSpec.
Import ListNotations.

(** The window names of the documentation. *)
Inductive window_named : string -> window_opt -> Prop :=
| WN_gk : window_named "GardnerKnopoff" TDW_GARDNERKNOPOFF
| WN_gr : window_named "Gruenthal" TDW_GRUENTHAL
| WN_uh : window_named "Uhrhammer" TDW_UHRHAMMER.

(** Listed jobs that only write. *)
Definition writes_only (n : string) : Prop :=
  n = "Create_eq_vector"%string \/ n = "Store_eq_catalog"%string \/ n = "Store_completeness_table"%string.

Section WholeSpec.
Context {AR : Ops}.
Variable W : world AR.

(** Working catalogue and completeness table before and after the listed jobs; [m] is the whole
    catalogue. *)
Inductive prepared (cf : config AR) (m : list (event AR))
  : list string -> list (event AR) -> list (T * T) -> list (event AR) -> list (T * T) -> Prop :=
| PP_none : forall w tab, prepared cf m [] w tab w tab
| PP_gk : forall l w tab k o vcl main flag w' tab', cf_gk cf = Ok k -> window_named (gk_windows k) o ->
    gardner_knopoff_decluster (w_argsort W) w o (gk_foreshock k) = Ok (vcl, main, flag) ->
    prepared cf m l main tab w' tab' -> prepared cf m ("GardnerKnopoff"%string :: l) w tab w' tab'
| PP_afteran : forall l w tab k o vcl main flag w' tab', cf_afteran cf = Ok k -> window_named (af_windows k) o ->
    afteran_decluster (w_argsort W) m o (af_time_window k) = Ok (vcl, main, flag) ->
    prepared cf m l main tab w' tab' -> prepared cf m ("Afteran"%string :: l) w tab w' tab'
| PP_stepp : forall l w tab k tab1 w' tab', cf_stepp cf = Ok k -> w <> [] ->
    stepp_analysis (map ev_year w) (map ev_mw w) (st_mag_windows k) (st_time_window k) (st_sensitivity k) (st_lock k) = Ok tab1 ->
    prepared cf m l w tab1 w' tab' -> prepared cf m ("Stepp"%string :: l) w tab w' tab'
| PP_write : forall n l w tab w' tab', writes_only n -> prepared cf m l w tab w' tab' -> prepared cf m (n :: l) w tab w' tab'.

(** The table in a file. *)
Definition table_read (f : files) (p : text) (tab : list (T * T)) : Prop :=
  exists content rows, f p = Some content /\ table_rows W content = Ok rows /\ pairs (List.concat rows) = Ok tab.

(** Catalogue and table that the processing jobs start from, by configuration: preprocessed as
    listed, or with the stored table, or with the default table of one row. *)
Definition preparation (cf : config AR) (f : files) (m w : list (event AR)) (tab : list (T * T)) : Prop :=
  exists y0 m0, minv (map ev_year m) = Ok y0 /\ minv (map ev_mw m) = Ok m0 /\
    ((exists l, jobs_set (cf_preprocessing_jobs cf) l /\ prepared cf m l m [(y0, m0)] w tab) \/
     (jobs_unset (cf_preprocessing_jobs cf) /\ w = m /\
       ((exists p, cf_completeness_table_file cf = Given p /\ p <> [] /\ table_read f p tab) \/
        (file_unset (cf_completeness_table_file cf) /\ tab = [(y0, m0)])))).

(** The sources of a run and the filter for their events. *)
Definition zones (cf : config AR) (f : files) (ss : list (area_source AR)) (flt : sm_filter) : Prop :=
  (sources_read W cf f ss /\ ss <> [] /\ flt = SourceModelCatalogFilter) \/
  (file_unset (cf_source_model_file cf) /\ ss = [default_area_source] /\ flt = NullCatalogFilter).

(** The jobs listed for processing. *)
Definition processing_listed (cf : config AR) (js : list jobname) : Prop :=
  (exists l, jobs_set (cf_processing_jobs cf) l /\ Forall2 names l js) \/ (jobs_unset (cf_processing_jobs cf) /\ js = []).

(** The sources a run writes. *)
Definition computed (cf : config AR) (f : files) (ss' : list (area_source AR)) : Prop :=
  exists es m w tab ss flt, catalogue_read W cf f es /\ mapM matrix_row es = Ok m /\ preparation cf f m w tab /\ zones cf f ss flt /\
    ((cf_apply_processing_jobs cf = Null /\ ss' = ss) \/
     exists u js, cf_apply_processing_jobs cf = Given u /\ processing_listed cf js /\
       Forall2 (fun s s' => exists eqs, events_of W flt s w eqs /\ processed W cf (Some tab) eqs js s s') ss ss').

End WholeSpec.
