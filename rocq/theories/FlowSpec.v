(** Specification of configurations, pipelines and runs, independent of mtoolkit/workflow.py
    and main.py. *)
From Coq Require Import ZArith Bool Ascii String Reals List.
From Verif Require Import Base Ops CatUtil PyStr EqCatalog SourceModel Nrml World CatalogFilter
  Recurrence MaxMag Jobs Workflow Main.
Import ListNotations.
Local Open Scope nat_scope.

(** The job names a configuration may use. *)
Inductive names : string -> jobname -> Prop :=
| N_gk : names "GardnerKnopoff" J_gardner_knopoff
| N_af : names "Afteran" J_afteran
| N_st : names "Stepp" J_stepp
| N_re : names "Recurrence" J_recurrence
| N_ce : names "Create_eq_vector" J_create_selected_eq_vector
| N_se : names "Store_eq_catalog" J_store_preprocessed_catalog
| N_sc : names "Store_completeness_table" J_store_completeness_table
| N_rc : names "Retrieve_completeness_table" J_retrieve_completeness_table
| N_mm : names "MaximumMagnitude" J_maximum_magnitude.

(** A configuration entry that is set to a non-empty value. *)
Definition file_set (v : cval text) : Prop := exists p, v = Given p /\ p <> [].
Definition jobs_set (v : cval (list string)) (l : list string) : Prop := v = Given l /\ l <> [].
(** A configuration entry that is there but null or empty. *)
Definition file_unset (v : cval text) : Prop := v = Null \/ v = Given [].
Definition jobs_unset (v : cval (list string)) : Prop := v = Null \/ v = Given [].

(** The job that provides the source model, by configuration. *)
Inductive source_job : cval text -> jobname -> Prop :=
| SJ_file : forall v, file_set v -> source_job v J_read_source_model
| SJ_default : forall v, file_unset v -> source_job v J_create_default_source_model.

Section FlowSpec.
Context {AR : Ops}.
Variable W : world AR.

(** Running the jobs one after the other without an exception. *)
Inductive steps : list jobname -> context AR -> context AR -> Prop :=
| steps_nil : forall c, steps [] c c
| steps_cons : forall j js c c1 c2, run_job W j c = (c1, None) -> steps js c1 c2 -> steps (j :: js) c c2.

(** [l'] is the elements of [l] satisfying [P], in order. *)
Inductive picks {A : Type} (P : A -> Prop) : list A -> list A -> Prop :=
| picks_nil : picks P [] []
| picks_take : forall a l l', P a -> picks P l l' -> picks P (a :: l) (a :: l')
| picks_skip : forall a l l', ~ P a -> picks P l l' -> picks P (a :: l) l'.

(** The events used for a source. *)
Inductive events_of : sm_filter -> area_source AR -> list (event AR) -> list (event AR) -> Prop :=
| EV_all : forall s cat, events_of NullCatalogFilter s cat cat
| EV_zone : forall s cat eqs, w_polygon W (ab_pos (as_boundary s)) = Ok tt ->
    picks (fun e => w_contains W (ab_pos (as_boundary s)) (ev_lon e) (ev_lat e) = true) cat eqs ->
    events_of SourceModelCatalogFilter s cat eqs.

(** The source with other rates. *)
Definition set_rates (s : area_source AR) (a b mn mx : T) (sb sa mm : option T) : area_source AR :=
  mkSource (as_nrml_id s) (as_sm_id s) (as_id s) (as_name s) (as_tect s) (as_boundary s)
    (mkRate (mkTgr a b mn mx (tg_type (rm_tgr (as_rate s)))) (rm_strike (as_rate s)) (rm_dip (as_rate s)) (rm_rake (as_rate s)))
    (as_depth s) (as_hypo s) sb sa mm.

(** Everything but the four rate values and the sigma attributes is the same. *)
Definition same_but_rates (s s' : area_source AR) : Prop :=
  exists a b mn mx sb sa mm, s' = set_rates s a b mn mx sb sa mm.

(** The effect of processing jobs on one source: each computes from the events of the source,
    never from the source. *)
Inductive processed (cf : config AR) (tab : option (list (T * T))) (eqs : list (event AR))
  : list jobname -> area_source AR -> area_source AR -> Prop :=
| PR_none : forall s, processed cf tab eqs [] s s
| PR_rec : forall js s s' k tb b sb a sa, eqs <> [] -> tab = Some tb -> cf_recurrence cf = Ok k ->
    recurrence_analysis (w_fuel W) (map ev_year eqs) (map ev_mw eqs) tb (rc_mag_window k)
      (rc_algorithm k) (rc_reference k) (rc_time_window k) = Ok (b, sb, a, sa) ->
    processed cf tab eqs js
      (set_rates s a b (rc_reference k) (tg_max (rm_tgr (as_rate s))) (Some sb) (Some sa) (as_mmsig s)) s' ->
    processed cf tab eqs (J_recurrence :: js) s s'
| PR_max : forall js s s' k mx sg, eqs <> [] -> cf_mm cf = Ok k ->
    maximum_magnitude_analysis (w_fuel W) (map ev_year eqs) (map ev_mw eqs) (map ev_sigma eqs)
      (mm_algorithm k) (mm_tolerance k) (mm_max_iter k) (mm_neq k) (mm_samples k)
      (w_normals W (mm_bootstraps k) (length eqs)) = Ok (mx, sg) ->
    processed cf tab eqs js
      (let g := rm_tgr (as_rate s) in set_rates s (tg_a g) (tg_b g) (tg_min g) mx (as_sigb s) (as_siga s) (Some sg)) s' ->
    processed cf tab eqs (J_maximum_magnitude :: js) s s'.

(** Everything but the sources and the position in their list is the same. *)
Definition only_sources (c c' : context AR) : Prop :=
  cx_config c' = cx_config c /\ cx_eq_catalog c' = cx_eq_catalog c /\ cx_matrix c' = cx_matrix c /\
  cx_working c' = cx_working c /\ cx_flag c' = cx_flag c /\ cx_table c' = cx_table c /\ cx_files c' = cx_files c.

(** The filter of a run, by configuration. *)
Definition filter_for (cf : config AR) (flt : sm_filter) : Prop :=
  (file_set (cf_source_model_file cf) /\ flt = SourceModelCatalogFilter) \/
  (file_unset (cf_source_model_file cf) /\ flt = NullCatalogFilter).

(** The two jobs meant for processing. *)
Definition processing_job (j : jobname) : Prop := j = J_recurrence \/ j = J_maximum_magnitude.

(** ** Whole runs *)

(** Processing the sources from position [i] on, one after the other, every job of every
    source succeeding. *)
Inductive sources_done (flt : sm_filter) (js : list jobname) (w : list (event AR))
  : nat -> context AR -> context AR -> Prop :=
| SD_end : forall i c ss, cx_sms c = Some ss -> length ss <= i -> sources_done flt js w i c c
| SD_next : forall i c c1 c2 ss s eqs, cx_sms c = Some ss -> nth_error ss i = Some s ->
    events_of flt s w eqs -> steps js (set_filtered (Some eqs) (set_cur (Some i) c)) c1 ->
    sources_done flt js w (S i) c1 c2 -> sources_done flt js w i c c2.

(** A workflow in which every job succeeded: preprocessing, then, if asked for, processing. *)
Inductive workflow_done (pre pro : list jobname) (flt : sm_filter) (c : context AR)
  : context AR -> Prop :=
| WD_pre : forall c1, steps pre c c1 -> cf_apply_processing_jobs (cx_config c1) = Null ->
    workflow_done pre pro flt c c1
| WD_none : forall c1 u, steps pre c c1 -> cf_apply_processing_jobs (cx_config c1) = Given u ->
    cx_sms c1 = Some [] -> workflow_done pre pro flt c c1
| WD_pro : forall c1 c2 u w, steps pre c c1 -> cf_apply_processing_jobs (cx_config c1) = Given u ->
    cx_working c1 = Some w -> sources_done flt pro w 0 c1 c2 -> workflow_done pre pro flt c c2.

(** The files a run may write, by the configuration. *)
Definition output_path (cf : config AR) (p : text) : Prop :=
  cf_pprocessing_result_file cf = Given p \/ cf_completeness_table_file cf = Given p \/
  cf_result_file cf = Given p.

(** A path with no directory part. *)
Definition bare_name (p : text) : Prop := ~ In "/"%char p.

(** ** Preprocessing *)

(** [l'] is the elements of [l] whose flag is 0, in order; one flag per element. *)
Inductive unflagged {A : Type} : list A -> list Z -> list A -> Prop :=
| UF_nil : unflagged [] [] []
| UF_keep : forall a l fl l', unflagged l fl l' -> unflagged (a :: l) (0%Z :: fl) (a :: l')
| UF_drop : forall a z l fl l', z <> 0%Z -> unflagged l fl l' -> unflagged (a :: l) (z :: fl) l'.

(** The flags belong to the catalogue matrix and the working catalogue is the rows flagged 0. *)
Definition aligned (c : context AR) : Prop :=
  exists m w flag, cx_matrix c = Some m /\ cx_working c = Some w /\ cx_flag c = Some flag /\
    unflagged m flag w.

(** Gardner-Knopoff, which works on what is left of the catalogue, comes only before any other
    declustering job. *)
Definition gk_first (l : list string) : Prop :=
  forall a b, l = (a ++ "GardnerKnopoff"%string :: b)%list ->
    ~ In "GardnerKnopoff"%string a /\ ~ In "Afteran"%string a.

(** An event that no row of a completeness table makes incomplete. *)
Definition complete (tab : list (T * T)) (e : event AR) : Prop :=
  forall cy cm, In (cy, cm) tab -> ltb (ev_year e) cy = true -> ltb (ev_mw e) cm = true -> False.

(** Values that the comparison of the arithmetic orders: any reals, any doubles but NaN. *)
Definition ordered_values (l : list T) : Prop :=
  (forall a, In a l -> ltb a a = false) /\
  (forall a b, In a l -> In b l -> ltb a b = true -> ltb b a = false) /\
  (forall a b c, In a l -> In b l -> In c l -> ltb b a = false -> ltb c b = false -> ltb c a = false).

(** The entries to store: those of unflagged and complete events, in order.  The three lists
    run in parallel. *)
Inductive to_store (tab : list (T * T))
  : list (entry AR) -> list (event AR) -> list Z -> list (entry AR) -> Prop :=
| TS_nil : to_store tab [] [] [] []
| TS_keep : forall x xs r rs fl ys, complete tab r -> to_store tab xs rs fl ys ->
    to_store tab (x :: xs) (r :: rs) (0%Z :: fl) (x :: ys)
| TS_drop : forall x xs r rs z fl ys, z <> 0%Z \/ ~ complete tab r -> to_store tab xs rs fl ys ->
    to_store tab (x :: xs) (r :: rs) (z :: fl) ys.

(** The catalogue read by a run. *)
Definition catalogue_read (cf : config AR) (f : files) (es : list (entry AR)) : Prop :=
  exists p content, cf_eq_catalog_file cf = Given p /\ f p = Some content /\
    read_eq_catalog (w_parse_float W) (w_now_year W) (w_dict_order W) content = Ok es.

(** The sources in the source model file of a configuration. *)
Definition sources_read (cf : config AR) (f : files) (ss : list (area_source AR)) : Prop :=
  exists p content d, cf_source_model_file cf = Given p /\ p <> [] /\ f p = Some content /\
    w_xml_parse W content = Some d /\ read_doc (w_parse_float W) d = (ss, None).

(** Only the two jobs meant for processing are listed for processing. *)
Definition only_processing (cf : config AR) : Prop :=
  forall l n, cf_processing_jobs cf = Given l -> In n l -> n = "Recurrence"%string \/ n = "MaximumMagnitude"%string.

(** An event that the maximum likelihood analysis counts in one of the periods of the table: not
    before the year of the period and not below the smallest magnitude of the rows of that year,
    with the tolerance 1e-5. *)
Definition counted (tab : list (T * T)) (e : event AR) : Prop :=
  exists cy mc, In cy (map fst tab) /\
    minv (map snd (filter (fun r => ltb (absv (sub (fst r) cy)) (lit 1 100000)) tab)) = Ok mc /\
    leb cy (ev_year e) = true /\ leb (sub mc (lit 1 100000)) (ev_mw e) = true.

(** A value written with five decimals and read again. *)
Definition stored5 (x : T) : T := lit (toZ (rintv (mul x (ofZ 100000)))) 100000.

(** A first configuration that stores its preprocessed catalogue in [p] and its completeness
    table in [pt], and a second one that starts from these files and has no preprocessing jobs;
    everything else is shared. *)
Definition restarts (cf1 cf2 : config AR) (p pt : text) : Prop :=
  cf_pprocessing_result_file cf1 = Given p /\ p <> [] /\
  cf_completeness_table_file cf1 = Given pt /\ pt <> [] /\ p <> pt /\
  cf_eq_catalog_file cf2 = Given p /\ cf_completeness_table_file cf2 = Given pt /\
  jobs_unset (cf_preprocessing_jobs cf2) /\
  cf_source_model_file cf2 = cf_source_model_file cf1 /\
  cf_source_model_file cf1 <> Given p /\ cf_source_model_file cf1 <> Given pt.

(** The same processing is asked for. *)
Definition same_processing (cf1 cf2 : config AR) : Prop :=
  cf_processing_jobs cf2 = cf_processing_jobs cf1 /\
  cf_apply_processing_jobs cf2 = cf_apply_processing_jobs cf1 /\
  cf_recurrence cf2 = cf_recurrence cf1 /\ cf_result_file cf2 = cf_result_file cf1.

(** Only recurrence analyses by maximum likelihood are asked for. *)
Definition only_mle (cf : config AR) : Prop :=
  (forall l n, cf_processing_jobs cf = Given l -> In n l -> n = "Recurrence"%string) /\
  forall k, cf_recurrence cf = Ok k -> rc_algorithm k <> "Weichert"%string.

End FlowSpec.

(** ** Over the reals *)

Definition rounded5 (x y : R) : Prop := exists n, y = (IZR n / 100000)%R /\ (Rabs (y - x) <= 5 / 1000000)%R.
Definition five_decimals (x : R) : Prop := exists n, x = (IZR n / 100000)%R.

(** A completeness table with values of five decimals in which earlier periods have larger
    magnitudes, as those of the Stepp analysis with locked bins. *)
Definition mle_table (tab : list (R * R)) : Prop :=
  Forall (fun r => five_decimals (fst r) /\ five_decimals (snd r)) tab /\
  forall r r', In r tab -> In r' tab -> (fst r < fst r')%R -> (snd r' < snd r)%R.
