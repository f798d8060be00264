(** Property C138: the magnitude range of a result (jobs.py:300-366). *)
From Coq Require Import ZArith Bool Ascii String List Reals.
From Verif Require Import Base Ops FloatOps Libm CatUtil PyStr PyFloat EqCatalog SourceModel World CatalogFilter MaxMag Jobs Workflow Main
  FlowSpec Demo FlowDemo RangeSpec RangeProofs RangeCase.
Import ListNotations.
Local Open Scope R_scope.

(** C138 is false in binary64: all three events of the catalogue are above the reference magnitude,
    the run completes, and the maximum magnitude of the result is below its minimum magnitude. *)
Theorem C138_range_refuted : exists cf f c s es m k,
  run_config DW cf f = (c, None) /\ cx_sms c = Some [s] /\ catalogue_read DW cf f es /\ mapM matrix_row es = Ok m /\
  cf_recurrence cf = Ok k /\ (forall e, In e m -> @ltb FL (rc_reference k) (ev_mw e) = true) /\
  @ltb FL (tg_max (rm_tgr (as_rate s))) (tg_min (rm_tgr (as_rate s))) = true.
Proof. exact C138_refuted_proof. Qed.
Print Assumptions C138_range_refuted.

(** What holds, over the reals: with Kijko's method, for every source with an event at or above the
    reference magnitude whose magnitudes are spread over at most five bandwidths.
    Missing: the cumulative-moment method (refuted above) and wider spreads (C48). *)
Theorem C138_range_partial : forall (W : world ROps) pre pro flt c c' kr km,
  start W pre pro flt c = (c', None) -> Forall processing_job pro -> In J_recurrence pro -> In J_maximum_magnitude pro ->
  cf_apply_processing_jobs (cx_config c) = Given tt ->
  cf_recurrence (cx_config c) = Ok kr -> cf_mm (cx_config c) = Ok km -> kijko_settings (w_fuel W) km ->
  exists ss w ss', cx_sms c' = Some ss' /\
    Forall2 (fun s s' : area_source ROps => exists eqs, events_of W flt s w eqs /\
      (kijko_spread (map ev_mw eqs) (mm_neq km) -> (exists e, In e eqs /\ rc_reference kr <= ev_mw e) ->
       tg_min (rm_tgr (as_rate s')) <= tg_max (rm_tgr (as_rate s')))) ss ss'.
Proof. exact C138_partial_proof. Qed.
Print Assumptions C138_range_partial.

(** Events of magnitude 4 and 6, reference magnitude 5. *)
Example C138_case : forall W : world ROps, w_fuel W = 12%nat ->
  exists c', start W [] [J_recurrence; J_maximum_magnitude] NullCatalogFilter two_context = (c', None) /\
    kijko_settings (w_fuel W) (@mkMmConf ROps "Kijko_Npg" (1/1000) 10 100 51 3) /\
    kijko_spread (map ev_mw two_events) 100 /\ exists e, In e two_events /\ 5 <= ev_mw e.
Proof. exact C138_case_proof. Qed.
