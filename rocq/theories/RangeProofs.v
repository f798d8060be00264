(** The magnitude range of a processed source (C138). *)
From Coq Require Import ZArith Bool Ascii String List Lia Reals Lra Permutation Sorted.
From Verif Require Import Base Ops BaseFacts RFacts CatUtil SteppSpec SteppProofs GeoProofs MaxMag MaxMagProofs KijkoProofs RecurrenceProofs KijkoWitness MomentSpec MomentProofs PyStr EqCatalog SourceModel Nrml World CatalogFilter
  Recurrence Jobs Workflow Main FlowSpec FlowPipe FlowFiles FlowPre FlowZones RangeSpec.
Import ListNotations.
Local Open Scope R_scope.

(** What the two jobs leave in a source: whoever comes last, the limits depend on the events only. *)
Lemma processed_limits : forall (AR : Ops) (W : world AR) cf tab eqs js s s', processed W cf tab eqs js s s' ->
  (In J_recurrence js -> exists k, cf_recurrence cf = Ok k /\ tg_min (rm_tgr (as_rate s')) = rc_reference k) /\
  (~ In J_recurrence js -> tg_min (rm_tgr (as_rate s')) = tg_min (rm_tgr (as_rate s))) /\
  (In J_maximum_magnitude js -> exists k mx sg, eqs <> [] /\ cf_mm cf = Ok k /\
     maximum_magnitude_analysis (w_fuel W) (map ev_year eqs) (map ev_mw eqs) (map ev_sigma eqs)
       (mm_algorithm k) (mm_tolerance k) (mm_max_iter k) (mm_neq k) (mm_samples k)
       (w_normals W (mm_bootstraps k) (List.length eqs)) = Ok (mx, sg) /\ tg_max (rm_tgr (as_rate s')) = mx) /\
  (~ In J_maximum_magnitude js -> tg_max (rm_tgr (as_rate s')) = tg_max (rm_tgr (as_rate s))).
Proof.
  intros AR W cf tab eqs js s s' P.
  induction P as [s|js s s' k tb b sb a sa NE TB CR RA P IH|js s s' k mx sg NE CM MA P IH].
  - repeat split; auto; intros [].
  - destruct IH as (I1 & I2 & I3 & I4). split; [|split; [|split]].
    + intros _. destruct (in_dec (fun x y : jobname => ltac:(decide equality) : {x = y} + {x <> y}) J_recurrence js) as [I|I].
      * apply I1; auto.
      * exists k. split; [exact CR|]. rewrite I2 by auto. reflexivity.
    + intros N. exfalso. apply N. left; auto.
    + intros [X|I]; [discriminate|]. apply I3; auto.
    + intros N. rewrite I4 by (intros I; apply N; right; auto). reflexivity.
  - destruct IH as (I1 & I2 & I3 & I4). split; [|split; [|split]].
    + intros [X|I]; [discriminate|]. apply I1; auto.
    + intros N. rewrite I2 by (intros I; apply N; right; auto). reflexivity.
    + intros _. destruct (in_dec (fun x y : jobname => ltac:(decide equality) : {x = y} + {x <> y}) J_maximum_magnitude js) as [I|I].
      * apply I3; auto.
      * exists k, mx, sg. split; [exact NE|]. split; [exact CM|]. split; [exact MA|]. rewrite I4 by auto. reflexivity.
    + intros N. exfalso. apply N. left; auto.
Qed.

Lemma has_first_max : forall mag sig : list R, mag <> [] -> List.length mag = List.length sig ->
  exists om os, first_max mag sig om os.
Proof.
  intros [|m mag] [|s sig] N L; try congruence; try discriminate.
  destruct (@argmax_from ROps m s mag sig) as [om os] eqn:E. exists om, os. apply argmax_spec; auto.
Qed.

Lemma largest_in : forall (mag : list R) neq sel n x, @largest ROps mag neq = (sel, n) -> In x sel -> In x mag.
Proof.
  intros mag neq sel n x H I. unfold largest in H. change (@T ROps) with R in *. destruct (Nat.leb (List.length mag) neq).
  - injection H as <- _. exact I.
  - injection H as <- _. apply (Permutation_in x (Permutation_sym (sortv_perm mag))).
    destruct neq; [exact I|].
    rewrite <- (firstn_skipn (List.length (@sortv ROps mag) - S neq) (@sortv ROps mag)). apply in_or_app. right. exact I.
Qed.

Lemma C138_partial_proof : forall (W : world ROps) pre pro flt c c' kr km,
  start W pre pro flt c = (c', None) -> Forall processing_job pro -> In J_recurrence pro -> In J_maximum_magnitude pro ->
  cf_apply_processing_jobs (cx_config c) = Given tt ->
  cf_recurrence (cx_config c) = Ok kr -> cf_mm (cx_config c) = Ok km -> kijko_settings (w_fuel W) km ->
  exists ss w ss', cx_sms c' = Some ss' /\
    Forall2 (fun s s' : area_source ROps => exists eqs, events_of W flt s w eqs /\
      (kijko_spread (map ev_mw eqs) (mm_neq km) -> (exists e, In e eqs /\ rc_reference kr <= ev_mw e) ->
       tg_min (rm_tgr (as_rate s')) <= tg_max (rm_tgr (as_rate s')))) ss ss'.
Proof.
  intros W pre pro flt c c' kr km ST PJ IR IM AP CR CM (KA & KS & KT & KI).
  destruct (C65_proof W pre pro flt c c' PJ ST) as (c1 & S1 & [(AN & _)|(u & ss & w & ss' & AG & SM & WK & SM' & OS & F)]).
  { rewrite (steps_config W pre c c1 S1) in AN. congruence. }
  assert (EC := steps_config W pre c c1 S1). rewrite EC in F.
  exists ss, w, ss'. split; [exact SM'|]. clear - F IR IM CR CM KA KS KT KI.
  induction F as [|s s' ss ss' (eqs & EV & PR & _) F IH]; constructor; [|exact IH].
  exists eqs. split; [exact EV|]. intros SP (e & IE & RE).
  destruct (processed_limits ROps W _ _ _ _ _ _ PR) as (L1 & _ & L3 & _).
  destruct (L1 IR) as (k1 & E1 & ->). destruct (L3 IM) as (k2 & mx & sg & NE & E2 & MA & ->).
  assert (k1 = kr) by congruence. assert (k2 = km) by congruence. subst k1 k2.
  unfold maximum_magnitude_analysis in MA. rewrite KA in MA. cbn [String.eqb Ascii.eqb Bool.eqb] in MA.
  assert (LN : List.length (map ev_mw eqs) = List.length (map ev_sigma eqs)) by (rewrite !map_length; reflexivity).
  assert (NM : map ev_mw eqs <> []) by (destruct eqs; [congruence|discriminate]).
  destruct (has_first_max (map ev_mw eqs) (map ev_sigma eqs) NM LN) as (om & os & FM).
  destruct SP as (sel & n & mmin & EL & MN & (m & IM' & LM) & HP & SPR).
  pose proof FM as (i & _ & _ & TOP & _).
  assert (mmin < om) by (eapply Rlt_le_trans; [exact LM|]; apply TOP; eapply largest_in; [exact EL|exact IM']).
  destruct (C77_proof (w_fuel W) (map ev_mw eqs) (map ev_sigma eqs) (mm_neq km) (mm_samples km) (mm_tolerance km) (mm_max_iter km)
    None sel n mmin om os mx sg) as (Q & _); auto.
  change (@T ROps) with R in *. assert (ev_mw e <= om) by (apply TOP; apply in_map; exact IE). lra.
Qed.

(** ** Two events for which both jobs succeed *)

Lemma spread_case : kijko_spread [4; 6] 100.
Proof.
  assert (HS := proj1 (C51_partial_proof [4; 6])). destruct HS as [_ HS].
  assert (R := fifth_root (INR (List.length [4; 6])) ltac:(simpl; lra)).
  assert (Q25 : @mquantile ROps [4; 6] (25/100) = 4).
  { destruct (C79_proof [4; 6] (25/100)) as (x & P & SX & Q & _); [simpl; lia|].
    rewrite Q. 2:{ unfold plotting_position. simpl. lra. }
    assert (x = [4; 6]) by (apply (sorted_unique x [4; 6]); auto; [ssorted|symmetry; auto]). subst. reflexivity. }
  assert (Q75 : @mquantile ROps [4; 6] (75/100) = 6).
  { destruct (C79_proof [4; 6] (75/100)) as (x & P & SX & _ & Q & _); [simpl; lia|].
    rewrite Q. 2:{ unfold plotting_position. simpl. lra. }
    assert (x = [4; 6]) by (apply (sorted_unique x [4; 6]); auto; [ssorted|symmetry; auto]). subst. reflexivity. }
  rewrite Q25, Q75 in HS. set (r := Rpower (INR (List.length [4; 6])) (- (1) / 5)) in *.
  assert (HH : 6/10 <= @h_smooth ROps [4; 6]) by (unfold Rabs in HS; destruct (Rcase_abs _) in HS; lra).
  exists [4; 6], 2%nat, 4. split; [reflexivity|]. split. { split; simpl; auto. intros y [<-|[<-|[]]]; lra. }
  split. { exists 6. simpl. split; auto. lra. }
  split; [lra|]. intros m [<-|[<-|[]]]; lra.
Qed.

Definition two_events : list (event ROps) :=
  [@mkEvent ROps 1991 1 1 20 38 4 (1/10); @mkEvent ROps 1995 1 1 20 38 6 (2/10)].
Definition two_config : config ROps :=
  mkConfig Null Null Null Null Null (Given ["Recurrence"; "MaximumMagnitude"]%string) (Given tt) Null
    (Err KeyError) (Err KeyError) (Err KeyError)
    (Ok (@mkRecConf ROps (1/10) "MLE" 5 1)) (Ok (@mkMmConf ROps "Kijko_Npg" (1/1000) 10 100 51 3)).
Definition two_context : context ROps :=
  @set_table ROps (Some [(1990, 4)]) (set_working (Some two_events) (set_sms (Some [default_area_source]) (init_context two_config (fun _ => None)))).

Lemma C138_case_proof : forall W : world ROps, w_fuel W = 12%nat ->
  exists c', start W [] [J_recurrence; J_maximum_magnitude] NullCatalogFilter two_context = (c', None) /\
    kijko_settings (w_fuel W) (@mkMmConf ROps "Kijko_Npg" (1/1000) 10 100 51 3) /\
    kijko_spread (map ev_mw two_events) 100 /\ exists e, In e two_events /\ 5 <= ev_mw e.
Proof.
  intros W WF.
  assert (B : exists r, @recurrence_analysis ROps (w_fuel W) (map ev_year two_events) (map ev_mw two_events) [(1990, 4)] (1/10) "MLE" 5 1 = Ok r).
  { unfold recurrence_analysis. cbn [String.eqb Ascii.eqb Bool.eqb map fst snd two_events ev_year ev_mw].
    apply (C37_succeeds_proof [1991; 1995] [4; 6] [1990] [4] (1/10) 5 [(1990, 1%nat)]); auto; try discriminate; try lra.
    - split; [reflexivity|]. split. { constructor; [intros []|constructor]. }
      split. { intros g [<-|[]]; simpl; lia. } intros g g' [<-|[]] [<-|[]]; auto.
    - intros cy [<-|[]]. exists 4, 1991, 4. simpl. repeat split; auto; lra. }
  destruct B as ([[[b sb] a] sa] & B).
  destruct (C47_proof (w_fuel W) [4; 6] [1/10; 2/10] 100 51 (1/1000) 10 None)
    as (om & os & sel & n & mmin & prev & d & mmax & sigma & _ & _ & _ & E & _); try discriminate; auto; try lia; try lra.
  assert (EM : forall nrm, @maximum_magnitude_analysis ROps (w_fuel W) (map ev_year two_events) (map ev_mw two_events) (map ev_sigma two_events)
    "Kijko_Npg" (1/1000) 10 100 51 nrm = Ok (mmax, sigma)) by (intros nrm; exact E).
  eexists. split.
  - unfold start, two_context. cbn -[recurrence_of maximum_magnitude_of two_events default_area_source].
    unfold recurrence. cbn -[recurrence_of maximum_magnitude_of default_area_source].
    unfold recurrence_of, maximum_magnitude_of. cbn [rc_mag_window rc_algorithm rc_reference rc_time_window].
    fold two_events. rewrite B. cbn -[maximum_magnitude_analysis].
    unfold maximum_magnitude, maximum_magnitude_of. cbn -[maximum_magnitude_analysis].
    match goal with |- context [maximum_magnitude_analysis ?a ?b ?c ?d ?e ?f ?g ?h ?i ?j] =>
      replace (@maximum_magnitude_analysis ROps a b c d e f g h i j) with (@Ok (@T ROps * @T ROps) (mmax, sigma)) by (symmetry; exact (EM j)) end.
    reflexivity.
  - split. { split; [reflexivity|]. cbn. split; [lia|]. split; [lra|lia]. }
    split; [exact spread_case|]. exists (@mkEvent ROps 1995 1 1 20 38 6 (2/10)). cbn. split; auto. lra.
Qed.
