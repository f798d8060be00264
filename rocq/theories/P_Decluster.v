(** Properties C15-C25, C107: gardner_knopoff_decluster and afteran_decluster
    (declustering.py:154-395). *)
From Coq Require Import ZArith List Bool Arith Lia Permutation Reals Lra.
From Verif Require Import Base Ops BaseFacts RFacts CatUtil Decluster DeclusterSpec
  DeclusterProofs GeoProofs DeclusterR AfteranProofs AfteranR AfteranOrder ChainSpec AfteranChain.
Import ListNotations.

(** ** Gardner-Knopoff, every arithmetic and every sort *)

(** The function succeeds on every non-empty catalogue with valid months and a known window
    method, so the theorems below are not about failing runs. *)
Theorem C15_gk_succeeds : forall (AR : Ops) argsort (cat : list (event AR)) w fs years f,
  cat <> [] -> decimal_year cat = Ok years -> window_calc w = Ok f ->
  exists r, gardner_knopoff_decluster argsort cat w fs = Ok r.
Proof. exact (@gk_ok). Qed.
Print Assumptions C15_gk_succeeds.

Theorem C15_gk_shape : forall (AR : Ops) argsort, is_argsort argsort ->
  forall (cat : list (event AR)) w fs vcl vmain flag,
  gardner_knopoff_decluster argsort cat w fs = Ok (vcl, vmain, flag) ->
  length vcl = length cat /\ length flag = length cat /\
  (forall z, In z flag -> z = 0%Z \/ z = 1%Z \/ z = (-1)%Z) /\
  vmain = map fst (filter (fun p => Z.eqb (snd p) 0) (combine cat flag)) /\
  (forall k, nth_error vcl k = Some 0 -> nth_error flag k = Some 0%Z).
Proof. exact (@C15_proof). Qed.
Print Assumptions C15_gk_shape.

Theorem C16_gk_clusters_in_window : forall (AR : Ops) argsort, is_argsort argsort ->
  forall (cat : list (event AR)) w fs vcl vmain flag c,
  gardner_knopoff_decluster argsort cat w fs = Ok (vcl, vmain, flag) ->
  c <> 0 -> In c vcl ->
  exists i main, nth_error cat i = Some main /\
    forall k e, nth_error cat k = Some e -> nth_error vcl k = Some c ->
      in_window w fs main e = true /\
      nth_error flag k = Some (if Nat.eqb k i then 0%Z else relative_flag main e).
Proof. exact (@C16_proof). Qed.
Print Assumptions C16_gk_clusters_in_window.

Theorem C16_gk_one_kept_per_cluster : forall (AR : Ops) argsort, is_argsort argsort ->
  forall (cat : list (event AR)) w fs vcl vmain flag c k k',
  gardner_knopoff_decluster argsort cat w fs = Ok (vcl, vmain, flag) ->
  c <> 0 -> nth_error vcl k = Some c -> nth_error vcl k' = Some c ->
  nth_error flag k = Some 0%Z -> nth_error flag k' = Some 0%Z -> k = k'.
Proof. exact (@C16_one_kept). Qed.
Print Assumptions C16_gk_one_kept_per_cluster.

Theorem C17_gk_never_empties : forall (AR : Ops) argsort, is_argsort argsort ->
  forall (cat : list (event AR)) w fs vcl vmain flag,
  gardner_knopoff_decluster argsort cat w fs = Ok (vcl, vmain, flag) -> vmain <> [].
Proof. exact (@C17_proof). Qed.
Print Assumptions C17_gk_never_empties.

Theorem C18_gk_isolated_events_kept : forall (AR : Ops) argsort, is_argsort argsort ->
  forall (cat : list (event AR)) w fs vcl vmain flag k e,
  gardner_knopoff_decluster argsort cat w fs = Ok (vcl, vmain, flag) ->
  nth_error cat k = Some e ->
  (forall k' e', k' <> k -> nth_error cat k' = Some e' ->
     in_window w fs e e' = false /\ in_window w fs e' e = false) ->
  nth_error vcl k = Some 0 /\ nth_error flag k = Some 0%Z.
Proof. exact (@C18_isolated_proof). Qed.
Print Assumptions C18_gk_isolated_events_kept.

(** The last event in the processing order is the first of the ascending magnitude order. *)
Theorem C18_gk_unclustered_events_are_isolated : forall (AR : Ops) argsort,
  is_argsort argsort ->
  forall (cat : list (event AR)) w fs vcl vmain flag k e,
  gardner_knopoff_decluster argsort cat w fs = Ok (vcl, vmain, flag) ->
  nth_error cat k = Some e -> nth_error vcl k = Some 0 ->
  in_window w fs e e = true ->
  nth_error (argsort (map ev_mw cat)) 0 <> Some k ->
  forall k' e', k' <> k -> nth_error cat k' = Some e' -> in_window w fs e e' = false.
Proof. exact (@C18_converse_proof). Qed.
Print Assumptions C18_gk_unclustered_events_are_isolated.

(** A catalogue with a cluster of two and an isolated event, any sort. *)
Example C15_to_C18_case : forall argsort, @is_argsort ROps argsort -> sorts argsort ->
  @gardner_knopoff_decluster ROps argsort w19 TDW_GARDNERKNOPOFF 0%R
  = Ok ([1; 1; 0], tl w19, [1; 0; 0]%Z).
Proof. exact C19_witness. Qed.

(** The assumptions on the sort are met by insertion sort. *)
Example sort_case : @is_argsort ROps insertion_argsort /\ sorts insertion_argsort.
Proof. split. exact insertion_is_argsort. exact insertion_sorts. Qed.

(** An event is in its own window over the reals when fs is not negative, so that the
    hypothesis [in_window w fs e e = true] of C18 holds for every event with a time. *)
Example C18_self_case :
  @in_window ROps TDW_GARDNERKNOPOFF 0%R (hd (mkEvent (AR:=ROps) 0 1 1 0 0 0 0)%R w19)
    (hd (mkEvent (AR:=ROps) 0 1 1 0 0 0 0)%R w19) = true.
Proof.
  unfold in_window, w19, hd. cbn [window_calc]. unfold delay, event_time. cbn [ev_year ev_month ev_day].
  rewrite !(decimal_year_value _ 1) by lia. rewrite event_dist_self.
  assert (W := windows_positive TDW_GARDNERKNOPOFF (@gk_window ROps) 7%R eq_refl).
  cbn [ev_mw]. destruct (@gk_window ROps 7%R) as [s t]. cbn [fst snd] in W. rops.
  rewrite !andb_true_iff, !Rleb_true. repeat split; lra.
Qed.

(** ** Gardner-Knopoff over the reals *)
Local Open Scope R_scope.

(** C19 is false: for every correct sort, the catalogue [w19] (an M7, an M5 one day earlier
    at the same place, an old M4) with foreshock proportion 0 yields one cluster {M7, M5} in
    which the M7 is purged and the M5 kept. *)
Theorem C19_largest_kept_refuted : exists (cat : list revent),
  forall argsort, @is_argsort ROps argsort -> sorts argsort ->
  exists vcl vmain flag,
    @gardner_knopoff_decluster ROps argsort cat TDW_GARDNERKNOPOFF 0 = Ok (vcl, vmain, flag) /\
    exists k e k' e' c, nth_error cat k = Some e /\ nth_error cat k' = Some e' /\
      c <> 0%nat /\ nth_error vcl k = Some c /\ nth_error vcl k' = Some c /\
      (forall q x, nth_error cat q = Some x -> ev_mw x <= ev_mw e) /\
      ev_mw e' < ev_mw e /\
      nth_error flag k <> Some 0%Z /\ nth_error flag k' = Some 0%Z.
Proof.
  exact (ex_intro _ w19 (fun argsort AS SO =>
    ex_intro _ [1; 1; 0]%nat (ex_intro _ (tl w19) (ex_intro _ [1; 0; 0]%Z
      (conj (C19_witness argsort AS SO) C19_facts))))).
Qed.
Print Assumptions C19_largest_kept_refuted.

(** What holds: the strictly largest event of the catalogue is kept when its windows cover
    those of every other event in both time directions (for foreshock proportion 1: when its
    windows are the longest).  Missing compared with C19: other proportions, and clusters
    that do not contain the largest event of the catalogue. *)
Theorem C19_largest_kept_partial : forall argsort cat w fs f vcl vmain flag k e,
  @is_argsort ROps argsort -> sorts argsort ->
  @gardner_knopoff_decluster ROps argsort cat w fs = Ok (vcl, vmain, flag) ->
  @window_calc ROps w = Ok f -> nth_error cat k = Some e ->
  (forall k' e', k' <> k -> nth_error cat k' = Some e' ->
     ev_mw e' < ev_mw e /\
     snd (f (ev_mw e')) <= fs * snd (f (ev_mw e)) /\
     fs * snd (f (ev_mw e')) <= snd (f (ev_mw e)) /\
     fst (f (ev_mw e')) <= fst (f (ev_mw e))) ->
  nth_error flag k = Some 0%Z.
Proof. exact C19_partial_proof. Qed.
Print Assumptions C19_largest_kept_partial.

(** With proportion 1 the hypotheses hold for the same catalogue and the Uhrhammer windows. *)
Example C19_case : exists f, @window_calc ROps TDW_UHRHAMMER = Ok f /\
  forall k' e', k' <> 0%nat -> nth_error w19 k' = Some e' ->
     ev_mw e' < 7 /\ snd (f (ev_mw e')) <= 1 * snd (f 7) /\
     1 * snd (f (ev_mw e')) <= snd (f 7) /\ fst (f (ev_mw e')) <= fst (f 7).
Proof.
  eexists. split; [reflexivity|]. intros k' e' Hk He.
  assert (ev_mw e' < 7).
  { destruct k' as [|[|[|k']]]; cbn in He; [congruence| | |destruct k'; discriminate];
      injection He; intros <-; cbn; lra. }
  destruct (uhrhammer_mono (ev_mw e') 7) as [U1 U2]. { rops. lra. }
  split; auto. rewrite !Rmult_1_l. auto.
Qed.

Theorem C20_gk_foreshock_window : forall argsort cat w p vcl vmain flag k e,
  @is_argsort ROps argsort ->
  @gardner_knopoff_decluster ROps argsort cat w p = Ok (vcl, vmain, flag) ->
  nth_error cat k = Some e -> nth_error flag k = Some (-1)%Z ->
  exists c i main f dt,
    nth_error vcl k = Some c /\ nth_error cat i = Some main /\
    (forall k' e', nth_error cat k' = Some e' -> nth_error vcl k' = Some c ->
       @in_window ROps w p main e' = true) /\
    @window_calc ROps w = Ok f /\ @delay ROps main e = Some dt /\
    - p * snd (f (ev_mw main)) <= dt < 0.
Proof. exact C20_proof. Qed.
Print Assumptions C20_gk_foreshock_window.

Theorem C20_gk_no_foreshocks_without_window : forall argsort cat w vcl vmain flag,
  @is_argsort ROps argsort ->
  @gardner_knopoff_decluster ROps argsort cat w 0 = Ok (vcl, vmain, flag) ->
  ~ In (-1)%Z flag.
Proof. exact C20_none_proof. Qed.
Print Assumptions C20_gk_no_foreshocks_without_window.

(** With proportion 1 the M5 of the same catalogue is a foreshock of the M7. *)
Example C20_case : forall argsort, @is_argsort ROps argsort -> sorts argsort ->
  exists vmain, @gardner_knopoff_decluster ROps argsort w19 TDW_GARDNERKNOPOFF 1
  = Ok ([1; 1; 0]%nat, vmain, [0; -1; 0]%Z).
Proof. exact C20_case_proof. Qed.

Theorem C21_gk_row_order_irrelevant : forall argsort argsort' cat cat' w fs vcl vmain flag,
  @is_argsort ROps argsort -> sorts argsort ->
  @is_argsort ROps argsort' -> sorts argsort' ->
  Permutation cat cat' -> NoDup (map ev_mw cat) ->
  @gardner_knopoff_decluster ROps argsort cat w fs = Ok (vcl, vmain, flag) ->
  exists vcl' vmain' flag',
    @gardner_knopoff_decluster ROps argsort' cat' w fs = Ok (vcl', vmain', flag') /\
    (forall k k' e, nth_error cat k = Some e -> nth_error cat' k' = Some e ->
       nth_error vcl k = nth_error vcl' k' /\ nth_error flag k = nth_error flag' k') /\
    Permutation vmain vmain'.
Proof. exact C21_proof. Qed.
Print Assumptions C21_gk_row_order_irrelevant.

Example C21_case : NoDup (map ev_mw w19) /\ Permutation w19 (rev w19) /\ w19 <> rev w19.
Proof.
  split; [|split].
  - cbn. repeat constructor; cbn; intros H; repeat destruct H as [H|H]; try lra; contradiction.
  - apply Permutation_rev.
  - cbn. intros H. injection H. intros; lra.
Qed.

(** The same for AFTERAN. *)
Theorem C21_afteran_row_order_irrelevant : forall argsort argsort' cat cat' w tw vcl vmain flag,
  @is_argsort ROps argsort -> sorts argsort ->
  @is_argsort ROps argsort' -> sorts argsort' ->
  Permutation cat cat' -> NoDup (map ev_mw cat) ->
  @afteran_decluster ROps argsort cat w tw = Ok (vcl, vmain, flag) ->
  exists vcl' vmain' flag',
    @afteran_decluster ROps argsort' cat' w tw = Ok (vcl', vmain', flag') /\
    (forall k k' e, nth_error cat k = Some e -> nth_error cat' k' = Some e ->
       nth_error vcl k = nth_error vcl' k' /\ nth_error flag k = nth_error flag' k') /\
    Permutation vmain vmain'.
Proof. exact C21_afteran_proof. Qed.
Print Assumptions C21_afteran_row_order_irrelevant.

(** ** AFTERAN *)

(** Over the reals the function succeeds on every non-empty catalogue with valid months. *)
Theorem C22_afteran_succeeds : forall argsort cat w tw years f,
  @is_argsort ROps argsort -> cat <> [] ->
  @decimal_year ROps cat = Ok years -> @window_calc ROps w = Ok f ->
  exists r, @afteran_decluster ROps argsort cat w tw = Ok r.
Proof. exact af_ok. Qed.
Print Assumptions C22_afteran_succeeds.

Theorem C22_afteran_one_main_shock : forall argsort cat w tw vcl vmain flag,
  @is_argsort ROps argsort -> sorts argsort ->
  @afteran_decluster ROps argsort cat w tw = Ok (vcl, vmain, flag) ->
  exists n, (forall c, In c vcl -> (c <= n)%nat) /\
    forall c, (0 < c <= n)%nat ->
      exists k main, nth_error cat k = Some main /\
        nth_error vcl k = Some c /\ nth_error flag k = Some 0%Z /\
        (exists k', k' <> k /\ nth_error vcl k' = Some c) /\
        forall k' e', nth_error cat k' = Some e' -> nth_error vcl k' = Some c ->
          ev_mw e' <= ev_mw main /\ (nth_error flag k' = Some 0%Z -> k' = k).
Proof. exact C22_proof. Qed.
Print Assumptions C22_afteran_one_main_shock.

Theorem C23_afteran_shape : forall (AR : Ops) argsort, is_argsort argsort ->
  forall (cat : list (event AR)) w tw vcl vmain flag,
  afteran_decluster argsort cat w tw = Ok (vcl, vmain, flag) ->
  length vcl = length cat /\ length flag = length cat /\
  (forall z, In z flag -> z = 0%Z \/ z = 1%Z \/ z = (-1)%Z) /\
  vmain = map fst (filter (fun p => Z.eqb (snd p) 0) (combine cat flag)) /\
  (forall k, nth_error vcl k = Some 0%nat -> nth_error flag k = Some 0%Z) /\
  vmain <> [].
Proof. exact (@C23_proof). Qed.
Print Assumptions C23_afteran_shape.

Example C22_C23_case : forall argsort, @is_argsort ROps argsort -> sorts argsort ->
  @afteran_decluster ROps argsort w24 TDW_GARDNERKNOPOFF 60
  = Ok ([1; 0; 1]%nat, firstn 2 w24, [0; 0; 1]%Z).
Proof. exact C24_witness. Qed.

(** C24 is false: in the catalogue [w24] the M5 is put into the cluster of the M7 because
    both are near an old M6.9, although it is farther from the M7 than the M7's distance
    window. *)
Theorem C24_afteran_members_near_main_refuted : exists (cat : list revent),
  forall argsort, @is_argsort ROps argsort -> sorts argsort ->
  exists vcl vmain flag,
    @afteran_decluster ROps argsort cat TDW_GARDNERKNOPOFF 60 = Ok (vcl, vmain, flag) /\
    exists k main k' e' c f, nth_error cat k = Some main /\ nth_error cat k' = Some e' /\
      c <> 0%nat /\ nth_error vcl k = Some c /\ nth_error vcl k' = Some c /\
      nth_error flag k = Some 0%Z /\
      @window_calc ROps TDW_GARDNERKNOPOFF = Ok f /\
      fst (f (ev_mw main)) < @event_dist ROps e' main.
Proof.
  exact (ex_intro _ w24 (fun argsort AS SO =>
    ex_intro _ [1; 0; 1]%nat (ex_intro _ (firstn 2 w24) (ex_intro _ [0; 0; 1]%Z
      (conj (C24_witness argsort AS SO) C24_facts))))).
Qed.
Print Assumptions C24_afteran_members_near_main_refuted.

(** What holds: every member is within twice the distance window of the kept event.  Missing
    compared with C24: the factor 2. *)
Theorem C24_afteran_members_near_main_partial : forall argsort cat w tw vcl vmain flag,
  @is_argsort ROps argsort -> sorts argsort ->
  @afteran_decluster ROps argsort cat w tw = Ok (vcl, vmain, flag) ->
  (forall e, In e cat -> 0 <= ev_mw e) ->
  forall k main c k' e', nth_error cat k = Some main -> nth_error vcl k = Some c ->
    nth_error flag k = Some 0%Z -> c <> 0%nat ->
    nth_error cat k' = Some e' -> nth_error vcl k' = Some c ->
    exists f, @window_calc ROps w = Ok f /\
      @event_dist ROps e' main <= 2 * fst (f (ev_mw main)).
Proof. exact C24_partial_proof. Qed.
Print Assumptions C24_afteran_members_near_main_partial.

Example C24_case : forall e, In e w24 -> 0 <= ev_mw e.
Proof. intros e [<-|[<-|[<-|[]]]]; cbn; lra. Qed.

(** C25, aftershock half, every arithmetic: the first event is marked, and a later event is
    marked exactly when it is at or after the most recently marked event p and at most the
    time window after it. *)
Theorem C25_aftershock_chain : forall (AR : Ops) (tw : T) (l : list T) (v : list bool),
  find_aftershocks l tw = Ok v ->
  length v = length l /\ nth 0 v false = true /\
  forall p j dp d, (p < j)%nat -> nth_error l p = Some dp -> nth_error l j = Some d ->
    nth p v false = true -> (forall q, (p < q < j)%nat -> nth q v false = false) ->
    nth j v false = leb (ofZ 0) (sub d dp) && leb (sub d dp) tw.
Proof. exact (@fa_spec). Qed.
Print Assumptions C25_aftershock_chain.

Example C25_case : @find_aftershocks ROps [0; 1; -1; 4; 2] 2 = Ok [true; true; false; false; true].
Proof. cbn. rdec. cbn. rdec. cbn. rdec. cbn. rdec. reflexivity. Qed.

(** C25, foreshock half, is false: an event that is not an aftershock, at most the time
    window before the first event, with no other foreshock, is not marked. *)
Theorem C25_foreshock_chain_refuted :
  exists dtime tw v1 v2,
    @find_aftershocks ROps dtime tw = Ok v1 /\ @find_foreshocks ROps dtime tw v1 = Ok v2 /\
    exists j d0 dj, (0 < j)%nat /\ nth_error dtime 0 = Some d0 /\ nth_error dtime j = Some dj /\
      nth j v1 false = false /\ (forall q, (q < j)%nat -> nth q v2 false = false) /\
      - tw <= dj - d0 <= 0 /\ nth j v2 false = false.
Proof. exact C25_foreshock_refuted_proof. Qed.
Print Assumptions C25_foreshock_chain_refuted.

(** What holds, every arithmetic: no false marks, and no missed event unless the event just
    before it in the list is marked as an aftershock.  p is the most recently marked
    foreshock, or the first event. *)
Theorem C25_foreshock_chain_partial : forall (AR : Ops) (tw : T) (l : list T) (a v : list bool),
  find_foreshocks l tw a = Ok v -> length a = length l ->
  length v = length l /\ nth 0 v false = false /\
  forall p j dp d, (p < j)%nat -> nth_error l p = Some dp -> nth_error l j = Some d ->
    (p = 0%nat \/ nth p v false = true) ->
    (forall q, (p < q < j)%nat -> nth q v false = false) ->
    (nth j v false = true ->
       nth j a false = false /\ leb (sub d dp) (ofZ 0) && leb (neg tw) (sub d dp) = true) /\
    (nth j a false = false -> (j = 1%nat \/ nth (j - 1) a false = false) ->
       nth j v false = leb (sub d dp) (ofZ 0) && leb (neg tw) (sub d dp)).
Proof. exact (@ff_spec). Qed.
Print Assumptions C25_foreshock_chain_partial.

Example C25_foreshock_case :
  @find_aftershocks ROps [0; -1; -3; 5; 1] 2 = Ok [true; false; false; false; true] /\
  @find_foreshocks ROps [0; -1; -3; 5; 1] 2 [true; false; false; false; true]
  = Ok [false; true; true; false; false].
Proof.
  split.
  - cbn. rdec. cbn. rdec. cbn. rdec. cbn. rdec. reflexivity.
  - cbn. rdec. cbn. rdec. cbn. rdec. reflexivity.
Qed.

(** ** C107: the clusters of AFTERAN are chains in time *)

(** Every flagged event is reached from the kept event of its cluster through flagged events
    of the cluster, each at most time_window days (of a 365-day year) from the one before. *)
Theorem C107_afteran_time_chain : forall argsort cat w days vcl vmain flag,
  @is_argsort ROps argsort -> sorts argsort ->
  @afteran_decluster ROps argsort cat w days = Ok (vcl, vmain, flag) ->
  forall k c z, nth_error vcl k = Some c -> nth_error flag k = Some z -> z <> 0%Z ->
  time_chain cat vcl flag c z (days / 365) k.
Proof. exact C107_proof. Qed.
Print Assumptions C107_afteran_time_chain.

(** So aftershocks are at or after the kept event and foreshocks at or before it. *)
Theorem C107_afteran_time_order : forall argsort cat w days vcl vmain flag,
  @is_argsort ROps argsort -> sorts argsort ->
  @afteran_decluster ROps argsort cat w days = Ok (vcl, vmain, flag) ->
  forall k main k' e c, c <> 0%nat ->
    nth_error cat k = Some main -> nth_error vcl k = Some c -> nth_error flag k = Some 0%Z ->
    nth_error cat k' = Some e -> nth_error vcl k' = Some c ->
    exists dt, @delay ROps main e = Some dt /\
      (nth_error flag k' = Some 1%Z -> 0 <= dt) /\
      (nth_error flag k' = Some (-1)%Z -> dt <= 0).
Proof. exact C107_order_proof. Qed.
Print Assumptions C107_afteran_time_order.

Example C107_case : forall argsort, @is_argsort ROps argsort -> sorts argsort ->
  time_chain w24 [1; 0; 1]%nat [0; 0; 1]%Z 1 1 (60 / 365) 2.
Proof.
  intros argsort AS SO.
  exact (C107_proof argsort w24 _ _ _ _ _ AS SO (C24_witness argsort AS SO) 2 1 1%Z
           eq_refl eq_refl ltac:(discriminate)).
Qed.
