(** Properties C98-C101: what the analyses do not depend on. *)
From Coq Require Import Reals ZArith Bool Arith Lia Lra String List Permutation.
From Verif Require Import Base Ops RFacts CatUtil Decluster DeclusterSpec Completeness Recurrence MaxMag
  FloatOps HeapSort Demo FrameSpec SteppProofs RecurrenceProofs DeclusterR OrderProofs FrameProofs EpochProofs OrderW.
Import ListNotations.
Local Open Scope R_scope.

(** C98.  Both recurrence methods give the same four numbers, or the same error, for the same
    events in another order. *)
Theorem C98_recurrence_ignores_order : forall fuel (evs evs' tab : list (R * R)) window alg ref twin,
  Permutation evs evs' ->
  @recurrence_analysis ROps fuel (map fst evs) (map snd evs) tab window alg ref twin
  = @recurrence_analysis ROps fuel (map fst evs') (map snd evs') tab window alg ref twin.
Proof. exact C98_proof. Qed.
Print Assumptions C98_recurrence_ignores_order.

(** The uncertainty of Kijko's estimate depends on the order when several events share the
    largest magnitude: it is computed from the first of them. *)
Theorem C98_kijko_ignores_order_refuted : exists (evs evs' : list (R * R)) r r',
  Permutation evs evs' /\
  @kijko_nonparametric_gauss ROps 12 (map fst evs) (map snd evs) 100 51 (1 / 1000) 10 None = Ok r /\
  @kijko_nonparametric_gauss ROps 12 (map fst evs') (map snd evs') 100 51 (1 / 1000) 10 None = Ok r' /\
  snd r < snd r'.
Proof. exact C98_kijko_refuted_proof. Qed.
Print Assumptions C98_kijko_ignores_order_refuted.

(** The estimate itself does not depend on it, and the uncertainty does not either when the
    events of the largest magnitude have the same uncertainty. *)
Theorem C98_kijko_ignores_order_partial : forall fuel (evs evs' : list (R * R)) neq nsamp tol maxit,
  Permutation evs evs' ->
  let run l := @kijko_nonparametric_gauss ROps fuel (map fst l) (map snd l) neq nsamp tol maxit None in
  (forall mmax sigma, run evs = Ok (mmax, sigma) -> exists sigma', run evs' = Ok (mmax, sigma')) /\
  ((forall m s s', In (m, s) evs -> In (m, s') evs -> (forall p, In p evs -> fst p <= m) -> s = s') ->
   run evs = run evs').
Proof. exact C98_kijko_proof. Qed.
Print Assumptions C98_kijko_ignores_order_partial.

(** Three events in two orders, a table of two rows. *)
Example C98_case :
  Permutation [(1995, 4); (1985, 5); (1992, 55/10)] [(1992, 55/10); (1985, 5); (1995, 4)] /\
  @recurrence_analysis ROps 5 [1995; 1985; 1992] [4; 5; 55/10] [(1990, 4); (1980, 5)] (1/10) "MLE" 5 1
  = @recurrence_analysis ROps 5 [1992; 1985; 1995] [55/10; 5; 4] [(1990, 4); (1980, 5)] (1/10) "MLE" 5 1.
Proof.
  assert (P : Permutation [(1995, 4); (1985, 5); (1992, 55/10)] [(1992, 55/10); (1985, 5); (1995, 4)])
    by (apply (Permutation_rev [_; _; _])).
  split; [exact P|]. exact (C98_recurrence_ignores_order 5 _ _ [(1990, 4); (1980, 5)] (1/10) "MLE" 5 1 P).
Qed.

(** C99.  Counting years from another epoch, turning the globe, or writing longitudes with other
    multiples of 360 degrees changes no cluster number and no flag, for either method. *)
Theorem C99_declustering_frame : forall c d f, new_frame c d f -> forall argsort cat w p,
  (forall vcl vmain flag, @gardner_knopoff_decluster ROps argsort cat w p = Ok (vcl, vmain, flag) ->
     @gardner_knopoff_decluster ROps argsort (map f cat) w p = Ok (vcl, map f vmain, flag)) /\
  (forall vcl vmain flag, @afteran_decluster ROps argsort cat w p = Ok (vcl, vmain, flag) ->
     @afteran_decluster ROps argsort (map f cat) w p = Ok (vcl, map f vmain, flag)).
Proof. exact C99_proof. Qed.
Print Assumptions C99_declustering_frame.

(** Longitudes from 0 to 360 instead of -180 to 180 are such a change. *)
Definition east (e : revent) : revent :=
  if Rltb (ev_lon e) 0 then @mkEvent ROps (ev_year e) (ev_month e) (ev_day e) (ev_lon e + 360) (ev_lat e) (ev_mw e) (ev_sigma e)
  else e.

Example C99_case : new_frame 0 0 east /\
  forall argsort, @is_argsort ROps argsort -> sorts argsort ->
  exists vmain, @gardner_knopoff_decluster ROps argsort (map east w19) TDW_GARDNERKNOPOFF 1
  = Ok ([1; 1; 0]%nat, vmain, [0; -1; 0]%Z).
Proof.
  assert (N : new_frame 0 0 east).
  { intros e. unfold east. destruct (Rltb (ev_lon e) 0); cbn [ev_year ev_month ev_day ev_lon ev_lat ev_mw].
    - split; [symmetry; apply Rplus_0_r|]. do 4 (split; [reflexivity|]). exists 1%Z. change (@eq R (ev_lon e + 360) (ev_lon e + 0 + 360 * 1)). ring.
    - split; [symmetry; apply Rplus_0_r|]. do 4 (split; [reflexivity|]). exists 0%Z. assert (G : forall x : R, x = x + 0 + 360 * 0) by (intros; ring). apply G. }
  split; [exact N|]. intros argsort A S. destruct (C20_case_proof argsort A S) as [vmain H].
  exists (map east vmain). exact (proj1 (C99_declustering_frame 0 0 east N argsort w19 TDW_GARDNERKNOPOFF 1) _ _ _ H).
Qed.

(** C100.  Counting years from another epoch, in the catalogue and in the completeness table,
    moves the years of Stepp's table by the same amount and changes nothing else. *)
Theorem C100_epoch : forall c (year mag sig : list R) (tab : list (R * R)),
  (forall dm dt ttol iloc tab', @stepp_analysis ROps year mag dm dt ttol iloc = Ok tab' ->
     @stepp_analysis ROps (later c year) mag dm dt ttol iloc = Ok (later_table c tab')) /\
  (forall flags, @selected_eq_flag_vector ROps (later c year) mag (later_table c tab) flags
               = @selected_eq_flag_vector ROps year mag tab flags) /\
  (forall fuel window alg ref twin,
     @recurrence_analysis ROps fuel (later c year) mag (later_table c tab) window alg ref twin
     = @recurrence_analysis ROps fuel year mag tab window alg ref twin) /\
  (forall fuel alg tol maxit neq ns normals,
     @maximum_magnitude_analysis ROps fuel (later c year) mag sig alg tol maxit neq ns normals
     = @maximum_magnitude_analysis ROps fuel year mag sig alg tol maxit neq ns normals).
Proof. exact C100_proof. Qed.
Print Assumptions C100_epoch.

Example C100_case :
  @stepp_analysis ROps (later (-1900) w_year) w_mw (1/10) 1 (2/10) false
  = Ok (later_table (-1900) [(1998, 4); (1998, 41/10)]).
Proof. exact (proj1 (C100_epoch (-1900) w_year w_mw [] []) _ _ _ _ _ w_table). Qed.

(** C101.  With equal magnitudes the order of the rows matters (C21 is the case of distinct
    magnitudes): three shocks of the same magnitude leave two main shocks in one order and one
    in another, for either method, in binary64 and with the sort numpy uses. *)
Theorem C101_order_with_ties_refuted :
  is_argsort (@heap_argsort FL) /\
  (exists (cat cat' : list (event FL)) w fs vcl vmain flag vcl' vmain' flag',
    Permutation cat cat' /\
    @gardner_knopoff_decluster FL (@heap_argsort FL) cat w fs = Ok (vcl, vmain, flag) /\
    @gardner_knopoff_decluster FL (@heap_argsort FL) cat' w fs = Ok (vcl', vmain', flag') /\
    length vmain <> length vmain') /\
  (exists (cat cat' : list (event FL)) w tw vcl vmain flag vcl' vmain' flag',
    Permutation cat cat' /\
    @afteran_decluster FL (@heap_argsort FL) cat w tw = Ok (vcl, vmain, flag) /\
    @afteran_decluster FL (@heap_argsort FL) cat' w tw = Ok (vcl', vmain', flag') /\
    length vmain <> length vmain').
Proof. exact C101_refuted_proof. Qed.
Print Assumptions C101_order_with_ties_refuted.
