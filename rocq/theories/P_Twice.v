(** C95, C96: the result of Gardner-Knopoff declustering, declustered again and explained. *)
From Coq Require Import Reals ZArith Bool String List Permutation Lra.
From Verif Require Import Base Ops RFacts FloatOps Libm CatUtil PyFloat World CatalogFilter
  Decluster DeclusterSpec DeclusterProofs GeoProofs DeclusterR HeapSort GkTwice GkLocal GkTwiceW Demo.
Import ListNotations.

(** C95 is false: with the sort numpy uses, the default windows and foreshock proportion 0,
    the events kept by one run (M5, M5, M7) are not all kept by a second: it removes the M7. *)
Theorem C95_declustering_twice_refuted :
  is_argsort (@heap_argsort FL) /\
  exists (cat : list (event FL)) w fs vcl vmain flag vcl2 vmain2 flag2,
    @gardner_knopoff_decluster FL (@heap_argsort FL) cat w fs = Ok (vcl, vmain, flag) /\
    @gardner_knopoff_decluster FL (@heap_argsort FL) vmain w fs = Ok (vcl2, vmain2, flag2) /\
    vmain2 <> vmain.
Proof. exact C95_refuted_proof. Qed.
Print Assumptions C95_declustering_twice_refuted.

(** What holds, every arithmetic: the second run removes nothing when the event that the
    sort puts first (the smallest, which the loop never visits) is removed by the first run,
    or is again put first among the kept events. *)
Theorem C95_declustering_twice_partial : forall (AR : Ops) argsort, is_argsort argsort ->
  forall (cat : list (event AR)) w fs vcl vmain flag vcl2 vmain2 flag2,
  gardner_knopoff_decluster argsort cat w fs = Ok (vcl, vmain, flag) ->
  gardner_knopoff_decluster argsort vmain w fs = Ok (vcl2, vmain2, flag2) ->
  (forall k, nth_error (argsort (map ev_mw cat)) 0 = Some k -> nth_error flag k = Some 0%Z ->
     nth_error (argsort (map ev_mw vmain)) 0
     = Some (length (filter (fun z => Z.eqb z 0) (firstn k flag)))) ->
  flag2 = repeat 0%Z (length vmain) /\ vmain2 = vmain.
Proof. exact (@C95_proof). Qed.
Print Assumptions C95_declustering_twice_partial.

(** Over the reals: so it is when only one event has the smallest magnitude. *)
Theorem C95_declustering_twice_one_smallest_partial : forall argsort,
  @is_argsort ROps argsort -> sorts argsort ->
  forall (cat : list revent) w fs vcl vmain flag,
  @gardner_knopoff_decluster ROps argsort cat w fs = Ok (vcl, vmain, flag) ->
  (forall k e k' e', nth_error cat k = Some e -> nth_error cat k' = Some e' -> k' <> k ->
     (forall x, In x cat -> (ev_mw e <= ev_mw x)%R) -> (ev_mw e < ev_mw e')%R) ->
  exists vcl2, @gardner_knopoff_decluster ROps argsort vmain w fs
               = Ok (vcl2, vmain, repeat 0%Z (length vmain)).
Proof. exact C95_real_proof. Qed.
Print Assumptions C95_declustering_twice_one_smallest_partial.

(** [w19] (an M7, an M5 one day earlier, an old M4) has one smallest event and loses the M7. *)
Example C95_case : forall argsort, @is_argsort ROps argsort -> sorts argsort ->
  @gardner_knopoff_decluster ROps argsort w19 TDW_GARDNERKNOPOFF 0%R
  = Ok ([1; 1; 0]%nat, tl w19, [1; 0; 0]%Z) /\
  (forall k e k' e', nth_error w19 k = Some e -> nth_error w19 k' = Some e' -> k' <> k ->
     (forall x, In x w19 -> (ev_mw e <= ev_mw x)%R) -> (ev_mw e < ev_mw e')%R).
Proof.
  intros argsort AS SO. split. exact (C19_witness argsort AS SO).
  intros k e k' e' H H' N A.
  assert (A2 : (ev_mw e <= 4)%R) by (apply (A (nth 2 w19 e)); cbn; auto).
  destruct k as [|[|[|k]]]; cbn in H; try (destruct k; discriminate); injection H as <-; cbn in A2; try lra.
  destruct k' as [|[|[|k']]]; cbn in H'; try (destruct k'; discriminate); injection H' as <-; cbn; try lra.
  congruence.
Qed.

(** C96 is false: the default windows, proportion 0, an M7, an M5 the day before and an M4.9
    500 days after.  The M4.9 goes with the M7, the M7 then goes with the M5, and the M4.9
    is in the window of no kept event. *)
Theorem C96_removed_events_explained_refuted :
  exists (cat : list (event FL)) w fs vcl vmain flag,
    @gardner_knopoff_decluster FL (@heap_argsort FL) cat w fs = Ok (vcl, vmain, flag) /\
    exists k e z, nth_error cat k = Some e /\ nth_error flag k = Some z /\ z <> 0%Z /\
    forall k' e', nth_error cat k' = Some e' -> nth_error flag k' = Some 0%Z ->
      @in_window FL w fs e' e = false.
Proof. exact C96_refuted_proof. Qed.
Print Assumptions C96_removed_events_explained_refuted.

(** What holds over the reals: with foreshock proportion 1 and windows that do not shrink
    with the magnitude.  Missing: other proportions. *)
Theorem C96_removed_events_explained_partial : forall argsort,
  @is_argsort ROps argsort -> sorts argsort ->
  forall (cat : list revent) w f vcl vmain flag k e z,
  @gardner_knopoff_decluster ROps argsort cat w 1%R = Ok (vcl, vmain, flag) ->
  @window_calc ROps w = Ok f ->
  (forall x y, In x cat -> In y cat -> (ev_mw x <= ev_mw y)%R ->
     (fst (f (ev_mw x)) <= fst (f (ev_mw y)))%R /\ (snd (f (ev_mw x)) <= snd (f (ev_mw y)))%R) ->
  nth_error cat k = Some e -> nth_error flag k = Some z -> z <> 0%Z ->
  exists k' e', nth_error cat k' = Some e' /\ nth_error flag k' = Some 0%Z /\
    @in_window ROps w 1%R e' e = true.
Proof. exact C96_partial_proof. Qed.
Print Assumptions C96_removed_events_explained_partial.

(** The Uhrhammer windows do not shrink on any catalogue. *)
Example C96_case : exists f, @window_calc ROps TDW_UHRHAMMER = Ok f /\
  forall x y, In x w19 -> In y w19 -> (ev_mw x <= ev_mw y)%R ->
     (fst (f (ev_mw x)) <= fst (f (ev_mw y)))%R /\ (snd (f (ev_mw x)) <= snd (f (ev_mw y)))%R.
Proof.
  eexists. split; [reflexivity|]. intros x y _ _ H. exact (uhrhammer_mono _ _ H).
Qed.

(** C97 is false: an M7 and an M5 the day before, default windows, proportion 0, are both
    kept; together with an M4 forty years earlier, in no window, the M7 is removed.  (The
    smallest event of a catalogue is never tried as a main shock.) *)
Theorem C97_far_event_changes_nothing_refuted :
  exists (cat : list (event FL)) e w fs vcl vmain flag vcl' vmain' flag',
    @gardner_knopoff_decluster FL (@heap_argsort FL) cat w fs = Ok (vcl, vmain, flag) /\
    @gardner_knopoff_decluster FL (@heap_argsort FL) (cat ++ [e]) w fs = Ok (vcl', vmain', flag') /\
    (forall x, In x cat -> @in_window FL w fs e x = false /\ @in_window FL w fs x e = false) /\
    exists k, (k < length cat)%nat /\ nth_error flag k = Some 0%Z /\ nth_error flag' k = Some 1%Z.
Proof. exact C97_refuted_proof. Qed.
Print Assumptions C97_far_event_changes_nothing_refuted.

(** What holds over the reals: an event added anywhere in the catalogue, in nobody's window
    and with nobody in its own, and larger than some other event, leaves the cluster and flag
    of every other event as they were and is itself kept.  Missing: equal magnitudes. *)
Theorem C97_far_event_changes_nothing_partial : forall argsort argsort' cat cat' e w fs vcl vmain flag,
  @is_argsort ROps argsort -> sorts argsort ->
  @is_argsort ROps argsort' -> sorts argsort' ->
  Permutation cat' (e :: cat) -> NoDup (map ev_mw cat') ->
  (exists t, @event_time ROps e = Ok t) ->
  (forall x, In x cat -> @in_window ROps w fs e x = false /\ @in_window ROps w fs x e = false) ->
  (exists x, In x cat /\ (ev_mw x < ev_mw e)%R) ->
  @gardner_knopoff_decluster ROps argsort cat w fs = Ok (vcl, vmain, flag) ->
  exists vcl' vmain' flag',
    @gardner_knopoff_decluster ROps argsort' cat' w fs = Ok (vcl', vmain', flag') /\
    (forall k k' x, nth_error cat k = Some x -> nth_error cat' k' = Some x ->
       nth_error vcl' k' = nth_error vcl k /\ nth_error flag' k' = nth_error flag k) /\
    Permutation vmain' (e :: vmain).
Proof. exact C97_proof. Qed.
Print Assumptions C97_far_event_changes_nothing_partial.

(** An M6 in 1800 added to [w19] meets the hypotheses. *)
Example C97_case : let e := (mkEvent (AR := ROps) 1800 1 1 10 45 6 0)%R in
  NoDup (map ev_mw (e :: w19)) /\ (exists t, @event_time ROps e = Ok t) /\
  (exists x, In x w19 /\ (ev_mw x < ev_mw e)%R) /\
  (forall x, In x w19 -> @in_window ROps TDW_UHRHAMMER 1%R e x = false /\
                         @in_window ROps TDW_UHRHAMMER 1%R x e = false).
Proof. exact C97_case_proof. Qed.
