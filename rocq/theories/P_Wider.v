(** C118: declustering with a wider window. *)
From Coq Require Import Reals ZArith Bool String List Permutation Lra.
From Verif Require Import Base Ops RFacts CatUtil Decluster DeclusterSpec DeclusterProofs DeclusterR HeapSort Demo
  GkWider AfWider WiderW P_Decluster P_Twice.
From Coq Require Import List.
Import ListNotations.

(** C118, full statement: a longer foreshock window (Gardner-Knopoff) or time window (AFTERAN) never leaves more
    main shocks.  It is false for both: the wider window takes the M5 into the cluster of the M7, and the M4 and
    the M3.9, which the M5 had removed, are kept instead.  Binary64 and the sort numpy uses. *)
Theorem C118_wider_window_refuted :
  is_argsort (@heap_argsort FL) /\
  (exists (cat : list (event FL)) w fs fs' vcl vmain flag vcl' vmain' flag',
    @ltb FL fs fs' = true /\
    @gardner_knopoff_decluster FL (@heap_argsort FL) cat w fs = Ok (vcl, vmain, flag) /\
    @gardner_knopoff_decluster FL (@heap_argsort FL) cat w fs' = Ok (vcl', vmain', flag') /\
    length vmain < length vmain') /\
  (exists (cat : list (event FL)) w tw tw' vcl vmain flag vcl' vmain' flag',
    @ltb FL tw tw' = true /\
    @afteran_decluster FL (@heap_argsort FL) cat w tw = Ok (vcl, vmain, flag) /\
    @afteran_decluster FL (@heap_argsort FL) cat w tw' = Ok (vcl', vmain', flag') /\
    length vmain < length vmain').
Proof. exact C118_refuted_proof. Qed.
Print Assumptions C118_wider_window_refuted.

(** What holds, for every sort: when the wider window removes nothing, neither does the narrower, and the results
    are the same.  Missing: windows that do remove something (refuted). *)
Theorem C118_gk_wider_partial : forall argsort, @is_argsort ROps argsort ->
  forall (cat : list (event ROps)) w (fs fs' : R) vcl flag, (fs <= fs')%R ->
  @gardner_knopoff_decluster ROps argsort cat w fs' = Ok (vcl, cat, flag) ->
  @gardner_knopoff_decluster ROps argsort cat w fs = Ok (vcl, cat, flag).
Proof. exact C118_partial_proof. Qed.
Print Assumptions C118_gk_wider_partial.

Theorem C118_afteran_wider_partial : forall argsort, @is_argsort ROps argsort ->
  forall (cat : list (event ROps)) w (tw tw' : R) vcl flag, (tw <= tw')%R ->
  @afteran_decluster ROps argsort cat w tw' = Ok (vcl, cat, flag) ->
  @afteran_decluster ROps argsort cat w tw = Ok (vcl, cat, flag).
Proof. exact C118_af_partial_proof. Qed.
Print Assumptions C118_afteran_wider_partial.

(** The events kept of [w19] with proportion 1: nothing is removed from them with proportion 1, nor with 0. *)
Example C118_case : forall argsort, @is_argsort ROps argsort -> sorts argsort -> exists vcl vmain flag,
  length vmain = 2 /\
  @gardner_knopoff_decluster ROps argsort vmain TDW_GARDNERKNOPOFF 1%R = Ok (vcl, vmain, flag) /\
  @gardner_knopoff_decluster ROps argsort vmain TDW_GARDNERKNOPOFF 0%R = Ok (vcl, vmain, flag).
Proof.
  intros argsort AS SO. destruct (C20_case argsort AS SO) as [vmain H].
  destruct (C95_declustering_twice_one_smallest_partial argsort AS SO _ _ _ _ _ _ H (proj2 (C95_case argsort AS SO))) as [vcl2 H2].
  exists vcl2, vmain, (repeat 0%Z (length vmain)). split.
  - destruct (C15_gk_shape ROps argsort AS w19 TDW_GARDNERKNOPOFF 1%R _ _ _ H) as [_ [_ [_ [-> _]]]]. reflexivity.
  - split; [exact H2|]. apply C118_gk_wider_partial with (fs' := 1%R); auto. lra.
Qed.
