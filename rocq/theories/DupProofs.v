(** Earthquakes listed twice and declustering (C140). *)
From Coq Require Import ZArith List Bool Arith Lia Permutation Reals Lra.
From Coq Require Import String Floats.SpecFloat.
From Verif Require Import Base Ops BaseFacts RFacts FloatOps Libm CatUtil PyFloat World Decluster DeclusterSpec DeclusterProofs
  GeoProofs DeclusterR GkTwice HeapSort Demo GkTwiceW DupSpec.
Import ListNotations.

Lemma one_not_first : forall (l : list nat) k k', k' <> k -> nth_error l 0 <> Some k \/ nth_error l 0 <> Some k'.
Proof. intros l k k' N. destruct (nth_error l 0) as [x|]; [|left; discriminate]. destruct (Nat.eq_dec x k); [right|left]; congruence. Qed.

Lemma C140_window_proof : forall (AR : Ops) argsort, is_argsort argsort ->
  forall (cat : list (event AR)) w fs vcl vmain flag k e k' e',
  gardner_knopoff_decluster argsort cat w fs = Ok (vcl, vmain, flag) ->
  nth_error cat k = Some e -> nth_error cat k' = Some e' -> k' <> k ->
  in_window w fs e e' = true -> in_window w fs e' e = true ->
  ~ (nth_error flag k = Some 0%Z /\ nth_error flag k' = Some 0%Z).
Proof.
  intros AR argsort AS cat w fs vcl vmain flag k e k' e' H He He' NE W1 W2 (F1 & F2).
  destruct (one_not_first (argsort (map ev_mw cat)) k k' NE) as [N|N].
  - rewrite (kept_clear argsort AS _ _ _ _ _ _ _ _ _ _ H He He' NE F1 F2 N) in W1. discriminate.
  - rewrite (kept_clear argsort AS _ _ _ _ _ _ _ _ _ _ H He' He (not_eq_sym NE) F2 F1 N) in W2. discriminate.
Qed.

(** Over the reals such events are in each other's window. *)
Lemma same_in_window : forall w fs f (e e' : event ROps) t, (0 <= fs)%R -> @window_calc ROps w = Ok f -> event_time e = Ok t ->
  same_date_and_place e e' -> @in_window ROps w fs e e' = true.
Proof.
  intros w fs f e e' t FS F T0 (Y & M & D & LO & LA).
  assert (T1 : event_time e' = Ok t) by (unfold event_time in *; now rewrite <- Y, <- M, <- D).
  unfold in_window, delay. rewrite F, T0, T1. destruct (windows_positive w f (ev_mw e) F) as (P1 & P2).
  destruct (f (ev_mw e)) as (space, twin). cbn [fst snd] in *.
  assert (Z : event_dist e' e = 0%R).
  { unfold event_dist. rewrite LO, LA. apply hav_self. }
  rewrite Z. change (@T ROps) with R in *. rops. rewrite !andb_true_iff, !Rleb_true. repeat split; nra.
Qed.

Lemma C140_gk_proof : forall argsort, @is_argsort ROps argsort -> forall (cat : list revent) w fs vcl vmain flag k e k' e',
  @gardner_knopoff_decluster ROps argsort cat w fs = Ok (vcl, vmain, flag) -> (0 <= fs)%R ->
  nth_error cat k = Some e -> nth_error cat k' = Some e' -> k' <> k -> same_date_and_place e e' ->
  ~ (nth_error flag k = Some 0%Z /\ nth_error flag k' = Some 0%Z).
Proof.
  intros argsort AS cat w fs vcl vmain flag k e k' e' H FS He He' NE S.
  assert (X : exists f t, @window_calc ROps w = Ok f /\ event_time e = Ok t).
  { unfold gardner_knopoff_decluster in H. destruct cat as [|e0 cat]; [discriminate|].
    destruct (decimal_year (e0 :: cat)) as [years|] eqn:Y; [|discriminate]. cbn [bind] in H.
    destruct (@window_calc ROps w) as [f|] eqn:F; [|discriminate]. exists f.
    unfold decimal_year in Y. destruct (event_time e) as [t|x] eqn:T0; [eauto|]. exfalso.
    clear - Y He T0. revert k years Y He. induction (e0 :: cat) as [|a l IH]; intros k years Y He; [destruct k; discriminate|].
    cbn [mapM] in Y. destruct k as [|k]; cbn in He.
    - injection He as ->. unfold event_time in T0. rewrite T0 in Y. discriminate.
    - destruct (decimal_year1 _ _ _); [|discriminate]. cbn [bind] in Y. destruct (mapM _ l) eqn:E; [|discriminate]. eapply IH; eauto. }
  destruct X as (f & t & F & T0).
  assert (S' : same_date_and_place e' e) by (destruct S as (S1 & S2 & S3 & S4 & S5); repeat split; congruence).
  assert (T1 : event_time e' = Ok t) by (destruct S as (S1 & S2 & S3 & _); unfold event_time in *; now rewrite <- S1, <- S2, <- S3).
  apply (C140_window_proof ROps argsort AS cat w fs vcl vmain flag k e k' e' H He He' NE).
  - eapply same_in_window; eauto.
  - eapply same_in_window; eauto.
Qed.

(** An old M7 and, at the same place, the same M5 listed twice. *)
Local Open Scope string_scope.
Definition w140 : list (event FL) := [ tev "1970" "1" "1" "7"; tev "1990" "1" "1" "5"; tev "1990" "1" "1" "5" ].

Lemma C140_run : @afteran_decluster FL (@heap_argsort FL) w140 TDW_GARDNERKNOPOFF (fl "60") = Ok ([0; 0; 0]%nat, w140, [0; 0; 0]%Z).
Proof. vm_cast_no_check (@eq_refl (res (list nat * list (event FL) * list Z)) (Ok ([0; 0; 0]%nat, w140, [0; 0; 0]%Z))). Qed.
Definition k140 : list (event FL) := [ tev "1970" "1" "1" "7"; tev "1990" "1" "1" "5" ].
Lemma C140_gk_run : @gardner_knopoff_decluster FL (@heap_argsort FL) w140 TDW_GARDNERKNOPOFF (fl "0") = Ok ([0; 1; 1]%nat, k140, [0; 1; 0]%Z).
Proof. vm_cast_no_check (@eq_refl (res (list nat * list (event FL) * list Z)) (Ok ([0; 1; 1]%nat, k140, [0; 1; 0]%Z))). Qed.

Lemma C140_afteran_refuted_proof : is_argsort (@heap_argsort FL) /\
  exists (cat : list (event FL)) w tw vcl vmain flag k e k',
    @afteran_decluster FL (@heap_argsort FL) cat w tw = Ok (vcl, vmain, flag) /\
    nth_error cat k = Some e /\ nth_error cat k' = Some e /\ k' <> k /\
    nth_error flag k = Some 0%Z /\ nth_error flag k' = Some 0%Z.
Proof.
  split; [apply heap_is_argsort|].
  exists w140, TDW_GARDNERKNOPOFF, (fl "60"), [0; 0; 0]%nat, w140, [0; 0; 0]%Z, 1%nat, (tev "1990" "1" "1" "5"), 2%nat.
  split; [exact C140_run|]. repeat split; try reflexivity. discriminate.
Qed.

(** Two rows of one date and place, over the reals; the sort is any argsort. *)
Lemma C140_case_proof :
  let e := @mkEvent ROps 1990%R 1%R 1%R 10%R 45%R 5%R 0%R in let e' := @mkEvent ROps 1990%R 1%R 1%R 10%R 45%R 6%R 0%R in
  same_date_and_place e e' /\ e <> e' /\
  (exists r, @gardner_knopoff_decluster FL (@heap_argsort FL) w140 TDW_GARDNERKNOPOFF (fl "0") = Ok r /\ snd r = [0; 1; 0]%Z).
Proof.
  cbn zeta. split; [repeat split|]. split; [intro E; injection E as E; lra|].
  eexists. split; [exact C140_gk_run|reflexivity].
Qed.
