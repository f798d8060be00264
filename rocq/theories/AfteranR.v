(** AFTERAN declustering over the reals: C22-C25. *)
From Coq Require Import ZArith List Bool Arith Lia Permutation Sorted Reals Lra.
From Verif Require Import Base Ops BaseFacts RFacts CatUtil Decluster DeclusterSpec CalendarSpec
  DeclusterProofs GeoProofs DeclusterR AfteranProofs.
Import ListNotations.
Local Open Scope R_scope.

(** ** Success *)

Lemma af_step_ok : forall tw rows st i ri, @af_inv ROps rows st ->
  nth_error rows i = Some ri -> @rnear ROps ri ri = true ->
  exists st', @af_step ROps tw rows (Ok st) i = Ok st'.
Proof.
  intros tw rows st i ri I Hi Self. unfold af_step. cbn [bind]. rewrite Hi.
  destruct (Nat.eqb_spec (nth i (d_vcl st) 0%nat) 0) as [E|E]; [|eauto].
  rewrite haversine_col_map, map_map.
  set (m := map2 (fun d c => leb d (s_space ri) && Nat.eqb c 0)
              (map (fun x => event_dist (s_ev x) (s_ev ri)) rows) (d_vcl st)) in *.
  assert (Lm : length m = length rows).
  { unfold m. rewrite length_map2, map_length, (ai_lv _ _ I). lia. }
  assert (Mi : nth_error m i = Some true).
  { unfold m. erewrite nth_error_map2 with (b := nth i (d_vcl st) 0%nat).
    2:{ apply map_nth_error; eauto. }
    2:{ apply nth_error_nth'. rewrite (ai_lv _ _ I). eapply nth_error_lt; eauto. }
    rewrite E. unfold rnear in Self. rewrite Self. auto. }
  set (dtime := map (fun r => sub (s_time r) (s_time ri)) (mask_get m rows)).
  assert (dtime <> []).
  { assert (In ri (mask_get m rows)) by (apply in_mask_get; eauto).
    unfold dtime. destruct (mask_get m rows). destruct H. discriminate. }
  destruct (fa_ok tw dtime H) as [v1 H1]. rewrite H1. cbn [bind].
  destruct (fa_spec _ _ _ H1) as (L1 & _).
  destruct dtime as [|d0 dt]; [congruence|]. destruct v1 as [|b v1]; [discriminate|].
  cbn [find_foreshocks bind]. destruct (Nat.ltb _ _); eauto.
Qed.

Lemma rnear_self : forall ri : srow ROps, 0 <= s_space ri -> @rnear ROps ri ri = true.
Proof. intros. unfold rnear. rewrite event_dist_self. rops. apply Rleb_true. auto. Qed.

Lemma af_ok : forall argsort cat w tw years f, @is_argsort ROps argsort -> cat <> [] ->
  @decimal_year ROps cat = Ok years -> @window_calc ROps w = Ok f ->
  exists r, @afteran_decluster ROps argsort cat w tw = Ok r.
Proof.
  intros argsort cat w tw years f AS NE HY HW. unfold afteran_decluster.
  destruct cat as [|e0 cat0]; [congruence|]. set (cat := e0 :: cat0) in *.
  rewrite HY. cbn [bind]. rewrite HW. cbn [bind].
  set (id0 := rev (argsort (map ev_mw cat))).
  set (rows := sorted_rows cat years f id0).
  assert (P : prep cat w id0 rows) by (apply prep_ok; auto).
  assert (PP := pr_perm _ _ _ _ P). assert (PL := pr_len _ _ _ _ P).
  rewrite <- PL.
  assert (G : forall m, (m <= length rows)%nat -> exists st,
     fold_left (@af_step ROps (tw / 365) rows) (seq 0 m)
       (Ok (mkD (repeat 0%nat (length rows)) (repeat 0%Z (length rows)) 0)) = Ok st).
  { induction m; intros Hm.
    - simpl. eauto.
    - destruct (IHm ltac:(lia)) as [st Hst]. rewrite seq_S, fold_left_app, Hst.
      cbn [fold_left Nat.add]. destruct (nth_error_ex _ rows m) as [ri Hri]; [lia|].
      apply af_step_ok with (ri := ri); auto.
      { apply (@af_inv_loop ROps (tw / 365) rows m st); auto. lia. }
      apply rnear_self.
      destruct (spos_onto _ _ PP m) as (k & Hk & Sk). lia.
      destruct (nth_error_ex _ cat k Hk) as [e He].
      destruct (pr_row _ _ _ _ P _ _ He) as (f1 & t & HW1 & _ & R1).
      rewrite Sk, Hri in R1. injection R1; intros ->. simpl.
      destruct (windows_positive w f1 (ev_mw e) HW1) as [Q _]. left. exact Q. }
  destruct (G (length rows) (Nat.le_refl _)) as [st Hst].
  rops. rewrite Hst. cbn [bind]. eauto.
Qed.

(** ** C22 *)

Lemma spos_mw : forall argsort (cat : list revent) k k' e e',
  @is_argsort ROps argsort -> sorts argsort ->
  nth_error cat k = Some e -> nth_error cat k' = Some e' ->
  (spos (rev (argsort (map ev_mw cat))) k <= spos (rev (argsort (map ev_mw cat))) k')%nat ->
  (ev_mw e' : R) <= ev_mw e.
Proof.
  intros argsort cat k k' e e' AS SO He He' Le.
  set (id0 := rev (argsort (map ev_mw cat))) in *.
  assert (PP : Permutation id0 (seq 0 (length cat))).
  { unfold id0. rewrite <- Permutation_rev. rewrite <- (map_length ev_mw cat). apply AS. }
  assert (K := nth_error_lt _ _ _ _ He). assert (K' := nth_error_lt _ _ _ _ He').
  assert (N := spos_nth _ _ PP k K). assert (N' := spos_nth _ _ PP k' K').
  assert (B := spos_lt _ _ PP k K). assert (B' := spos_lt _ _ PP k' K').
  destruct (Nat.eq_dec (spos id0 k) (spos id0 k')) as [E|E].
  { apply (spos_inj _ _ PP) in E; auto. subst k'. replace e' with e by congruence. apply Rle_refl. }
  set (l := argsort (map ev_mw cat)) in *.
  assert (LL : length l = length cat).
  { unfold l. rewrite (Permutation_length (AS (map ev_mw cat))), seq_length, map_length. auto. }
  assert (RI : forall q x, nth_error id0 q = Some x -> nth_error l (length l - S q) = Some x).
  { intros q x Hx. unfold id0 in Hx.
    assert (q < length l)%nat by (rewrite <- rev_length; eapply nth_error_lt; eauto).
    apply nth_error_nth with (d := 0%nat) in Hx. rewrite rev_nth in Hx by auto.
    rewrite <- Hx. apply nth_error_nth'. lia. }
  apply RI in N. apply RI in N'.
  apply (sorts_mw argsort cat (length l - S (spos id0 k')) (length l - S (spos id0 k)) k' k); auto.
  lia.
Qed.

Lemma C22_proof : forall argsort cat w tw vcl vmain flag,
  @is_argsort ROps argsort -> sorts argsort ->
  @afteran_decluster ROps argsort cat w tw = Ok (vcl, vmain, flag) ->
  exists n, (forall c, In c vcl -> (c <= n)%nat) /\
    forall c, (0 < c <= n)%nat ->
      exists k main, nth_error cat k = Some main /\
        nth_error vcl k = Some c /\ nth_error flag k = Some 0%Z /\
        (exists k', k' <> k /\ nth_error vcl k' = Some c) /\
        forall k' e', nth_error cat k' = Some e' -> nth_error vcl k' = Some c ->
          ev_mw e' <= ev_mw main /\ (nth_error flag k' = Some 0%Z -> k' = k).
Proof.
  intros argsort cat w tw vcl vmain flag AS SO H.
  destruct (@C22_generic ROps argsort AS _ _ _ _ _ _ H) as (n & Hn & M).
  exists n. split; auto. intros c Hc.
  destruct (M c Hc) as (k & main & centre & H1 & H2 & H3 & _ & H4 & _ & H5).
  exists k, main. split; auto. split; auto. split; auto. split; auto.
  intros k' e' He' Hv. destruct (H5 k' e' He' Hv) as [_ [->|[F S]]].
  - split; auto. replace e' with main by congruence. apply Rle_refl.
  - split; [|congruence]. apply (spos_mw argsort cat k k' main e' AS SO); auto. lia.
Qed.

(** ** C24 *)

Lemma space_mono : forall w f m m', @window_calc ROps w = Ok f -> 0 <= m -> m <= m' ->
  fst (f m) <= fst (f m').
Proof. intros. apply (C26_partial_proof w f m m'); auto. Qed.

Lemma C24_partial_proof : forall argsort cat w tw vcl vmain flag,
  @is_argsort ROps argsort -> sorts argsort ->
  @afteran_decluster ROps argsort cat w tw = Ok (vcl, vmain, flag) ->
  (forall e, In e cat -> 0 <= ev_mw e) ->
  forall k main c k' e', nth_error cat k = Some main -> nth_error vcl k = Some c ->
    nth_error flag k = Some 0%Z -> c <> 0%nat ->
    nth_error cat k' = Some e' -> nth_error vcl k' = Some c ->
    exists f, @window_calc ROps w = Ok f /\
      @event_dist ROps e' main <= 2 * fst (f (ev_mw main)).
Proof.
  intros argsort cat w tw vcl vmain flag AS SO H Pos k main c k' e' Hk Hv Hf Hc Hk' Hv'.
  destruct (@C22_generic ROps argsort AS _ _ _ _ _ _ H) as (n & Hn & M).
  assert (C : (0 < c <= n)%nat). { split; [lia|]. apply Hn. eapply nth_error_In; eauto. }
  destruct (M c C) as (k0 & main0 & centre & H1 & H2 & H3 & HIn & _ & HC & H5).
  assert (k = k0).
  { destruct (H5 k main Hk Hv) as [_ [->|[F _]]]; auto. congruence. }
  subst k0. assert (main0 = main) by congruence. subst main0.
  destruct (H5 k main Hk Hv) as [D1 _]. destruct (H5 k' e' Hk' Hv') as [D2 _].
  unfold in_space_window in *. destruct (@window_calc ROps w) as [f|] eqn:HW; [|discriminate].
  exists f. split; auto. rops. apply Rleb_true in D1. apply Rleb_true in D2.
  destruct HC as (kc & Hkc & Le).
  { apply Rleb_true. rewrite event_dist_self. destruct (windows_positive w f (ev_mw centre) HW). rops. lra. }
  assert (MW := spos_mw argsort cat k kc main centre AS SO Hk Hkc Le).
  assert (SM := space_mono w f (ev_mw centre) (ev_mw main) HW (Pos _ HIn) MW).
  assert (Tri : @event_dist ROps e' main <= @event_dist ROps e' centre + @event_dist ROps centre main).
  { apply hav_triangle. unfold earth_rad, lit. rops. lra. }
  rewrite (event_dist_sym centre main) in Tri. rops. lra.
Qed.

(** *** Witness *)

Lemma Rpow_lt_inv : forall x y n, 0 <= y -> x ^ n < y ^ n -> x < y.
Proof.
  intros x y n Hy H. destruct (Rlt_dec x y); auto. exfalso.
  assert (y ^ n <= x ^ n) by (apply pow_incr; lra). lra.
Qed.

Lemma Rpower10_pow : forall p q : nat, (0 < q)%nat ->
  Rpower 10 (INR p / INR q) ^ q = 10 ^ p.
Proof.
  intros p q Hq. assert (INR q <> 0) by (apply not_0_INR; lia).
  rewrite <- Rpower_pow by apply Rpower_pos. rewrite Rpower_mult.
  rewrite <- Rpower_pow by lra. f_equal. field. auto.
Qed.

Lemma power10_18 : 60 <= Rpower 10 (18/10).
Proof.
  left. apply Rpow_lt_inv with (n := 5%nat). left. apply Rpower_pos.
  replace (18/10) with (INR 9 / INR 5) by (rewrite !INR_IZR_INZ; simpl; lra).
  rewrite Rpower10_pow by lia. simpl; lra.
Qed.

Lemma power10_19 : Rpower 10 (19/10) < 89.
Proof.
  apply Rpow_lt_inv with (n := 10%nat). lra.
  replace (19/10) with (INR 19 / INR 10) by (rewrite !INR_IZR_INZ; simpl; lra).
  rewrite Rpower10_pow by lia. simpl; lra.
Qed.

Definition w24 : list revent :=
  [ mkEvent (AR := ROps) 1990 6 1 (-42/100) 0 7 0;
    mkEvent (AR := ROps) 1960 1 1 0 0 (69/10) 0;
    mkEvent (AR := ROps) 1990 6 2 (42/100) 0 5 0 ].

Lemma equator_dist : forall e1 e2 : revent, ev_lat e1 = 0 -> ev_lat e2 = 0 ->
  0 <= (ev_lon e1 : R) - ev_lon e2 <= 180 ->
  @event_dist ROps e1 e2 = 6371227/1000 * (PI / 180 * (ev_lon e1 - ev_lon e2)) /\
  @event_dist ROps e2 e1 = 6371227/1000 * (PI / 180 * (ev_lon e1 - ev_lon e2)).
Proof.
  intros e1 e2 H1 H2 H. rewrite (event_dist_sym e2 e1). unfold event_dist. rewrite H1, H2.
  split; apply (hav_equator (6371227/1000)); auto.
Qed.

Lemma C24_witness : forall argsort, @is_argsort ROps argsort -> sorts argsort ->
  @afteran_decluster ROps argsort w24 TDW_GARDNERKNOPOFF 60
  = Ok ([1; 0; 1]%nat, firstn 2 w24, [0; 0; 1]%Z).
Proof.
  intros argsort AS SO. unfold afteran_decluster.
  destruct w24 as [|e0 cat] eqn:E24; [discriminate|]. rewrite <- E24 in *. clear e0 cat E24.
  assert (Y : @decimal_year ROps w24 = Ok [1990 + 151/365; 1960; 1990 + 152/365]).
  { unfold decimal_year, w24. cbn [mapM ev_year ev_month ev_day].
    rewrite !(decimal_year_value _ 6) by lia. rewrite (decimal_year_value _ 1) by lia.
    change (days_before_nat (Z.to_nat (6 - 1))) with 151%Z. change (days_before_nat (Z.to_nat (1 - 1))) with 0%Z.
    cbn [bind]. f_equal. repeat (apply f_equal2; [lra|]). reflexivity. }
  rewrite Y. cbn [bind window_calc].
  assert (A : argsort (map ev_mw w24) = [2; 1; 0]%nat).
  { unfold w24. cbn [map ev_mw]. apply argsort3; auto; lra. }
  rewrite A. cbn [rev app].
  set (ra := mkSrow (AR := ROps) (nth 0 w24 (mkEvent (AR := ROps) 0 0 0 0 0 0 0)) (1990 + 151/365)
                    (fst (@gk_window ROps 7)) (snd (@gk_window ROps 7))).
  set (rb := mkSrow (AR := ROps) (nth 1 w24 (mkEvent (AR := ROps) 0 0 0 0 0 0 0)) 1960
                    (fst (@gk_window ROps (69/10))) (snd (@gk_window ROps (69/10)))).
  set (rc := mkSrow (AR := ROps) (nth 2 w24 (mkEvent (AR := ROps) 0 0 0 0 0 0 0)) (1990 + 152/365)
                    (fst (@gk_window ROps 5)) (snd (@gk_window ROps 5))).
  assert (R : sorted_rows w24 [1990 + 151/365; 1960; 1990 + 152/365] (@gk_window ROps) [0; 1; 2]%nat
              = [ra; rb; rc]) by reflexivity.
  rewrite R. clear R A Y.
  assert (P3 : 3 < PI) by (assert (Q := PI2_3_2); unfold PI2 in Q; lra).
  assert (P4 := PI_4).
  assert (Sa : 60 <= s_space ra < 89).
  { cbn [s_space ra]. unfold gk_window, lit. cbn [fst]. rops.
    split; [apply Rle_trans with (Rpower 10 (18/10)) | apply Rle_lt_trans with (Rpower 10 (19/10))];
      try apply power10_18; try apply power10_19; apply power10_mono; lra. }
  assert (Sb : 60 <= s_space rb).
  { cbn [s_space rb]. unfold gk_window, lit. cbn [fst]. rops.
    apply Rle_trans with (Rpower 10 (18/10)); try apply power10_18. apply power10_mono; lra. }
  assert (Sc : 0 < s_space rc) by (apply Rpower_pos).
  assert (Dab : @event_dist ROps (s_ev rb) (s_ev ra) <= 60 /\ @event_dist ROps (s_ev ra) (s_ev rb) <= 60).
  { destruct (equator_dist (s_ev rb) (s_ev ra)) as [-> ->]; try reflexivity; cbn; split; lra. }
  assert (Dac : 89 < @event_dist ROps (s_ev rc) (s_ev ra)).
  { destruct (equator_dist (s_ev rc) (s_ev ra)) as [-> _]; try reflexivity; cbn; lra. }
  assert (Dbc : @event_dist ROps (s_ev rc) (s_ev rb) <= 60).
  { destruct (equator_dist (s_ev rc) (s_ev rb)) as [-> _]; try reflexivity; cbn; lra. }
  assert (H11 := event_dist_self (s_ev ra)). assert (H22 := event_dist_self (s_ev rb)).
  assert (H33 := event_dist_self (s_ev rc)). destruct Dab as [Dba Dab].
  assert (HC : forall r, haversine_col (map s_ev [ra; rb; rc]) (s_ev r)
     = [@event_dist ROps (s_ev ra) (s_ev r); @event_dist ROps (s_ev rb) (s_ev r);
        @event_dist ROps (s_ev rc) (s_ev r)]).
  { intros. rewrite haversine_col_map. reflexivity. }
  cbn [length w24 seq fold_left repeat].
  (* first event: only itself in time *)
  unfold af_step at 3. cbn [bind nth_error d_vcl nth Nat.eqb]. rewrite HC.
  cbn [map2 Nat.eqb]. rops. rewrite H11. rdec. cbn [andb mask_get map s_time].
  cbn [ra rb rc s_time]. cbn [find_aftershocks find_aftershocks_from bind]. rops. rdec. cbn [andb].
  cbn [find_foreshocks find_foreshocks_from bind]. rops. rdec. cbn [andb map2 orb mask_put count_true].
  cbn [Nat.add Nat.ltb Nat.leb].
  (* second event: all three near, the third within 60 days of the first *)
  fold ra rb rc.
  unfold af_step at 2. cbn [bind nth_error d_vcl nth Nat.eqb]. rewrite HC.
  cbn [map2 Nat.eqb]. rops. rewrite H22. rdec. cbn [andb mask_get map s_time].
  cbn [ra rb rc s_time]. cbn [find_aftershocks find_aftershocks_from bind]. rops. rdec. cbn [andb].
  rdec. cbn [andb].
  cbn [find_foreshocks find_foreshocks_from bind]. rops. rdec. cbn [andb map2 orb mask_put count_true].
  cbn [Nat.add Nat.ltb Nat.leb mask_set set_nth mask_put d_ci d_vcl d_flag].
  (* third event: already in a cluster *)
  unfold af_step. cbn [bind nth_error d_vcl nth Nat.eqb].
  reflexivity.
Qed.

Lemma C24_far : 
  exists e main f, nth_error w24 2 = Some e /\ nth_error w24 0 = Some main /\
    @window_calc ROps TDW_GARDNERKNOPOFF = Ok f /\ fst (f (ev_mw main)) < @event_dist ROps e main.
Proof.
  eexists. eexists. eexists. split; [reflexivity|]. split; [reflexivity|]. split; [reflexivity|].
  assert (P3 : 3 < PI) by (assert (Q := PI2_3_2); unfold PI2 in Q; lra).
  match goal with |- _ < @event_dist ROps ?e1 ?e2 =>
    destruct (equator_dist e1 e2) as [-> _]; try reflexivity end.
  - cbn. lra.
  - cbn [ev_lon ev_mw gk_window fst]. unfold lit. rops.
    apply Rle_lt_trans with (Rpower 10 (19/10)). apply power10_mono; lra.
    assert (Q := power10_19). lra.
Qed.

(** ** C25 *)

Lemma C25_foreshock_refuted_proof :
  exists dtime tw v1 v2,
    @find_aftershocks ROps dtime tw = Ok v1 /\ @find_foreshocks ROps dtime tw v1 = Ok v2 /\
    exists j d0 dj, (0 < j)%nat /\ nth_error dtime 0 = Some d0 /\ nth_error dtime j = Some dj /\
      nth j v1 false = false /\ (forall q, (q < j)%nat -> nth q v2 false = false) /\
      - tw <= dj - d0 <= 0 /\ nth j v2 false = false.
Proof.
  exists [0; 1; -1], 2, [true; true; false], [false; false; false].
  split. { cbn. rdec. cbn. rdec. reflexivity. }
  split. { cbn. reflexivity. }
  exists 2%nat, 0, (-1). repeat split; auto; try lra.
  intros q Hq. destruct q as [|[|q]]; auto. lia.
Qed.

Lemma C24_facts : exists k (main : revent) k' (e' : revent) c f,
  nth_error w24 k = Some main /\ nth_error w24 k' = Some e' /\
  c <> 0%nat /\ nth_error [1; 0; 1]%nat k = Some c /\ nth_error [1; 0; 1]%nat k' = Some c /\
  nth_error [0; 0; 1]%Z k = Some 0%Z /\
  @window_calc ROps TDW_GARDNERKNOPOFF = Ok f /\
  fst (f (ev_mw main)) < @event_dist ROps e' main.
Proof.
  destruct C24_far as (e & main & f & H1 & H2 & H3 & H4).
  exists 0%nat, main, 2%nat, e, 1%nat, f. repeat (split; auto).
Qed.
