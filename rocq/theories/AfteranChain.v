(** Proofs about the time structure of the clusters of afteran_decluster (C107). *)
From Coq Require Import ZArith List Bool Arith Lia Permutation Reals Lra.
From Verif Require Import Base Ops BaseFacts RFacts CatUtil Decluster DeclusterSpec
  DeclusterProofs GeoProofs DeclusterR AfteranProofs AfteranR ChainSpec.
Import ListNotations.
Local Open Scope R_scope.

(** The last marked position before j, when the first is marked. *)
Lemma last_marked : forall (P : nat -> bool) j, (0 < j)%nat -> P 0%nat = true ->
  exists p, (p < j)%nat /\ P p = true /\ forall q, (p < q < j)%nat -> P q = false.
Proof.
  induction j; intros Hj H0. lia.
  destruct (P j) eqn:E.
  - exists j. split; [lia|]. split; auto. intros; lia.
  - destruct j as [|j]; [congruence|].
    destruct (IHj ltac:(lia) H0) as (p & Hp & Pp & B). exists p. split; [lia|]. split; auto.
    intros q Hq. destruct (Nat.eq_dec q (S j)) as [->|]; auto. apply B. lia.
Qed.

Definition link (rows : list (srow ROps)) (st : dstate) (tw : R) (j : nat) : Prop :=
  forall r, nth_error rows j = Some r ->
  (nth j (d_flag st) 0%Z = 1%Z -> exists p rp, (p < j)%nat /\ nth_error rows p = Some rp /\
     nth p (d_vcl st) 0%nat = nth j (d_vcl st) 0%nat /\
     (nth p (d_flag st) 0%Z = 0%Z \/ nth p (d_flag st) 0%Z = 1%Z) /\
     0 <= s_time r - s_time rp <= tw) /\
  (nth j (d_flag st) 0%Z = (-1)%Z -> exists p rp, (p < j)%nat /\ nth_error rows p = Some rp /\
     nth p (d_vcl st) 0%nat = nth j (d_vcl st) 0%nat /\
     (nth p (d_flag st) 0%Z = 0%Z \/ nth p (d_flag st) 0%Z = (-1)%Z) /\
     - tw <= s_time r - s_time rp <= 0).

Lemma after_crit_R : forall tw a b c : R, @after_crit ROps tw (a - c) (b - c) = true ->
  0 <= b - a <= tw.
Proof.
  intros tw a b c H. unfold after_crit in H. rops. apply andb_true_iff in H.
  destruct H as [H1 H2]. apply Rleb_true in H1, H2. lra.
Qed.

Lemma fore_crit_R : forall tw a b c : R, @fore_crit ROps tw (a - c) (b - c) = true ->
  - tw <= b - a <= 0.
Proof.
  intros tw a b c H. unfold fore_crit in H. rops. apply andb_true_iff in H.
  destruct H as [H1 H2]. apply Rleb_true in H1, H2. lra.
Qed.

Lemma af_step_links : forall tw rows st i st', (i < length rows)%nat ->
  @af_inv ROps rows st -> (forall j, link rows st tw j) ->
  @af_step ROps tw rows (Ok st) i = Ok st' -> forall j, link rows st' tw j.
Proof.
  intros tw rows st i st' Hi I LK H. destruct (nth_error_ex _ rows i Hi) as [ri Hri].
  assert (LV := ai_lv _ _ I). assert (LF := ai_lf _ _ I).
  unfold af_step in H. cbn [bind] in H. rewrite Hri in H.
  destruct (Nat.eqb_spec (nth i (d_vcl st) 0%nat) 0) as [E|E].
  2:{ injection H; intros <-. auto. }
  rewrite haversine_col_map, map_map in H.
  set (m := map2 (fun d c => leb d (s_space ri) && Nat.eqb c 0)
              (map (fun x => event_dist (s_ev x) (s_ev ri)) rows) (d_vcl st)) in *.
  assert (Lm : length m = length rows).
  { unfold m. rewrite length_map2, map_length. lia. }
  assert (Pm : forall j, nth j m false = true -> nth j (d_vcl st) 0%nat = 0%nat).
  { intros j Hj. assert (B : (j < length rows)%nat).
    { destruct (le_lt_dec (length rows) j); auto. rewrite nth_overflow in Hj by lia. discriminate. }
    destruct (nth_error_ex _ rows j B) as [r Hr].
    assert (Q : nth j m false = rnear ri r && Nat.eqb (nth j (d_vcl st) 0%nat) 0).
    { apply nth_error_nth. unfold m.
      erewrite nth_error_map2 with (b := nth j (d_vcl st) 0%nat).
      2:{ apply map_nth_error; eauto. } 2:{ apply nth_error_nth'. lia. } reflexivity. }
    rewrite Hj in Q. symmetry in Q. apply andb_true_iff in Q. apply Nat.eqb_eq. apply Q. }
  apply bind_ok in H. destruct H as (v1 & H1 & H). apply bind_ok in H. destruct H as (v2 & H2 & H).
  set (dtime := map (fun r => sub (s_time r) (s_time ri)) (mask_get m rows)) in *.
  assert (Ld : length dtime = count_true m).
  { unfold dtime. rewrite map_length. apply length_mask_get; auto. }
  assert (Dt : forall j r, nth j m false = true -> nth_error rows j = Some r ->
     nth_error dtime (rank m j) = Some (s_time r - s_time ri)).
  { intros j r Hj Hr. unfold dtime. rewrite (map_nth_error _ _ _ (nth_mask_get _ m rows j r Lm Hj Hr)).
    reflexivity. }
  destruct (fa_spec _ _ _ H1) as (L1 & V10 & A1).
  destruct (ff_spec _ _ _ _ H2 L1) as (L2 & V20 & A2).
  set (V := mask_put m (map2 orb v1 v2) m) in *.
  assert (LVV : length V = length rows). { unfold V. rewrite length_mask_put. auto. }
  assert (L12 : length (map2 orb v1 v2) = count_true m). { rewrite length_map2. lia. }
  destruct (Nat.ltb_spec 1 (count_true V)) as [C|C].
  2:{ injection H; intros <-. auto. }
  assert (N12 : forall q, (q < count_true m)%nat -> nth q (map2 orb v1 v2) false = nth q v1 false || nth q v2 false).
  { intros q Hq. apply nth_error_nth.
    apply nth_error_map2 with (a := nth q v1 false) (b := nth q v2 false); apply nth_error_nth'; lia. }
  assert (NV : forall j, (j < length rows)%nat -> nth j V false
     = if nth j m false then nth (rank m j) v1 false || nth (rank m j) v2 false else false).
  { intros j Hj. unfold V. rewrite nth_mask_put by lia.
    destruct (nth j m false) eqn:Ej; auto. apply N12. apply rank_bound; auto. }
  assert (LM1 : forall X, length (mask_put m X m) = length rows) by (intros; rewrite length_mask_put; auto).
  set (v1' := set_nth 0 false v1) in *.
  assert (L1' : length v1' = length v1) by (apply length_set_nth).
  set (flag := mask_set (mask_put m v2 m) (-1)%Z (mask_set (mask_put m v1' m) 1%Z (d_flag st))) in *.
  set (vcl := mask_set V (d_ci st + 1)%nat (d_vcl st)) in *.
  assert (NF : forall j, (j < length rows)%nat -> nth j flag 0%Z
     = if nth j m false then
         if nth (rank m j) v2 false then (-1)%Z
         else if nth (rank m j) v1' false then 1%Z else nth j (d_flag st) 0%Z
       else nth j (d_flag st) 0%Z).
  { intros j Hj. unfold flag. rewrite nth_mask_set by (rewrite ?length_mask_set, ?LM1; lia).
    rewrite nth_mask_set by (rewrite ?length_mask_set, ?LM1; lia).
    rewrite !nth_mask_put by lia.
    destruct (nth j m false); auto. }
  assert (NC : forall j, (j < length rows)%nat -> nth j vcl 0%nat
     = if nth j V false then (d_ci st + 1)%nat else nth j (d_vcl st) 0%nat).
  { intros j Hj. unfold vcl. apply nth_mask_set; lia. }
  assert (S1 : forall q, (0 < q)%nat -> nth q v1' false = nth q v1 false).
  { intros q Hq. unfold v1'. destruct v1; auto. destruct q; [lia|]. auto. }
  assert (S0 : nth 0 v1' false = false).
  { unfold v1'. destruct v1; auto. }
  assert (Z0 : forall j, nth j m false = true -> nth j (d_flag st) 0%Z = 0%Z).
  { intros j Hj. apply (ai_zero _ _ I). auto. }
  assert (BM : forall j, nth j m false = true -> (j < length rows)%nat).
  { intros j Hj. destruct (le_lt_dec (length rows) j); auto. rewrite nth_overflow in Hj by lia. discriminate. }
  injection H; intros <-. intros j r Hr. assert (Hj := nth_error_lt _ _ _ _ Hr). cbn [d_flag d_vcl].
  assert (Back : forall q, (q < rank m j)%nat -> nth j m false = true ->
     exists p rp, (p < j)%nat /\ nth p m false = true /\ rank m p = q /\ nth_error rows p = Some rp).
  { intros q Hq Hm. destruct (rank_onto m q) as (p & Hp & Rp).
    { assert (B := rank_bound m j Hm). lia. }
    destruct (nth_error_ex _ rows p (BM p Hp)) as [rp Hrp]. exists p, rp.
    split; auto. destruct (le_lt_dec j p) as [Le|]; auto.
    destruct (Nat.eq_dec j p) as [->|Ne]; [lia|].
    assert (Q := rank_mono m j p ltac:(lia) Hm). lia. }
  destruct (nth j m false) eqn:Mj.
  - (* inside the distance window *)
    rewrite NF, NC by auto. rewrite NV by auto. rewrite Mj.
    destruct (nth (rank m j) v2 false) eqn:F2.
    + split; [discriminate|]. intros _.
      assert (R0 : (0 < rank m j)%nat).
      { destruct (rank m j); [congruence|lia]. }
      destruct (last_marked (fun q => Nat.eqb q 0 || nth q v2 false) (rank m j) R0 eq_refl)
        as (q & Hq & Pq & Bq).
      destruct (Back q Hq eq_refl) as (p & rp & Lp & Mp & Rp & Hrp).
      exists p, rp. split; auto. split; auto.
      assert (Vp : nth q v1 false || nth q v2 false = true).
      { apply orb_true_iff in Pq. destruct Pq as [Pq|Pq].
        - apply Nat.eqb_eq in Pq. subst q. rewrite V10. reflexivity.
        - rewrite Pq. apply orb_true_r. }
      split. { rewrite NC, NV by auto. rewrite Mp, Rp, Vp, orb_true_r. reflexivity. }
      split.
      { rewrite NF by auto. rewrite Mp, Rp. destruct (nth q v2 false) eqn:Fq; auto.
        rewrite orb_false_r in Pq. apply Nat.eqb_eq in Pq. rewrite Pq, S0. left. auto. }
      destruct (A2 q (rank m j) (s_time rp - s_time ri) (s_time r - s_time ri)) as [G _]; auto.
      { rewrite <- Rp. apply Dt; auto. }
      { apply orb_true_iff in Pq. destruct Pq as [Pq|Pq]; auto. apply Nat.eqb_eq in Pq. auto. }
      { intros q' Hq'. specialize (Bq q' Hq'). apply orb_false_iff in Bq. apply Bq. }
      destruct (G F2) as [_ G2]. apply fore_crit_R in G2. exact G2.
    + destruct (nth (rank m j) v1' false) eqn:F1.
      * split; [|discriminate]. intros _.
        assert (R0 : (0 < rank m j)%nat).
        { destruct (rank m j); [congruence|lia]. }
        rewrite S1 in F1 by auto.
        destruct (last_marked (fun q => nth q v1 false) (rank m j) R0 V10) as (q & Hq & Pq & Bq).
        destruct (Back q Hq eq_refl) as (p & rp & Lp & Mp & Rp & Hrp).
        exists p, rp. split; auto. split; auto.
        split. { rewrite NC, NV by auto. rewrite Mp, Rp, Pq, F1. reflexivity. }
        assert (Nq : nth q v2 false = false).
        { destruct (nth q v2 false) eqn:Fq; auto.
          assert (Rq : (0 < q)%nat). { destruct q; [congruence|lia]. }
          destruct (last_marked (fun x => Nat.eqb x 0 || nth x v2 false) q Rq eq_refl)
            as (x & Hx & Px & Bx).
          destruct (nth_error_ex _ dtime x) as [dx Hdx]. { assert (B := rank_bound m j Mj). lia. }
          destruct (nth_error_ex _ dtime q) as [dq Hdq]. { assert (B := rank_bound m j Mj). lia. }
          destruct (A2 x q dx dq) as [G _]; auto.
          { apply orb_true_iff in Px. destruct Px as [Px|Px]; auto. apply Nat.eqb_eq in Px. auto. }
          { intros q' Hq'. specialize (Bx q' Hq'). apply orb_false_iff in Bx. apply Bx. }
          destruct (G Fq) as [G1 _]. congruence. }
        split.
        { rewrite NF by auto. rewrite Mp, Rp, Nq. destruct (nth q v1' false) eqn:Fq; auto. }
        assert (G := A1 q (rank m j) (s_time rp - s_time ri) (s_time r - s_time ri)).
        apply (after_crit_R tw _ _ (s_time ri)). unfold after_crit. rewrite <- F1. symmetry.
        apply G; auto. rewrite <- Rp. apply Dt; auto.
      * rewrite (Z0 j Mj). split; discriminate.
  - rewrite NF, NC by auto. rewrite NV by auto. rewrite Mj.
    destruct (LK j r Hr) as [K1 K2].
    assert (Kp : forall p rp, (p < length rows)%nat -> nth_error rows p = Some rp ->
       nth p (d_vcl st) 0%nat = nth j (d_vcl st) 0%nat -> nth j (d_flag st) 0%Z <> 0%Z ->
       nth p vcl 0%nat = nth j (d_vcl st) 0%nat /\ nth p flag 0%Z = nth p (d_flag st) 0%Z).
    { intros p rp Hp Hrp Ev Fj. rewrite NC, NF by auto. rewrite NV by auto.
      destruct (nth p m false) eqn:Mp; auto. exfalso. apply Fj. apply (ai_zero _ _ I).
      rewrite <- Ev. auto. }
    split; intros Fj.
    + destruct (K1 Fj) as (p & rp & Lp & Hrp & Ev & Fp & D). exists p, rp.
      destruct (Kp p rp (nth_error_lt _ _ _ _ Hrp) Hrp Ev ltac:(lia)) as [-> ->]. auto.
    + destruct (K2 Fj) as (p & rp & Lp & Hrp & Ev & Fp & D). exists p, rp.
      destruct (Kp p rp (nth_error_lt _ _ _ _ Hrp) Hrp Ev ltac:(lia)) as [-> ->]. auto.
Qed.

Lemma af_links_loop : forall tw rows m st, (m <= length rows)%nat ->
  fold_left (@af_step ROps tw rows) (seq 0 m)
            (Ok (mkD (repeat 0%nat (length rows)) (repeat 0%Z (length rows)) 0)) = Ok st ->
  forall j, link rows st tw j.
Proof.
  induction m; intros st Hm H.
  - simpl in H. injection H; intros <-. intros j r Hr. cbn [d_flag].
    rewrite nth_repeat_0. split; discriminate.
  - rewrite seq_S, fold_left_app in H. cbn [fold_left Nat.add] in H.
    destruct (fold_left (@af_step ROps tw rows) (seq 0 m) _) as [st1|e] eqn:E; [|discriminate].
    apply (af_step_links tw rows st1 m); auto.
    + apply (@af_inv_loop ROps tw rows m); auto. lia.
    + apply IHm; auto. lia.
Qed.

Lemma C107_proof : forall argsort cat w tw vcl vmain flag,
  @is_argsort ROps argsort -> sorts argsort ->
  @afteran_decluster ROps argsort cat w tw = Ok (vcl, vmain, flag) ->
  forall k c z, nth_error vcl k = Some c -> nth_error flag k = Some z -> z <> 0%Z ->
  time_chain cat vcl flag c z (tw / 365) k.
Proof.
  intros argsort cat w tw vcl vmain flag AS SO H.
  unfold afteran_decluster in H.
  destruct cat as [|e0 cat0]; [discriminate|]. set (cat := e0 :: cat0) in *.
  apply bind_ok in H. destruct H as (years & HY & H).
  apply bind_ok in H. destruct H as (f & HW & H).
  apply bind_ok in H. destruct H as (st & HF & H).
  set (id0 := rev (argsort (map ev_mw cat))) in *.
  set (rows := sorted_rows cat years f id0) in *.
  assert (P : prep cat w id0 rows) by (apply prep_ok; auto).
  assert (PP := pr_perm _ _ _ _ P). assert (PL := pr_len _ _ _ _ P).
  rewrite (eqid_id0 (length cat)) in H by auto.
  rewrite <- PL in HF. rops. assert (LK := af_links_loop _ _ _ _ (Nat.le_refl _) HF).
  apply af_inv_loop in HF; [|lia]. rename HF into I.
  injection H; intros H1 _ H3. clear H.
  assert (Pt : forall k, (k < length cat)%nat ->
      nth_error vcl k = Some (nth (spos id0 k) (d_vcl st) 0%nat) /\
      nth_error flag k = Some (nth (spos id0 k) (d_flag st) 0%Z)).
  { intros k Hk. rewrite <- H1, <- H3.
    rewrite !(unsort_nth (length cat)); auto.
    - split; apply nth_error_nth'.
      + rewrite (ai_lv _ _ I), PL. apply spos_lt; auto.
      + rewrite (ai_lf _ _ I), PL. apply spos_lt; auto.
    - rewrite (ai_lf _ _ I). auto.
    - rewrite (ai_lv _ _ I). auto. }
  assert (Lv : length vcl = length cat). { rewrite <- H3. apply unsort_len; auto. }
  assert (Main : forall n k c z, (spos id0 k <= n)%nat -> nth_error vcl k = Some c ->
     nth_error flag k = Some z -> z = 1%Z \/ z = (-1)%Z -> time_chain cat vcl flag c z (tw / 365) k).
  { induction n as [n IH] using lt_wf_ind. intros k c z Hn Hc Hz Sg.
    assert (Hk : (k < length cat)%nat) by (rewrite <- Lv; eapply nth_error_lt; eauto).
    destruct (Pt k Hk) as [Ev Ef]. rewrite Ev in Hc. rewrite Ef in Hz.
    injection Hc; intros Hc'. injection Hz; intros Hz'.
    destruct (nth_error_ex _ cat k Hk) as [e He].
    destruct (pr_row _ _ _ _ P _ _ He) as (f1 & t & _ & Ht & Hr).
    destruct (LK (spos id0 k) _ Hr) as [K1 K2].
    assert (Go : forall p rp, (p < spos id0 k)%nat -> nth_error rows p = Some rp ->
       nth p (d_vcl st) 0%nat = nth (spos id0 k) (d_vcl st) 0%nat ->
       (nth p (d_flag st) 0%Z = 0%Z \/ nth p (d_flag st) 0%Z = z) ->
       0 <= IZR z * (t - s_time rp) <= tw / 365 -> time_chain cat vcl flag c z (tw / 365) k).
    { intros p rp Lp Hrp Evp Fp D.
      destruct (spos_onto _ _ PP p) as (k0 & Hk0 & Sk0).
      { rewrite <- PL. eapply nth_error_lt; eauto. }
      destruct (nth_error_ex _ cat k0 Hk0) as [e1 He1].
      destruct (pr_row _ _ _ _ P _ _ He1) as (f2 & t1 & _ & Ht1 & Hr1).
      rewrite Sk0, Hrp in Hr1. injection Hr1; intros Er. subst rp. cbn [s_time] in D.
      destruct (Pt k0 Hk0) as [Ev0 Ef0]. rewrite Sk0 in Ev0, Ef0.
      assert (Vk0 : nth_error vcl k0 = Some c) by congruence.
      apply (chain_step _ _ _ _ _ _ k0 k e1 e (t - t1)); auto.
      - destruct Fp as [Fp|Fp].
        + apply chain_start; auto. congruence.
        + apply (IH (spos id0 k0)); auto. lia. congruence.
      - congruence.
      - congruence.
      - unfold delay. rewrite Ht, Ht1. reflexivity.
      - fold id0. apply (spos_mw argsort cat k0 k e1 e AS SO); auto. change (spos id0 k0 <= spos id0 k)%nat. rewrite Sk0. apply Nat.lt_le_incl. exact Lp. }
    destruct Sg as [->| ->].
    - destruct (K1 Hz') as (p & rp & Lp & Hrp & Ev1 & Fp & D). cbn [s_time] in D.
      apply (Go p rp); auto. lra.
    - destruct (K2 Hz') as (p & rp & Lp & Hrp & Ev1 & Fp & D). cbn [s_time] in D.
      apply (Go p rp); auto. lra. }
  intros k c z Hc Hz Nz. apply (Main (spos id0 k) k c z); auto.
  assert (Hk : (k < length cat)%nat) by (rewrite <- Lv; eapply nth_error_lt; eauto).
  destruct (Pt k Hk) as [_ Ef]. rewrite Ef in Hz. injection Hz; intros Hz'.
  destruct (ai_flag _ _ I (spos id0 k)) as [Q|[Q|Q]]; [|left|right]; congruence.
Qed.

(** Consequence: aftershocks are not before the kept event, foreshocks not after it. *)
Lemma chain_order : forall cat vcl flag c z y k, z = 1%Z \/ z = (-1)%Z ->
  time_chain cat vcl flag c z y k ->
  (forall k e, nth_error cat k = Some e -> exists t, @event_time ROps e = Ok t) ->
  (forall k k', nth_error vcl k = Some c -> nth_error vcl k' = Some c ->
     nth_error flag k = Some 0%Z -> nth_error flag k' = Some 0%Z -> k = k') ->
  forall k0 main e, nth_error vcl k0 = Some c -> nth_error flag k0 = Some 0%Z ->
    nth_error cat k0 = Some main -> nth_error cat k = Some e ->
    exists dt, @delay ROps main e = Some dt /\ 0 <= IZR z * dt.
Proof.
  intros cat vcl flag c z y k Sg Ch Tm U. induction Ch as [k Hv Hf|k k' e e' dt Ch IH He He' Hv Hf Hd B Mw];
    intros k0 main x V0 F0 M0 Hx.
  - assert (k0 = k) by (apply U; auto). subst k0. assert (x = main) by congruence. subst x.
    destruct (Tm _ _ Hx) as [t Ht]. exists 0. unfold delay. rewrite Ht. split.
    + f_equal. rops. lra.
    + lra.
  - assert (x = e') by congruence. subst x.
    destruct (IH k0 main e V0 F0 M0 He) as (d1 & D1 & B1).
    unfold delay in *. destruct (event_time main) as [tm|]; [|discriminate].
    destruct (event_time e) as [te|]; [|discriminate].
    destruct (event_time e') as [te'|]; [|discriminate].
    exists (te' - tm). split; [reflexivity|]. injection Hd; intros <-. injection D1; intros <-.
    rops. destruct Sg as [->| ->]; lra.
Qed.

Lemma C107_order_proof : forall argsort cat w tw vcl vmain flag,
  @is_argsort ROps argsort -> sorts argsort ->
  @afteran_decluster ROps argsort cat w tw = Ok (vcl, vmain, flag) ->
  forall k main k' e c, c <> 0%nat ->
    nth_error cat k = Some main -> nth_error vcl k = Some c -> nth_error flag k = Some 0%Z ->
    nth_error cat k' = Some e -> nth_error vcl k' = Some c ->
    exists dt, @delay ROps main e = Some dt /\
      (nth_error flag k' = Some 1%Z -> 0 <= dt) /\
      (nth_error flag k' = Some (-1)%Z -> dt <= 0).
Proof.
  intros argsort cat w tw vcl vmain flag AS SO H k main k' e c C0 Hk Vk Fk Hk' Vk'.
  destruct (@af_run ROps argsort AS _ _ _ _ _ _ H) as (_ & id0 & rows & st & P & _).
  assert (Tm : forall k e, nth_error cat k = Some e -> exists t, @event_time ROps e = Ok t).
  { intros q x Hx. destruct (pr_row _ _ _ _ P _ _ Hx) as (_ & t & _ & Ht & _). eauto. }
  destruct (C22_proof argsort cat w tw vcl vmain flag AS SO H) as (n & Hn & M).
  assert (Cn : (0 < c <= n)%nat). { split; [lia|]. apply Hn. eapply nth_error_In; eauto. }
  destruct (M c Cn) as (k0 & main0 & M0 & _ & _ & _ & U).
  assert (Uq : forall a b, nth_error vcl a = Some c -> nth_error vcl b = Some c ->
     nth_error flag a = Some 0%Z -> nth_error flag b = Some 0%Z -> a = b).
  { assert (L : length vcl = length cat).
    { apply (@C23_proof ROps argsort AS cat w tw vcl vmain flag H). }
    assert (G : forall a, nth_error vcl a = Some c -> nth_error flag a = Some 0%Z -> a = k0).
    { intros a Va Fa. assert (B := nth_error_lt _ _ _ _ Va). rewrite L in B.
      destruct (nth_error_ex _ cat a B) as [x Hx]. apply (proj2 (U a x Hx Va)). auto. }
    intros a b Va Vb Fa Fb. rewrite (G a), (G b); auto. }
  destruct (Tm _ _ Hk) as [t0 T0]. destruct (Tm _ _ Hk') as [t1 T1].
  exists (t1 - t0). unfold delay. rewrite T0, T1. split; [reflexivity|].
  assert (Go : forall z, z = 1%Z \/ z = (-1)%Z -> nth_error flag k' = Some z -> 0 <= IZR z * (t1 - t0)).
  { intros z Sg Fz.
    assert (Ch := C107_proof argsort cat w tw vcl vmain flag AS SO H k' c z Vk' Fz ltac:(lia)).
    destruct (chain_order _ _ _ _ _ _ _ Sg Ch Tm Uq k main e Vk Fk Hk Hk') as (dt & D & B).
    unfold delay in D. rewrite T0, T1 in D. injection D; intros <-. exact B. }
  split; intros F.
  - specialize (Go 1%Z (or_introl eq_refl) F). lra.
  - specialize (Go (-1)%Z (or_intror eq_refl) F). lra.
Qed.
