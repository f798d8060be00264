(** AFTERAN with a shorter and a longer time window (C118). *)
From Coq Require Import Reals ZArith Bool Arith Lia Lra List Permutation.
From Verif Require Import Base BaseFacts Ops RFacts CatUtil Decluster DeclusterSpec DeclusterProofs AfteranProofs OrderProofs GkWider.
Import ListNotations.
Local Open Scope nat_scope.

Lemma count_put : forall m v : list bool, length v = count_true m -> count_true (mask_put m v m) = count_true v.
Proof.
  induction m as [|[] m IH]; intros v H; cbn in *.
  - destruct v; [auto|discriminate].
  - destruct v as [|b v]; [discriminate|]. cbn. rewrite IH by (cbn in H; lia). reflexivity.
  - now apply IH.
Qed.

Lemma count_orb : forall a b : list bool, length a = length b -> count_true (map2 orb a b) = 0 -> count_true a = 0 /\ count_true b = 0.
Proof.
  induction a as [|x a IH]; intros [|y b] L H; try discriminate; auto. cbn in *. destruct x, y; cbn in *; try lia. apply IH; auto.
Qed.

Section Shorter.
Variables tw tw' : R.
Hypothesis LE : (tw <= tw')%R.

Lemma fa_none : forall (l : list R) init, count_true (@find_aftershocks_from ROps init tw' l) = 0 ->
  @find_aftershocks_from ROps init tw l = @find_aftershocks_from ROps init tw' l.
Proof.
  induction l as [|d l IH]; intros init H; auto. cbn [find_aftershocks_from] in *. cbv zeta in *. rops.
  destruct (Rleb 0 (d - init) && Rleb (d - init) tw')%bool eqn:E.
  - cbn [count_true] in H. lia.
  - assert (F : (Rleb 0 (d - init) && Rleb (d - init) tw)%bool = false).
    { destruct (Rleb 0 (d - init)); auto. cbn [andb] in *. apply Rleb_false in E. apply Rleb_false. lra. }
    rewrite F. cbn [count_true plus] in H. f_equal. now apply IH.
Qed.

Lemma ff_none : forall (l : list R) a init, length a = length l -> count_true a = 0 -> count_true (@find_foreshocks_from ROps init tw' l a) = 0 ->
  @find_foreshocks_from ROps init tw l a = @find_foreshocks_from ROps init tw' l a.
Proof.
  induction l as [|d l IH]; intros [|b a] init L A H; auto; try discriminate. destruct b; [cbn in A; lia|]. cbn [find_foreshocks_from] in *. cbv zeta in *. rops.
  destruct (Rleb (d - init) 0 && Rleb (- tw') (d - init))%bool eqn:E.
  - cbn [count_true] in H. lia.
  - assert (F : (Rleb (d - init) 0 && Rleb (- tw) (d - init))%bool = false).
    { destruct (Rleb (d - init) 0); auto. cbn [andb] in *. apply Rleb_false in E. apply Rleb_false. lra. }
    rewrite F. cbn [count_true plus] in H, A. f_equal. apply IH; auto.
Qed.

Lemma step_none : forall (rows : list (srow ROps)) st i, length (d_vcl st) = length rows ->
  @af_step ROps tw' rows (Ok st) i = Ok st -> @af_step ROps tw rows (Ok st) i = Ok st.
Proof.
  intros rows st i LV H. unfold af_step in *. cbn [bind] in *. destruct (nth_error rows i) as [ri|]; auto. destruct (Nat.eqb _ 0); auto.
  cbv zeta in *. rewrite haversine_col_map in *. rewrite map_map in *.
  match goal with |- context [mask_get ?x rows] => set (m := x) in * end.
  assert (Lm : length m = length rows).
  { unfold m. rewrite length_map2, map_length. lia. }
  assert (LG := length_mask_get _ m rows Lm).
  set (dt := map _ (mask_get m rows)) in *. assert (LD : length dt = count_true m) by (unfold dt; rewrite map_length; exact LG).
  destruct dt as [|d0 dt]; [discriminate|]. cbn [find_aftershocks bind] in *. cbn [find_foreshocks bind] in *.
  set (A' := @find_aftershocks_from ROps d0 tw' dt) in *. set (B' := @find_foreshocks_from ROps d0 tw' dt A') in *.
  assert (LA : length A' = length dt) by apply fa_from_len.
  assert (LB : length B' = length dt) by (apply (ff_from_len (length dt)); auto).
  assert (CP : count_true (mask_put m (map2 orb (true :: A') (false :: B')) m) = S (count_true (map2 orb A' B'))).
  { rewrite count_put; [reflexivity|]. rewrite length_map2. cbn [length] in *. lia. }
  destruct (Nat.ltb_spec 1 (count_true (mask_put m (map2 orb (true :: A') (false :: B')) m))) as [C|C].
  { exfalso. injection H as H. apply (f_equal d_ci) in H. cbn [d_ci] in H. lia. }
  assert (C0 : count_true (map2 orb A' B') = 0) by lia.
  destruct (count_orb A' B' ltac:(lia) C0) as (CA & CB).
  rewrite (fa_none dt d0 CA). fold A'. rewrite (ff_none dt A' d0 LA CA CB). fold B'.
  destruct (Nat.ltb_spec 1 (count_true (mask_put m (map2 orb (true :: A') (false :: B')) m))) as [D|D]; [lia|reflexivity].
Qed.
End Shorter.

Section Any.
Context {AR : Ops}.

Lemma step_ci : forall tw (rows : list (srow AR)) st i st', length (d_vcl st) = length rows -> length (d_flag st) = length rows ->
  af_step tw rows (Ok st) i = Ok st' -> st' = st \/ d_ci st' = S (d_ci st).
Proof.
  intros tw rows st i st' LV LF H. destruct (nth_error rows i) as [ri|] eqn:E.
  - destruct (af_step_spec _ _ _ _ _ _ LV LF E H) as [->|(vcl & flag & s0 & -> & _)]; auto.
  - unfold af_step in H. cbn [bind] in H. rewrite E in H. left. congruence.
Qed.

(** No cluster: every step left the state alone. *)
Lemma no_cluster : forall tw (rows : list (srow AR)) m st, m <= length rows ->
  let st0 := mkD (repeat 0 (length rows)) (repeat 0%Z (length rows)) 0 in
  fold_left (af_step tw rows) (seq 0 m) (Ok st0) = Ok st -> d_ci st = 0 ->
  st = st0 /\ forall i, i < m -> af_step tw rows (Ok st0) i = Ok st0.
Proof.
  intros tw rows m st L st0 H C. revert st H C. induction m as [|m IH]; intros st H C.
  - cbn in H. split; [congruence|intros; lia].
  - rewrite seq_S, fold_left_app in H. cbn [fold_left plus] in H.
    destruct (fold_left (af_step tw rows) (seq 0 m) (Ok st0)) as [s1|e] eqn:E; [|discriminate].
    assert (I := af_inv_loop tw rows m s1 ltac:(lia) E).
    destruct (step_ci tw rows s1 m st (ai_lv _ _ I) (ai_lf _ _ I) H) as [->|D]; [|lia].
    destruct (IH ltac:(lia) s1 eq_refl C) as (-> & Q). split; auto. intros i Hi. destruct (Nat.eq_dec i m) as [->|NE]; auto. apply Q. lia.
Qed.
End Any.

Lemma C118_af_partial_proof : forall argsort, @is_argsort ROps argsort -> forall (cat : list (event ROps)) w (tw tw' : R) vcl' flag', (tw <= tw')%R ->
  @afteran_decluster ROps argsort cat w tw' = Ok (vcl', cat, flag') ->
  @afteran_decluster ROps argsort cat w tw = Ok (vcl', cat, flag').
Proof.
  intros argsort AS cat w tw tw' vcl' flag' L H.
  unfold afteran_decluster in H |- *. destruct cat as [|e0 cat0]; [discriminate|]. set (cat := e0 :: cat0) in *. cbv zeta in *.
  destruct (decimal_year cat) as [years|] eqn:Y; [|discriminate]. cbn [bind] in *.
  destruct (@window_calc ROps w) as [f|] eqn:WC; [|discriminate]. cbn [bind] in *.
  apply bind_ok in H. destruct H as (st & HF & H).
  set (id0 := rev (argsort (map ev_mw cat))) in *. set (rows := sorted_rows cat years f id0) in *.
  assert (P : prep cat w id0 rows) by (apply (@prep_ok ROps); auto).
  assert (PP := pr_perm _ _ _ _ P). assert (PL := pr_len _ _ _ _ P).
  assert (HF' := HF). rewrite <- PL in HF'. assert (I := @af_inv_loop ROps _ rows (length rows) st (le_n _) HF').
  assert (EF : flag' = take_idx 0%Z (d_flag st) (argsort_ids id0)).
  { rewrite (eqid_id0 (length cat)) in H by auto. congruence. }
  assert (EM : mask_get (map (fun z => Z.eqb z 0) flag') cat = cat).
  { assert (U := pr_unsort _ _ _ _ P). unfold pick in U. rewrite (eqid_id0 (length cat)) in H by auto. congruence. }
  assert (LF : length flag' = length cat) by (rewrite EF; apply unsort_len; auto).
  assert (ZF : forall z, In z flag' -> z = 0%Z).
  { intros z IZ. assert (Q := keeps_all cat (map (fun z => Z.eqb z 0) flag') ltac:(rewrite map_length; exact LF) EM (Z.eqb z 0) (in_map _ _ _ IZ)). now apply Z.eqb_eq in Q. }
  assert (LFl := ai_lf _ _ I).
  assert (C0 : d_ci st = 0).
  { destruct (d_ci st) as [|c] eqn:CI; auto. exfalso. destruct (ai_main _ _ I 1 ltac:(lia)) as (s0 & i & ri & _ & _ & _ & _ & _ & (j & NE & J & VJ) & M).
    destruct (nth_error_ex _ rows j J) as [r RJ]. destruct (M j r RJ VJ) as (_ & [?|(_ & NZ)]); [contradiction|]. apply NZ.
    destruct (spos_onto _ _ PP j) as (k & K & SK); [lia|]. rewrite <- SK.
    apply ZF. rewrite EF. apply nth_error_In with k. rewrite (unsort_nth (length cat)); auto; try (rewrite LFl; exact PL).
    apply nth_error_nth'. rewrite LFl, PL. apply spos_lt; auto. }
  destruct (@no_cluster ROps _ rows (length rows) st (le_n _) HF' C0) as (S0 & NS).
  assert (HN : fold_left (@af_step ROps (tw / 365)%R rows) (seq 0 (length cat)) (Ok (mkD (repeat 0 (length cat)) (repeat 0%Z (length cat)) 0)) = Ok st).
  { rewrite S0. rewrite <- PL. clearbody rows. clear - NS L. set (st0 := mkD _ _ _) in *.
    assert (G : forall m, m <= length rows -> fold_left (@af_step ROps (tw / 365)%R rows) (seq 0 m) (Ok st0) = Ok st0).
    { induction m as [|m IH]; intros M; auto. rewrite seq_S, fold_left_app. cbn [fold_left plus]. rewrite IH by lia.
      apply step_none with (tw' := (tw' / 365)%R); [lra|cbn [st0 d_vcl]; apply repeat_length|]. apply NS. lia. }
    apply G. lia. }
  rops. rewrite HN. cbn [bind]. exact H.
Qed.
