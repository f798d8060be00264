(** Proofs about selected_eq_flag_vector and stepp_analysis. *)
From Coq Require Import ZArith Arith Bool List Lia Reals Lra Permutation Sorted.
From Verif Require Import Base Ops BaseFacts RFacts Completeness.
Import ListNotations.

Section Generic.
Context {AR : Ops}.

Lemma completeness_flag_length : forall year mw table,
  length (completeness_flag year mw table) = length year.
Proof.
  intros. unfold completeness_flag.
  apply fold_left_inv.
  - apply repeat_length.
  - intros a b H _. rewrite length_mask_set. auto.
Qed.

Lemma completeness_flag_nth : forall year mw table k y m,
  nth_error year k = Some y -> nth_error mw k = Some m ->
  nth_error (completeness_flag year mw table) k =
    Some (if existsb (fun row => ltb y (fst row) && ltb m (snd row)) table then 1%Z else 0%Z).
Proof.
  intros year mw table k y m Hy Hm. unfold completeness_flag.
  assert (G : forall acc f0, nth_error acc k = Some f0 ->
    nth_error (fold_left (fun flag row =>
      mask_set (map2 (fun y m => ltb y (fst row) && ltb m (snd row)) year mw) 1%Z flag)
      table acc) k
    = Some (if existsb (fun row => ltb y (fst row) && ltb m (snd row)) table
            then 1%Z else f0)).
  { induction table; intros acc f0 H; simpl; auto.
    erewrite IHtable.
    2:{ eapply nth_error_mask_set; eauto. apply nth_error_map2; eauto. }
    simpl. destruct (ltb y (fst a) && ltb m (snd a)); simpl; auto.
    destruct (existsb _ table); auto. }
  apply G. apply nth_error_repeat. eapply nth_error_lt; eauto.
Qed.

Lemma selected_ok : forall year mw table flags,
  length mw = length year -> length flags = length year ->
  exists v, selected_eq_flag_vector year mw table flags = Ok v
    /\ length v = length year
    /\ forall k y m f, nth_error year k = Some y -> nth_error mw k = Some m ->
         nth_error flags k = Some f ->
         nth_error v k = Some
           (if existsb (fun row => ltb y (fst row) && ltb m (snd row)) table
               || negb (Z.eqb f 0) then 1%Z else 0%Z).
Proof.
  intros year mw table flags Hm Hf.
  unfold selected_eq_flag_vector.
  rewrite Hf, Nat.eqb_refl. eexists. split. reflexivity. split.
  - rewrite length_mask_set, repeat_length. auto.
  - intros k y m f Ky Km Kf.
    erewrite nth_error_mask_set.
    3:{ apply nth_error_map2; [apply completeness_flag_nth; eauto|eauto]. }
    2:{ apply nth_error_repeat. eapply nth_error_lt; eauto. }
    destruct (existsb _ table); simpl; auto.
Qed.

Lemma C12_proof : forall (year mw : list T) (table : list (T * T)) (flags : list Z),
  length mw = length year -> length flags = length year ->
  exists v, selected_eq_flag_vector year mw table flags = Ok v
    /\ length v = length year
    /\ (forall k, k < length year -> nth_error v k = Some 0%Z \/ nth_error v k = Some 1%Z)
    /\ forall k y m f, nth_error year k = Some y -> nth_error mw k = Some m ->
         nth_error flags k = Some f ->
         (nth_error v k = Some 0%Z <->
            f = 0%Z /\ forall cy cm, In (cy, cm) table -> ltb y cy = true -> ltb m cm = false).
Proof.
  intros year mw table flags Hm Hf.
  destruct (selected_ok year mw table flags Hm Hf) as (v & Hv & Hl & H).
  exists v. split; auto. split; auto. split.
  - intros k Hk.
    destruct (nth_error_ex _ year k) as [y Hy]; auto.
    destruct (nth_error_ex _ mw k) as [m Hm']; [lia|].
    destruct (nth_error_ex _ flags k) as [f Hf']; [lia|].
    rewrite (H _ _ _ _ Hy Hm' Hf').
    destruct (existsb _ table || _); auto.
  - intros k y m f Ky Km Kf. rewrite (H _ _ _ _ Ky Km Kf). clear H.
    destruct (existsb _ table) eqn:E; simpl.
    + split; intros H; [discriminate|]. exfalso.
      destruct H as [_ H]. apply existsb_exists in E.
      destruct E as ((cy & cm) & Hin & Hb). apply andb_prop in Hb. simpl in Hb.
      destruct Hb as [H1 H2]. specialize (H _ _ Hin H1). congruence.
    + destruct (Z.eqb_spec f 0); simpl.
      * split; auto. intros _. split; auto. intros cy cm Hin H1.
        destruct (ltb m cm) eqn:H2; auto. exfalso.
        assert (existsb (fun row => ltb y (fst row) && ltb m (snd row)) table = true).
        { apply existsb_exists. exists (cy, cm). simpl. rewrite H1, H2. auto. }
        congruence.
      * split; intros H; [discriminate|tauto].
Qed.

End Generic.

(** Complete part of a catalogue over the reals. *)
Lemma C13_proof : forall (year mw : list R) (table : list (R * R)) (flags v : list Z) k y m,
  StronglySorted (fun a b => (snd a < snd b)%R /\ (fst b <= fst a)%R) table ->
  length mw = length year -> length flags = length year ->
  @selected_eq_flag_vector ROps year mw table flags = Ok v ->
  nth_error year k = Some y -> nth_error mw k = Some m ->
  nth_error flags k = Some 0%Z -> nth_error v k <> Some 0%Z ->
  forall cy cm, In (cy, cm) table -> (cm <= m)%R -> (y < cy)%R.
Proof.
  intros year mw table flags v k y m HS Lm Lf Hv Ky Km Kf Kv cy cm Hin Hc.
  destruct (@selected_ok ROps year mw table flags Lm Lf) as (v' & Hv' & _ & H).
  rewrite Hv in Hv'. injection Hv'; intros <-.
  rewrite (H _ _ _ _ Ky Km Kf) in Kv. simpl in Kv.
  rewrite orb_false_r in Kv.
  destruct (existsb _ table) eqn:E; [|congruence]. clear Kv H Hv Hv' Ky Km Kf.
  apply existsb_exists in E. destruct E as ((ry & rm) & Hr & Hb).
  apply andb_prop in Hb. destruct Hb as [H1 H2]. simpl in *.
  apply Rltb_true in H1. apply Rltb_true in H2.
  revert Hin Hr. induction HS; intros Hin Hr; [destruct Hin|].
  rewrite Forall_forall in H. destruct Hin as [->|Hin]; destruct Hr as [Er|Hr].
  - injection Er; intros; subst. lra.
  - specialize (H _ Hr). simpl in H. lra.
  - subst. specialize (H _ Hin). simpl in H. lra.
  - auto.
Qed.

Lemma C14_refuted_proof :
  exists (year mw : list R) (table : list (R * R)) (flags : list Z) y m,
    StronglySorted (fun a b => (snd a < snd b)%R /\ (fst b <= fst a)%R) table /\
    @selected_eq_flag_vector ROps year mw table flags = Ok [0%Z] /\
    nth_error year 0 = Some y /\ nth_error mw 0 = Some m /\
    ~ exists cy cm, In (cy, cm) table /\ (cm <= m)%R /\ (cy <= y)%R.
Proof.
  exists [2000%R], [4%R], [(1990%R, 5%R)], [0%Z], 2000%R, 4%R.
  split; [repeat constructor|]. split.
  - destruct (@selected_ok ROps [2000%R] [4%R] [(1990%R, 5%R)] [0%Z] eq_refl eq_refl)
      as (v & Hv & Hl & H).
    rewrite Hv. f_equal. specialize (H 0%nat 2000%R 4%R 0%Z eq_refl eq_refl eq_refl).
    simpl in H.
    destruct v as [|a [|b v]]; simpl in *; try lia.
    replace (Rltb 2000 1990) with false in H.
    + simpl in H. congruence.
    + symmetry. apply Rltb_false. lra.
  - split; auto. split; auto.
    intros (cy & cm & [E|[]] & H). injection E; intros; subst. lra.
Qed.

Lemma C14_partial_proof : forall (year mw : list R) (table : list (R * R)) (flags v : list Z) k y m,
  length mw = length year -> length flags = length year ->
  @selected_eq_flag_vector ROps year mw table flags = Ok v ->
  nth_error year k = Some y -> nth_error mw k = Some m -> nth_error v k = Some 0%Z ->
  forall cy cm, In (cy, cm) table -> (cy <= y)%R \/ (cm <= m)%R.
Proof.
  intros year mw table flags v k y m Lm Lf Hv Ky Km Kv cy cm Hin.
  destruct (@C12_proof ROps year mw table flags Lm Lf) as (v' & Hv' & _ & _ & H).
  rewrite Hv in Hv'. injection Hv'; intros <-.
  destruct (nth_error_ex _ flags k) as [f Hf].
  { rewrite Lf. eapply nth_error_lt; eauto. }
  destruct (proj1 (H _ _ _ _ Ky Km Hf) Kv) as [_ G].
  specialize (G _ _ Hin). simpl in G.
  destruct (Rlt_dec y cy).
  - right. apply Rltb_false. apply G. apply Rltb_true. auto.
  - left. lra.
Qed.
