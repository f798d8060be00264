(** The counts of weichert_prep in any arithmetic, given the bin of every event and the number of
    bin edges below every completeness row (C123). *)
From Coq Require Import ZArith Arith Bool List Lia.
From Verif Require Import Base Ops BaseFacts RFacts Recurrence RecurrenceProofs WeichertProofs.
Import ListNotations.

Section AR.
Context {AR : Ops}.

Lemma last_below_gen : forall (l : list T) (p : T -> bool) n a, (a < length l)%nat ->
  (forall b x, nth_error l b = Some x -> p x = Nat.ltb b n) ->
  match last_opt (nonzero (map p l)) with Some x => Nat.ltb a (x + 1) | None => false end = Nat.ltb a n.
Proof.
  intros l p n a La H. destruct (nth_error_ex _ l a La) as (g & Hg). assert (PA := H a g Hg).
  destruct (last_opt _) as [x|] eqn:E.
  - apply last_nonzero_max in E. destruct E as (E1 & E2). apply nth_error_map_inv in E1. destruct E1 as (gx & G1 & G2).
    rewrite (H _ _ G1) in G2. symmetry in G2. apply Nat.ltb_lt in G2.
    destruct (Nat.ltb_spec a (x + 1)) as [B|B]; destruct (Nat.ltb_spec a n) as [D|D]; auto; try lia.
    assert (a <= x)%nat; [|lia]. apply E2. rewrite nth_error_map, Hg. cbn [option_map]. f_equal. exact PA.
  - apply last_opt_none in E. destruct (Nat.ltb a n) eqn:D; auto. exfalso.
    assert (I : In a (nonzero (map p l))) by (apply nonzero_in; rewrite nth_error_map, Hg; cbn [option_map]; f_equal; exact PA).
    rewrite E in I. destruct I.
Qed.

Variables (ti mi : list T).

Lemma zero_incomplete_gen : forall M f row tx ty,
  matrix_is M (length ti - 1) (length mi - 1) f ->
  (forall a x, nth_error ti a = Some x -> ltb x (fst row) = Nat.ltb a tx) ->
  (forall b x, nth_error mi b = Some x -> ltb x (snd row) = Nat.ltb b ty) ->
  matrix_is (zero_incomplete ti mi M row) (length ti - 1) (length mi - 1)
    (fun a b => if Nat.ltb a tx && Nat.ltb b ty then 0%nat else f a b).
Proof.
  intros M f row tx ty H HX HY. unfold zero_incomplete.
  assert (A := fun a La => last_below_gen ti (fun t => ltb t (fst row)) tx a La HX).
  assert (B := fun b Lb => last_below_gen mi (fun t => ltb t (snd row)) ty b Lb HY).
  destruct (last_opt (nonzero (map (fun t => ltb t (fst row)) ti))) as [x|].
  - destruct (last_opt (nonzero (map (fun t => ltb t (snd row)) mi))) as [y|].
    + eapply matrix_ext; [apply matrix_zero_corner; exact H|]. intros a b La Lb. cbv beta. rewrite A, B by lia. reflexivity.
    + eapply matrix_ext; [exact H|]. intros a b La Lb. cbv beta. rewrite <- B by lia. now rewrite andb_false_r.
  - eapply matrix_ext; [exact H|]. intros a b La Lb. cbv beta. rewrite <- A by lia. reflexivity.
Qed.

Variables (W : Type) (rowv : W -> T * T) (tx ty : W -> nat).

Lemma zero_fold_gen : forall ws M f,
  (forall w, In w ws -> (forall a x, nth_error ti a = Some x -> ltb x (fst (rowv w)) = Nat.ltb a (tx w)) /\
                        (forall b x, nth_error mi b = Some x -> ltb x (snd (rowv w)) = Nat.ltb b (ty w))) ->
  matrix_is M (length ti - 1) (length mi - 1) f ->
  matrix_is (fold_left (zero_incomplete ti mi) (map rowv ws) M) (length ti - 1) (length mi - 1)
    (fun a b => if existsb (fun w => Nat.ltb a (tx w) && Nat.ltb b (ty w)) ws then 0%nat else f a b).
Proof.
  induction ws as [|w ws IH]; intros M f HW H; [exact H|].
  cbn [map fold_left]. destruct (HW w (or_introl eq_refl)) as (HX & HY).
  eapply matrix_ext. { apply IH; [intros w' I; apply HW; now right|]. apply (zero_incomplete_gen _ _ _ _ _ H HX HY). }
  intros a b _ _. cbv beta. cbn [existsb]. destruct (Nat.ltb a (tx w) && Nat.ltb b (ty w)); cbn [orb]; auto.
  destruct (existsb _ ws); auto.
Qed.

Variables (E : Type) (yr mg : E -> T) (ja jb : E -> nat).

Lemma weichert_counts_gen : forall (evs : list E) (ws : list W) i,
  (forall e, In e evs -> (ja e + 2 <= length ti)%nat /\
     (forall a, (a + 1 < length ti)%nat -> in_bin ti a (yr e) = Nat.eqb a (ja e)) /\
     (forall b, (b + 1 < length mi)%nat -> in_bin mi b (mg e) = Nat.eqb b (jb e))) ->
  (forall w, In w ws -> (forall a x, nth_error ti a = Some x -> ltb x (fst (rowv w)) = Nat.ltb a (tx w)) /\
                        (forall b x, nth_error mi b = Some x -> ltb x (snd (rowv w)) = Nat.ltb b (ty w))) ->
  (i + 1 < length mi)%nat ->
  list_sum (map (fun row => nth i row 0%nat)
    (fold_left (zero_incomplete ti mi) (map rowv ws) (histogram2d (map yr evs) (map mg evs) ti mi)))
  = count (fun e => Nat.eqb i (jb e) && negb (existsb (fun w => Nat.ltb (ja e) (tx w) && Nat.ltb i (ty w)) ws)) evs.
Proof.
  intros evs ws i HE HW Hi.
  set (f0 := fun a b => count (fun e => Nat.eqb a (ja e) && Nat.eqb b (jb e)) evs).
  assert (H0 : matrix_is (histogram2d (map yr evs) (map mg evs) ti mi) (length ti - 1) (length mi - 1) f0).
  { unfold histogram2d. eapply matrix_ext; [apply matrix_map|]. intros a b La Lb. cbv beta. unfold f0.
    assert (X : forall l, incl l evs ->
      count_true (map2 (fun y m => in_bin ti a y && in_bin mi b m) (map yr l) (map mg l))
      = count (fun e => Nat.eqb a (ja e) && Nat.eqb b (jb e)) l).
    { intros l IL. rewrite map2_combine.
      assert (C : combine (map yr l) (map mg l) = map (fun e => (yr e, mg e)) l) by (clear; induction l; cbn; congruence).
      rewrite C, map_map, count_true_count. apply count_ext. intros e I. cbn [fst snd].
      destruct (HE e (IL e I)) as (_ & A & B). rewrite A, B by lia. reflexivity. }
    apply X, incl_refl. }
  apply (zero_fold_gen ws _ _ HW) in H0.
  rewrite (matrix_column_sum _ _ _ _ i H0) by lia. rewrite list_sum_nsum.
  rewrite (map_ext_in _ (fun a => count (fun e =>
      negb (existsb (fun w => Nat.ltb a (tx w) && Nat.ltb i (ty w)) ws) && (Nat.eqb a (ja e) && Nat.eqb i (jb e))) evs)).
  2:{ intros a _. unfold f0. destruct (existsb _ ws); cbn [negb andb]; auto. symmetry. apply count_none. auto. }
  rewrite nsum_count_swap. apply nsum_indicator. intros e I. destruct (HE e I) as (L & _ & _).
  set (p := fun a => negb (existsb (fun w => Nat.ltb a (tx w) && Nat.ltb i (ty w)) ws) && (Nat.eqb a (ja e) && Nat.eqb i (jb e))).
  change (count p (seq 0 (length ti - 1)) = if Nat.eqb i (jb e) && negb (existsb (fun w => Nat.ltb (ja e) (tx w) && Nat.ltb i (ty w)) ws) then 1%nat else 0%nat).
  assert (PA : p (ja e) = (Nat.eqb i (jb e) && negb (existsb (fun w => Nat.ltb (ja e) (tx w) && Nat.ltb i (ty w)) ws))).
  { unfold p. rewrite Nat.eqb_refl. cbn [andb]. apply andb_comm. }
  rewrite <- PA.
  assert (OTHER : forall a', a' <> ja e -> p a' = false).
  { intros a' N. unfold p. rewrite (proj2 (Nat.eqb_neq a' (ja e)) N). cbn [andb]. apply andb_false_r. }
  replace (length ti - 1)%nat with (ja e + S (length ti - 1 - ja e - 1))%nat by lia.
  rewrite seq_app, count_app. cbn [seq Nat.add]. rewrite count_cons.
  rewrite !count_none; [destruct (p (ja e)); auto| |]; intros a' Ia'; apply OTHER; apply in_seq in Ia'; lia.
Qed.
End AR.
