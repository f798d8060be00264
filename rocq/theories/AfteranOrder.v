(** AFTERAN declustering and the order of the rows: the second half of C21. *)
From Coq Require Import ZArith List Bool Arith Lia Permutation Sorted Reals Lra.
From Verif Require Import Base Ops BaseFacts RFacts CatUtil Decluster DeclusterSpec CalendarSpec
  DeclusterProofs GeoProofs DeclusterR AfteranProofs AfteranR.
Import ListNotations.
Local Open Scope R_scope.

(** The labelled catalogue is a reordering of the labelled sorted rows. *)
Lemma af_labels : forall argsort cat w tw vcl vmain flag, @is_argsort ROps argsort ->
  @afteran_decluster ROps argsort cat w tw = Ok (vcl, vmain, flag) ->
  exists years f st, @decimal_year ROps cat = Ok years /\ @window_calc ROps w = Ok f /\
  let rows := sorted_rows cat years f (rev (argsort (map ev_mw cat))) in
  fold_left (@af_step ROps (tw / 365) rows) (seq 0 (length rows))
            (Ok (mkD (repeat 0%nat (length rows)) (repeat 0%Z (length rows)) 0)) = Ok st /\
  length (d_vcl st) = length rows /\ length (d_flag st) = length rows /\
  Permutation (combine cat (combine vcl flag))
              (combine (map s_ev rows) (combine (d_vcl st) (d_flag st))).
Proof.
  intros argsort cat w tw vcl vmain flag AS H.
  destruct (@af_run ROps argsort AS _ _ _ _ _ _ H) as (NE & _).
  destruct (@C23_proof ROps argsort AS _ _ _ _ _ _ H) as (Lv & Lf & _).
  unfold afteran_decluster in H. destruct cat as [|e0 cat0]; [congruence|].
  set (cat := e0 :: cat0) in *.
  apply bind_ok in H. destruct H as (years & HY & H).
  apply bind_ok in H. destruct H as (f & HW & H).
  apply bind_ok in H. destruct H as (st & HF & H).
  exists years, f, st. split; auto. split; auto.
  set (id0 := rev (argsort (map ev_mw cat))) in *. intros rows.
  assert (P : prep cat w id0 rows) by (apply prep_ok; auto).
  assert (PP := pr_perm _ _ _ _ P). assert (PL := pr_len _ _ _ _ P).
  rewrite (eqid_id0 (length cat)) in H by auto. fold rows in H, HF.
  rewrite <- PL in HF. rops. split; [exact HF|].
  assert (I := HF). apply (@af_inv_loop ROps) in I; [|lia].
  assert (LV := ai_lv _ _ I). assert (LF := ai_lf _ _ I).
  split; auto. split; auto.
  injection H; intros Hf Hm Hv. clear H.
  assert (In1 : forall k, In k (argsort_ids id0) -> (k < length cat)%nat).
  { intros k Hk. unfold argsort_ids in Hk. apply in_map_iff in Hk. destruct Hk as (j & <- & Hj).
    rewrite (id0_len (length cat)) in Hj by auto. apply in_seq in Hj.
    apply (spos_lt (length cat) id0 PP). lia. }
  rewrite take_idx_pick in Hv by (intros; rewrite LV, PL; auto).
  rewrite take_idx_pick in Hf by (intros; rewrite LF, PL; auto).
  rewrite <- (pr_unsort _ _ _ _ P). rewrite <- Hv, <- Hf.
  rewrite combine_pick by lia. rewrite combine_pick.
  2:{ rewrite combine_length, map_length. lia. }
  apply pick_perm. rewrite !combine_length, map_length, LV, LF, !Nat.min_id.
  rewrite PL.
  apply NoDup_Permutation.
  - unfold argsort_ids. apply NoDup_map_in; [|apply seq_NoDup].
    intros a b Ha Hb E. rewrite (id0_len (length cat)) in Ha, Hb by auto.
    apply in_seq in Ha, Hb. apply (spos_inj (length cat) id0 PP); auto; lia.
  - apply seq_NoDup.
  - intros k. split.
    + intros Hk. apply in_seq. apply In1 in Hk. lia.
    + intros Hk. apply in_seq in Hk. destruct (spos_onto _ _ PP k) as (j & Hj & <-). lia.
      apply in_map_iff. exists j. split; auto. rewrite (id0_len (length cat)) by auto.
      apply in_seq. lia.
Qed.

(** Catalogues that are reorderings of each other have the same sorted rows. *)
Lemma same_rows : forall argsort argsort' (cat cat' : list revent) f years years',
  @is_argsort ROps argsort -> sorts argsort -> @is_argsort ROps argsort' -> sorts argsort' ->
  Permutation cat cat' -> NoDup (map ev_mw cat) ->
  @decimal_year ROps cat = Ok years -> @decimal_year ROps cat' = Ok years' ->
  sorted_rows cat years f (rev (argsort (map ev_mw cat)))
  = sorted_rows cat' years' f (rev (argsort' (map ev_mw cat'))).
Proof.
  intros argsort argsort' cat cat' f years years' A1 S1 A2 S2 P ND HY HY'.
  destruct (sorted_rows_desc argsort cat f years A1 S1 HY) as (R1 & P1 & SS1).
  destruct (sorted_rows_desc argsort' cat' f years' A2 S2 HY') as (R2 & P2 & SS2).
  assert (EQ : pick cat (rev (argsort (map ev_mw cat))) = pick cat' (rev (argsort' (map ev_mw cat')))).
  { apply sorted_perm_unique with (P := fun a b : revent => ev_mw b < ev_mw a).
    - intros a L. lra.
    - intros a b L L'. lra.
    - assert (N1 : NoDup (map ev_mw (pick cat (rev (argsort (map ev_mw cat)))))).
      { apply (Permutation_NoDup (Permutation_map ev_mw (Permutation_sym P1))). auto. }
      revert SS1 N1. generalize (pick cat (rev (argsort (map ev_mw cat)))). clear.
      induction 1 as [|a l S IH F]; intros N; constructor; simpl in N; inversion N; subst; auto.
      rewrite Forall_forall in *. intros b Hb. specialize (F b Hb).
      assert (ev_mw a <> ev_mw b). { intros E. apply H1. rewrite E. apply in_map; auto. } rops. lra.
    - assert (N1 : NoDup (map ev_mw (pick cat' (rev (argsort' (map ev_mw cat')))))).
      { apply (Permutation_NoDup (Permutation_map ev_mw (Permutation_sym P2))).
        apply (Permutation_NoDup (Permutation_map ev_mw P)). auto. }
      revert SS2 N1. generalize (pick cat' (rev (argsort' (map ev_mw cat')))). clear.
      induction 1 as [|a l S IH F]; intros N; constructor; simpl in N; inversion N; subst; auto.
      rewrite Forall_forall in *. intros b Hb. specialize (F b Hb).
      assert (ev_mw a <> ev_mw b). { intros E. apply H1. rewrite E. apply in_map; auto. } rops. lra.
    - rewrite P1, P2. auto. }
  rewrite R1, R2, EQ. auto.
Qed.

Lemma C21_afteran_proof : forall argsort argsort' cat cat' w tw vcl vmain flag,
  @is_argsort ROps argsort -> sorts argsort ->
  @is_argsort ROps argsort' -> sorts argsort' ->
  Permutation cat cat' -> NoDup (map ev_mw cat) ->
  @afteran_decluster ROps argsort cat w tw = Ok (vcl, vmain, flag) ->
  exists vcl' vmain' flag',
    @afteran_decluster ROps argsort' cat' w tw = Ok (vcl', vmain', flag') /\
    (forall k k' e, nth_error cat k = Some e -> nth_error cat' k' = Some e ->
       nth_error vcl k = nth_error vcl' k' /\ nth_error flag k = nth_error flag' k') /\
    Permutation vmain vmain'.
Proof.
  intros argsort argsort' cat cat' w tw vcl vmain flag A1 S1 A2 S2 P ND H.
  destruct (af_labels _ _ _ _ _ _ _ A1 H) as (years & f & st & HY & HW & HS & LV & LF & PL).
  assert (HY' : exists years', @decimal_year ROps cat' = Ok years').
  { apply mapM_ok. intros e He. apply (Permutation_in _ (Permutation_sym P)) in He.
    apply In_nth_error in He. destruct He as [k Hk].
    destruct (mapM_nth _ _ _ _ _ _ _ HY Hk) as (t & _ & Et). eauto. }
  destruct HY' as [years' HY'].
  destruct (@af_run ROps argsort A1 _ _ _ _ _ _ H) as (NE & _).
  assert (NE' : cat' <> []).
  { intros ->. apply Permutation_sym, Permutation_nil in P. congruence. }
  destruct (af_ok argsort' cat' w tw years' f A2 NE' HY' HW) as [[[vcl' vmain'] flag'] H'].
  destruct (af_labels _ _ _ _ _ _ _ A2 H') as (years2 & f2 & st2 & HY2 & HW2 & HS' & LV' & LF' & PL').
  assert (f2 = f) by congruence. subst f2. assert (years2 = years') by congruence. subst years2.
  assert (ER := same_rows argsort argsort' cat cat' f years years' A1 S1 A2 S2 P ND HY HY').
  rewrite <- ER in PL', HS'. assert (st2 = st) by congruence. subst st2.
  assert (PC : Permutation (combine cat (combine vcl flag)) (combine cat' (combine vcl' flag'))).
  { rewrite PL, PL'. auto. }
  destruct (@C23_proof ROps argsort A1 _ _ _ _ _ _ H) as (Lv & Lf & _ & Em & _).
  destruct (@C23_proof ROps argsort' A2 _ _ _ _ _ _ H') as (Lv' & Lf' & _ & Em' & _).
  exists vcl', vmain', flag'. split; auto. split.
  - intros k k' e Hk Hk'.
    assert (B := nth_error_lt _ _ _ _ Hk). assert (B' := nth_error_lt _ _ _ _ Hk').
    destruct (nth_error_ex _ vcl k) as [v Hv]; [lia|]. destruct (nth_error_ex _ flag k) as [z Hz]; [lia|].
    destruct (nth_error_ex _ vcl' k') as [v' Hv']; [lia|].
    destruct (nth_error_ex _ flag' k') as [z' Hz']; [lia|].
    assert (E : (v, z) = (v', z')).
    { apply (perm_label_unique _ _ (combine cat (combine vcl flag)) (combine cat' (combine vcl' flag')) e);
        auto.
      - rewrite map_fst_combine by (rewrite combine_length; lia).
        apply NoDup_map_inv in ND. auto.
      - apply (in_combine2 _ _ _ _ _ _ k); auto.
      - apply (in_combine2 _ _ _ _ _ _ k'); auto. }
    injection E; intros; subst. split; congruence.
  - rewrite Em, Em'.
    assert (CF : forall (c : list revent) (v : list nat) (z : list Z), length v = length c -> length z = length c ->
       map fst (filter (fun p => Z.eqb (snd p) 0) (combine c z))
       = map fst (filter (fun p => Z.eqb (snd (snd p)) 0) (combine c (combine v z)))).
    { induction c; destruct v, z; simpl; intros; try discriminate; auto.
      destruct (Z.eqb z 0); simpl; [f_equal|]; apply IHc; lia. }
    rewrite (CF cat vcl flag), (CF cat' vcl' flag') by auto.
    apply Permutation_map.
    assert (PF : forall A (g : A -> bool) l l', Permutation l l' -> Permutation (filter g l) (filter g l')).
    { intros A g l l' Pm. induction Pm; simpl; auto.
      - destruct (g x); auto.
      - destruct (g x), (g y); auto. apply perm_swap.
      - etransitivity; eauto. }
    apply PF. auto.
Qed.
