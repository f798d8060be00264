(** Gardner-Knopoff declustering over the reals: C19-C21. *)
From Coq Require Import ZArith List Bool Arith Lia Permutation Sorted Reals Lra.
From Verif Require Import Base Ops BaseFacts RFacts CatUtil Decluster DeclusterSpec
  DeclusterProofs GeoProofs.
Import ListNotations.
Local Open Scope R_scope.

Notation revent := (event ROps).

(** ** The assumptions on the sort are satisfiable *)

Lemma insert_pos_perm : forall l k acc, Permutation (insert_pos l k acc) (k :: acc).
Proof.
  induction acc; simpl; auto. destruct (Rle_dec _ _); auto.
  rewrite IHacc. apply perm_swap.
Qed.

Lemma insertion_is_argsort : @is_argsort ROps insertion_argsort.
Proof.
  intros l. unfold insertion_argsort.
  assert (forall s, Permutation (fold_right (insert_pos l) [] s) s).
  { induction s; simpl; auto. rewrite insert_pos_perm. auto. }
  apply H.
Qed.

Lemma insert_pos_sorted : forall l k acc,
  StronglySorted (fun a b => nth a l 0 <= nth b l 0) acc ->
  StronglySorted (fun a b => nth a l 0 <= nth b l 0) (insert_pos l k acc).
Proof.
  induction acc; intros H; simpl.
  - repeat constructor.
  - inversion H as [|? ? H1 H2]; subst. destruct (Rle_dec _ _) as [L|L].
    + constructor; auto. constructor; auto. rewrite Forall_forall in *.
      intros b Hb. specialize (H2 b Hb). lra.
    + constructor; auto. rewrite Forall_forall in *. intros b Hb.
      apply (Permutation_in _ (insert_pos_perm l k acc)) in Hb. destruct Hb as [<-|Hb]; auto. lra.
Qed.

Lemma strongly_sorted_nth : forall A (P : A -> A -> Prop) l, StronglySorted P l ->
  forall i j a b, (i < j)%nat -> nth_error l i = Some a -> nth_error l j = Some b -> P a b.
Proof.
  induction 1 as [|x l H IH HF]; intros i j a b Hij Ha Hb.
  - destruct i; discriminate.
  - destruct j; [lia|]. destruct i; simpl in *.
    + injection Ha; intros <-. rewrite Forall_forall in HF. apply HF. eapply nth_error_In; eauto.
    + apply (IH i j); auto. lia.
Qed.

Lemma nth_strongly_sorted : forall A (P : A -> A -> Prop) l,
  (forall i j a b, (i < j)%nat -> nth_error l i = Some a -> nth_error l j = Some b -> P a b) ->
  StronglySorted P l.
Proof.
  induction l; intros H; constructor.
  - apply IHl. intros i j x y Hij Hx Hy. apply (H (S i) (S j)); auto. lia.
  - apply Forall_forall. intros b Hb. apply In_nth_error in Hb. destruct Hb as [j Hj].
    apply (H 0%nat (S j)); auto. lia.
Qed.

Lemma insertion_sorts : sorts insertion_argsort.
Proof.
  intros l. apply strongly_sorted_nth with (P := fun a b => nth a l 0 <= nth b l 0).
  unfold insertion_argsort.
  induction (seq 0 (length l)); simpl. constructor. apply insert_pos_sorted; auto.
Qed.

Lemma sorts_mw : forall argsort (cat : list revent) i j ka kb ea eb, sorts argsort -> (i < j)%nat ->
  nth_error (argsort (map ev_mw cat)) i = Some ka ->
  nth_error (argsort (map ev_mw cat)) j = Some kb ->
  nth_error cat ka = Some ea -> nth_error cat kb = Some eb -> (ev_mw ea : R) <= ev_mw eb.
Proof.
  intros argsort cat i j ka kb ea eb SO Hij Hi Hj Ha Hb.
  assert (G := SO (map ev_mw cat) i j ka kb Hij Hi Hj).
  assert (Ma := nth_error_nth _ _ (0 : R) (map_nth_error (@ev_mw ROps) ka cat Ha)).
  assert (Mb := nth_error_nth _ _ (0 : R) (map_nth_error (@ev_mw ROps) kb cat Hb)).
  rops. rewrite <- Ma, <- Mb. exact G.
Qed.

(** ** Uniqueness of the sorted order *)

Lemma sorted_perm_unique : forall A (P : A -> A -> Prop),
  (forall a, ~ P a a) -> (forall a b, P a b -> ~ P b a) ->
  forall l l', StronglySorted P l -> StronglySorted P l' -> Permutation l l' -> l = l'.
Proof.
  intros A P Irr Asym. induction l; intros l' S S' Pm.
  - apply Permutation_nil in Pm. auto.
  - destruct l' as [|b l']. apply Permutation_sym, Permutation_nil in Pm. discriminate.
    inversion S as [|? ? S1 F1]; inversion S' as [|? ? S2 F2]; subst.
    rewrite Forall_forall in F1, F2.
    assert (a = b).
    { assert (Ha : In a (b :: l')) by (apply (Permutation_in _ Pm); simpl; auto).
      assert (Hb : In b (a :: l)) by (apply (Permutation_in _ (Permutation_sym Pm)); simpl; auto).
      destruct Ha as [|Ha]; auto. destruct Hb as [|Hb]; auto.
      exfalso. apply (Asym a b); auto. }
    subst b. f_equal. apply IHl; auto. apply Permutation_cons_inv in Pm. auto.
Qed.

(** ** Rows as a function of the event *)

Definition row_of (f : R -> R * R) (e : revent) : srow ROps :=
  mkSrow (AR := ROps) e (match @event_time ROps e with Ok t => t | Err _ => 0 end)
         (fst (f (ev_mw e))) (snd (f (ev_mw e))).

Lemma all_rows_map : forall cat years f, @decimal_year ROps cat = Ok years ->
  all_rows cat years f = map (row_of f) cat.
Proof.
  intros cat years f H. apply list_ext.
  - unfold all_rows. rewrite length_map2, map_length, (mapM_length _ _ _ _ _ H). lia.
  - intros k a b Ha Hb. apply nth_error_map2_inv in Ha. destruct Ha as (e & y & He & Hy & ->).
    apply nth_error_map_inv in Hb. destruct Hb as (e' & He' & ->).
    assert (e' = e) by congruence. subst e'.
    destruct (mapM_nth _ _ _ _ _ _ _ H He) as (t & Ht & Et).
    assert (t = y) by congruence. subst t. unfold row_of. unfold event_time. rewrite Et. auto.
Qed.

Lemma pick_perm : forall A (l : list A) ids, Permutation ids (seq 0 (length l)) ->
  Permutation (pick l ids) l.
Proof.
  intros A l ids H.
  assert (P1 : Permutation (pick l ids) (pick l (seq 0 (length l)))).
  { unfold pick. apply Permutation_flat_map. auto. }
  rewrite P1. clear P1 H. 
  replace (pick l (seq 0 (length l))) with l; auto.
  destruct (pick_nth _ l (seq 0 (length l))) as [L N].
  { intros k Hk. apply in_seq in Hk. lia. }
  rewrite seq_length in L. apply list_ext; auto.
  intros k a b Ha Hb. assert (k < length l)%nat by (eapply nth_error_lt; eauto).
  rewrite (N k k) in Hb by (apply nth_error_seq; auto). congruence.
Qed.

Lemma sorted_rows_desc : forall argsort cat f years, @is_argsort ROps argsort -> sorts argsort ->
  @decimal_year ROps cat = Ok years ->
  let rows := sorted_rows cat years f (rev (argsort (map ev_mw cat))) in
  rows = map (row_of f) (pick cat (rev (argsort (map ev_mw cat)))) /\
  Permutation (pick cat (rev (argsort (map ev_mw cat)))) cat /\
  StronglySorted (fun a b : revent => (ev_mw b : R) <= ev_mw a) (pick cat (rev (argsort (map ev_mw cat)))).
Proof.
  intros argsort cat f years HA HS HY rows.
  assert (PA : Permutation (rev (argsort (map ev_mw cat))) (seq 0 (length cat))).
  { rewrite <- Permutation_rev. rewrite <- (map_length ev_mw cat). apply HA. }
  split; [|split].
  - unfold rows. change (pick (all_rows cat years f) (rev (argsort (map ev_mw cat)))
      = map (row_of f) (pick cat (rev (argsort (map ev_mw cat))))).
    rewrite (all_rows_map _ _ _ HY). apply pick_map.
  - apply pick_perm; auto.
  - apply nth_strongly_sorted. intros i j a b Hij Ha Hb.
    destruct (pick_nth _ cat (rev (argsort (map ev_mw cat)))) as [L N].
    { intros k Hk. apply (Permutation_in _ PA), in_seq in Hk. lia. }
    assert (Hi := nth_error_lt _ _ _ _ Ha). assert (Hj := nth_error_lt _ _ _ _ Hb).
    rewrite L in Hi, Hj.
    destruct (nth_error_ex _ _ _ Hi) as [ka Hka]. destruct (nth_error_ex _ _ _ Hj) as [kb Hkb].
    rewrite (N _ _ Hka) in Ha. rewrite (N _ _ Hkb) in Hb.
    set (l := argsort (map ev_mw cat)) in *. rewrite rev_length in Hi, Hj.
    assert (RI : forall q x, (q < length l)%nat -> nth_error (rev l) q = Some x ->
       nth_error l (length l - S q) = Some x).
    { intros q x Hq Hx. apply nth_error_nth with (d := 0%nat) in Hx. rewrite rev_nth in Hx by auto.
      rewrite <- Hx. apply nth_error_nth'. lia. }
    apply RI in Hka; auto. apply RI in Hkb; auto.
    apply (sorts_mw argsort cat (length l - S j) (length l - S i) kb ka); auto. lia.
Qed.

(** ** C20 *)

Lemma C20_proof : forall argsort cat w p vcl vmain flag k e,
  @is_argsort ROps argsort -> 
  @gardner_knopoff_decluster ROps argsort cat w p = Ok (vcl, vmain, flag) ->
  nth_error cat k = Some e -> nth_error flag k = Some (-1)%Z ->
  exists c i main f dt,
    nth_error vcl k = Some c /\ nth_error cat i = Some main /\
    (forall k' e', nth_error cat k' = Some e' -> nth_error vcl k' = Some c ->
       @in_window ROps w p main e' = true) /\
    @window_calc ROps w = Ok f /\ @delay ROps main e = Some dt /\
    - p * snd (f (ev_mw main)) <= dt < 0.
Proof.
  intros argsort cat w p vcl vmain flag k e AS H He Hf.
  destruct (@C15_proof ROps argsort AS _ _ _ _ _ _ H) as (Lv & Lf & _ & _ & Z0).
  assert (K := nth_error_lt _ _ _ _ He).
  destruct (nth_error_ex _ vcl k) as [c Hc]; [lia|].
  assert (c <> 0%nat). { intros ->. apply Z0 in Hc. congruence. }
  destruct (@C16_proof ROps argsort AS _ _ _ _ _ _ c H H0) as (i & main & Hi & M).
  { eapply nth_error_In; eauto. }
  destruct (M k e He Hc) as [W F]. rewrite Hf in F.
  assert (k <> i /\ @relative_flag ROps main e = (-1)%Z) as [Hki RF].
  { destruct (Nat.eqb_spec k i); [discriminate|]. split; congruence. }
  unfold relative_flag in RF. unfold in_window in W.
  destruct (@window_calc ROps w) as [f|] eqn:HW; [|discriminate].
  destruct (@delay ROps main e) as [dt|] eqn:HD; [|discriminate].
  exists c, i, main, f, dt. split; auto. split; auto. split.
  { intros k' e' He' Hv'. unfold in_window. rewrite HW. 
    destruct (M k' e' He' Hv') as [W' _]. unfold in_window in W'. rewrite HW in W'. auto. }
  split; auto. split; auto.
  destruct (f (ev_mw main)) as [space twin]. rops. simpl.
  apply andb_true_iff in W. destruct W as [W _]. apply andb_true_iff in W. destruct W as [W _].
  apply Rleb_true in W.
  destruct (Rleb 0 dt) eqn:E; [discriminate|]. apply Rleb_false in E. lra.
Qed.

Lemma C20_none_proof : forall argsort cat w vcl vmain flag,
  @is_argsort ROps argsort ->
  @gardner_knopoff_decluster ROps argsort cat w 0 = Ok (vcl, vmain, flag) ->
  ~ In (-1)%Z flag.
Proof.
  intros argsort cat w vcl vmain flag AS H Hin.
  apply In_nth_error in Hin. destruct Hin as [k Hk].
  destruct (@C15_proof ROps argsort AS _ _ _ _ _ _ H) as (Lv & Lf & _).
  destruct (nth_error_ex _ cat k) as [e He]. { rewrite <- Lf. eapply nth_error_lt; eauto. }
  destruct (C20_proof _ _ _ _ _ _ _ _ _ AS H He Hk) as (c & i & main & f & dt & _ & _ & _ & _ & _ & B).
  lra.
Qed.

(** ** C21 *)

Lemma NoDup_map_in : forall A B (g : A -> B) l,
  (forall a b, In a l -> In b l -> g a = g b -> a = b) -> NoDup l -> NoDup (map g l).
Proof.
  intros A B g l Inj H. induction H; simpl; constructor.
  - rewrite in_map_iff. intros (y & E & Hy). apply Inj in E; simpl; auto. subst; auto.
  - apply IHNoDup. intros; apply Inj; simpl; auto.
Qed.

Lemma combine_pick : forall A B (l : list A) (v : list B) ids, length l = length v ->
  combine (pick l ids) (pick v ids) = pick (combine l v) ids.
Proof.
  intros A B l v ids HL. assert (N : forall k,
    match nth_error l k, nth_error v k with
    | Some a, Some b => nth_error (combine l v) k = Some (a, b)
    | None, None => nth_error (combine l v) k = None
    | _, _ => False end).
  { revert v HL. induction l; destruct v; simpl; intros; try discriminate.
    - destruct k; simpl; auto.
    - destruct k; simpl; auto. apply IHl. lia. }
  induction ids; simpl; auto. unfold pick in *. simpl. specialize (N a).
  destruct (nth_error l a), (nth_error v a); try contradiction; rewrite N; simpl; auto.
  f_equal. auto.
Qed.

Lemma take_idx_pick : forall A (d : A) v ids, (forall k, In k ids -> (k < length v)%nat) ->
  take_idx d v ids = pick v ids.
Proof.
  induction ids; simpl; intros H; auto. unfold pick, take_idx in *. simpl.
  rewrite (nth_error_nth' v d (H a (or_introl eq_refl))). simpl. f_equal. apply IHids. auto.
Qed.

(** The labelled catalogue is a reordering of the labelled sorted rows. *)
Lemma gk_labels : forall argsort cat w fs vcl vmain flag, @is_argsort ROps argsort ->
  @gardner_knopoff_decluster ROps argsort cat w fs = Ok (vcl, vmain, flag) ->
  exists years f, @decimal_year ROps cat = Ok years /\ @window_calc ROps w = Ok f /\
  let rows := sorted_rows cat years f (rev (argsort (map ev_mw cat))) in
  let st := fold_left (gk_step fs rows) (seq 0 (length rows - 1))
                      (mkD (repeat 0%nat (length rows)) (repeat 0%Z (length rows)) 0) in
  length (d_vcl st) = length rows /\ length (d_flag st) = length rows /\
  Permutation (combine cat (combine vcl flag))
              (combine (map s_ev rows) (combine (d_vcl st) (d_flag st))).
Proof.
  intros argsort cat w fs vcl vmain flag AS H.
  destruct (@gk_run ROps argsort AS _ _ _ _ _ _ H) as (NE & _).
  destruct (@C15_proof ROps argsort AS _ _ _ _ _ _ H) as (Lv & Lf & _).
  unfold gardner_knopoff_decluster in H. destruct cat as [|e0 cat0]; [congruence|].
  set (cat := e0 :: cat0) in *.
  apply bind_ok in H. destruct H as (years & HY & H).
  apply bind_ok in H. destruct H as (f & HW & H).
  exists years, f. split; auto. split; auto.
  set (id0 := rev (argsort (map ev_mw cat))) in *. intros rows.
  assert (P : prep cat w id0 rows) by (apply prep_ok; auto).
  assert (PP := pr_perm _ _ _ _ P). assert (PL := pr_len _ _ _ _ P).
  rewrite (eqid_id0 (length cat)) in H by auto. fold rows in H.
  rewrite <- PL in H. intros st. fold st in H.
  assert (I : gk_inv fs rows (length rows - 1) st).
  { unfold st. apply gk_inv_loop. lia. }
  assert (LV := gi_lv _ _ _ _ I). assert (LF := gi_lf _ _ _ _ I).
  split; auto. split; auto.
  injection H; intros Hf Hm Hv. clear H.
  assert (In1 : forall k, In k (argsort_ids id0) -> (k < length cat)%nat).
  { intros k Hk. unfold argsort_ids in Hk. apply in_map_iff in Hk. destruct Hk as (j & <- & Hj).
    rewrite (id0_len (length cat)) in Hj by auto. apply in_seq in Hj.
    apply (spos_lt (length cat) id0 PP). lia. }
  rewrite take_idx_pick in Hv by (intros; rewrite LV, PL; auto).
  rewrite take_idx_pick in Hf by (intros; rewrite LF, PL; auto).
  rewrite <- (pr_unsort _ _ _ _ P). rewrite <- Hv, <- Hf.
  rewrite combine_pick by lia. rewrite combine_pick.
  2:{ rewrite combine_length, map_length. lia. }
  apply pick_perm. rewrite !combine_length, map_length, LV, LF, !Nat.min_id.
  rewrite PL.
  apply NoDup_Permutation.
  - unfold argsort_ids. apply NoDup_map_in; [|apply seq_NoDup].
    intros a b Ha Hb E. rewrite (id0_len (length cat)) in Ha, Hb by auto.
    apply in_seq in Ha, Hb. apply (spos_inj (length cat) id0 PP); auto; lia.
  - apply seq_NoDup.
  - intros k. split.
    + intros Hk. apply in_seq. apply In1 in Hk. lia.
    + intros Hk. apply in_seq in Hk. destruct (spos_onto _ _ PP k) as (j & Hj & <-). lia.
      apply in_map_iff. exists j. split; auto. rewrite (id0_len (length cat)) by auto.
      apply in_seq. lia.
Qed.

Lemma perm_label_unique : forall A B (l l' : list (A * B)) x y y',
  NoDup (map fst l) -> Permutation l l' -> In (x, y) l -> In (x, y') l' -> y = y'.
Proof.
  intros A B l l' x y y' ND P H H'.
  apply (Permutation_in _ (Permutation_sym P)) in H'.
  clear P l'. induction l as [|[a b] l IH]; [destruct H|].
  simpl in ND. inversion ND as [|? ? N1 N2]; subst.
  destruct H as [E|H], H' as [E'|H'].
  - congruence.
  - exfalso. apply N1. injection E; intros; subst. apply in_map_iff. exists (x, y'). auto.
  - exfalso. apply N1. injection E'; intros; subst. apply in_map_iff. exists (x, y). auto.
  - auto.
Qed.

Lemma map_fst_combine : forall A B (l : list A) (v : list B), length v = length l ->
  map fst (combine l v) = l.
Proof. induction l; destruct v; simpl; intros; try discriminate; auto. f_equal. auto. Qed.

Lemma in_combine2 : forall A B C (l : list A) (v : list B) (u : list C) k a b c,
  nth_error l k = Some a -> nth_error v k = Some b -> nth_error u k = Some c ->
  In (a, (b, c)) (combine l (combine v u)).
Proof.
  induction l; intros v u k a' b c H1 H2 H3. destruct k; discriminate.
  destruct k, v, u; simpl in *; try discriminate.
  - injection H1; injection H2; injection H3; intros; subst. auto.
  - right. apply (IHl v u k); auto.
Qed.

Lemma C21_proof : forall argsort argsort' cat cat' w fs vcl vmain flag,
  @is_argsort ROps argsort -> sorts argsort ->
  @is_argsort ROps argsort' -> sorts argsort' ->
  Permutation cat cat' -> NoDup (map ev_mw cat) ->
  @gardner_knopoff_decluster ROps argsort cat w fs = Ok (vcl, vmain, flag) ->
  exists vcl' vmain' flag',
    @gardner_knopoff_decluster ROps argsort' cat' w fs = Ok (vcl', vmain', flag') /\
    (forall k k' e, nth_error cat k = Some e -> nth_error cat' k' = Some e ->
       nth_error vcl k = nth_error vcl' k' /\ nth_error flag k = nth_error flag' k') /\
    Permutation vmain vmain'.
Proof.
  intros argsort argsort' cat cat' w fs vcl vmain flag A1 S1 A2 S2 P ND H.
  destruct (gk_labels _ _ _ _ _ _ _ A1 H) as (years & f & HY & HW & LV & LF & PL).
  assert (HY' : exists years', @decimal_year ROps cat' = Ok years').
  { apply mapM_ok. intros e He. apply (Permutation_in _ (Permutation_sym P)) in He.
    apply In_nth_error in He. destruct He as [k Hk].
    destruct (mapM_nth _ _ _ _ _ _ _ HY Hk) as (t & _ & Et). eauto. }
  destruct HY' as [years' HY'].
  destruct (@gk_run ROps argsort A1 _ _ _ _ _ _ H) as (NE & _).
  assert (NE' : cat' <> []).
  { intros ->. apply Permutation_sym, Permutation_nil in P. congruence. }
  destruct (@gk_ok ROps argsort' cat' w fs years' f NE' HY' HW) as [[[vcl' vmain'] flag'] H'].
  destruct (gk_labels _ _ _ _ _ _ _ A2 H') as (years2 & f2 & HY2 & HW2 & LV' & LF' & PL').
  assert (f2 = f) by congruence. subst f2. assert (years2 = years') by congruence. subst years2.
  destruct (sorted_rows_desc argsort cat f years A1 S1 HY) as (R1 & P1 & SS1).
  destruct (sorted_rows_desc argsort' cat' f years' A2 S2 HY') as (R2 & P2 & SS2).
  assert (EQ : pick cat (rev (argsort (map ev_mw cat))) = pick cat' (rev (argsort' (map ev_mw cat')))).
  { apply sorted_perm_unique with (P := fun a b : revent => ev_mw b < ev_mw a).
    - intros a L. lra.
    - intros a b L L'. lra.
    - assert (N1 : NoDup (map ev_mw (pick cat (rev (argsort (map ev_mw cat)))))).
      { apply (Permutation_NoDup (Permutation_map ev_mw (Permutation_sym P1))). auto. }
      revert SS1 N1. generalize (pick cat (rev (argsort (map ev_mw cat)))). clear.
      induction 1 as [|a l S IH F]; intros N; constructor; simpl in N; inversion N; subst; auto.
      rewrite Forall_forall in *. intros b Hb. specialize (F b Hb).
      assert (ev_mw a <> ev_mw b). { intros E. apply H1. rewrite E. apply in_map; auto. } rops. lra.
    - assert (N1 : NoDup (map ev_mw (pick cat' (rev (argsort' (map ev_mw cat')))))).
      { apply (Permutation_NoDup (Permutation_map ev_mw (Permutation_sym P2))).
        apply (Permutation_NoDup (Permutation_map ev_mw P)). auto. }
      revert SS2 N1. generalize (pick cat' (rev (argsort' (map ev_mw cat')))). clear.
      induction 1 as [|a l S IH F]; intros N; constructor; simpl in N; inversion N; subst; auto.
      rewrite Forall_forall in *. intros b Hb. specialize (F b Hb).
      assert (ev_mw a <> ev_mw b). { intros E. apply H1. rewrite E. apply in_map; auto. } rops. lra.
    - rewrite P1, P2. auto. }
  assert (ER : sorted_rows cat years f (rev (argsort (map ev_mw cat)))
             = sorted_rows cat' years' f (rev (argsort' (map ev_mw cat')))).
  { rewrite R1, R2, EQ. auto. }
  rewrite <- ER in PL'.
  assert (PC : Permutation (combine cat (combine vcl flag)) (combine cat' (combine vcl' flag'))).
  { rewrite PL, PL'. auto. }
  destruct (@C15_proof ROps argsort A1 _ _ _ _ _ _ H) as (Lv & Lf & _ & Em & _).
  destruct (@C15_proof ROps argsort' A2 _ _ _ _ _ _ H') as (Lv' & Lf' & _ & Em' & _).
  exists vcl', vmain', flag'. split; auto. split.
  - intros k k' e Hk Hk'.
    assert (B := nth_error_lt _ _ _ _ Hk). assert (B' := nth_error_lt _ _ _ _ Hk').
    destruct (nth_error_ex _ vcl k) as [v Hv]; [lia|]. destruct (nth_error_ex _ flag k) as [z Hz]; [lia|].
    destruct (nth_error_ex _ vcl' k') as [v' Hv']; [lia|].
    destruct (nth_error_ex _ flag' k') as [z' Hz']; [lia|].
    assert (E : (v, z) = (v', z')).
    { apply (perm_label_unique _ _ (combine cat (combine vcl flag)) (combine cat' (combine vcl' flag')) e);
        auto.
      - rewrite map_fst_combine by (rewrite combine_length; lia).
        apply NoDup_map_inv in ND. auto.
      - apply (in_combine2 _ _ _ _ _ _ k); auto.
      - apply (in_combine2 _ _ _ _ _ _ k'); auto. }
    injection E; intros; subst. split; congruence.
  - rewrite Em, Em'.
    assert (CF : forall (c : list revent) (v : list nat) (z : list Z), length v = length c -> length z = length c ->
       map fst (filter (fun p => Z.eqb (snd p) 0) (combine c z))
       = map fst (filter (fun p => Z.eqb (snd (snd p)) 0) (combine c (combine v z)))).
    { induction c; destruct v, z; simpl; intros; try discriminate; auto.
      destruct (Z.eqb z 0); simpl; [f_equal|]; apply IHc; lia. }
    rewrite (CF cat vcl flag), (CF cat' vcl' flag') by auto.
    apply Permutation_map.
    assert (PF : forall A (g : A -> bool) l l', Permutation l l' -> Permutation (filter g l) (filter g l')).
    { intros A g l l' Pm. induction Pm; simpl; auto.
      - destruct (g x); auto.
      - destruct (g x), (g y); auto. apply perm_swap.
      - etransitivity; eauto. }
    apply PF. auto.
Qed.

(** ** C19 *)

Lemma event_dist_sym : forall e1 e2 : revent, @event_dist ROps e1 e2 = @event_dist ROps e2 e1.
Proof. intros. apply hav_sym. Qed.

Lemma event_dist_self : forall e : revent, @event_dist ROps e e = 0.
Proof. intros. apply hav_self. Qed.

(** If the windows of r cover those of ri, backwards and forwards, being in the window of ri
    puts ri into the window of r. *)
Lemma rwin_swap : forall fs (r ri : srow ROps), 
  s_twin ri <= fs * s_twin r -> fs * s_twin ri <= s_twin r -> s_space ri <= s_space r ->
  @rwin ROps fs ri r = true -> @rwin ROps fs r ri = true.
Proof.
  intros fs r ri H1 H2 H3 W. unfold rwin in *. rops.
  rewrite !andb_true_iff, !Rleb_true in *. destruct W as [[W1 W2] W3].
  rewrite event_dist_sym. rops. repeat split; lra.
Qed.

Lemma gk_first_kept : forall (fs : R) (rows : list (srow ROps)) (r0 : srow ROps), nth_error rows 0 = Some r0 ->
  (forall j r, nth_error rows j = Some r -> j <> 0%nat ->
     s_twin r <= fs * s_twin r0 /\ fs * s_twin r <= s_twin r0 /\ s_space r <= s_space r0) ->
  forall m, (m <= length rows)%nat ->
  let st := fold_left (@gk_step ROps fs rows) (seq 0 m)
                      (mkD (repeat 0%nat (length rows)) (repeat 0%Z (length rows)) 0) in
  nth 0 (d_flag st) 0%Z = 0%Z /\
  ((0 < m)%nat -> forall j r, nth_error rows j = Some r -> j <> 0%nat -> @rwin ROps fs r0 r = true ->
     nth j (d_vcl st) 0%nat <> 0%nat).
Proof.
  intros fs rows r0 H0 HW. induction m; intros Hm.
  - simpl. rewrite nth_repeat_0. split; auto. intros; lia.
  - destruct (IHm ltac:(lia)) as [F V]. cbv zeta. rewrite seq_S, fold_left_app.
    cbn [fold_left Nat.add].
    set (st := fold_left (@gk_step ROps fs rows) (seq 0 m) _) in *.
    assert (I : @gk_inv ROps fs rows m st) by (apply gk_inv_loop; lia).
    destruct (nth_error_ex _ rows m) as [ri Hri]; [lia|].
    destruct (@gk_step_spec ROps fs rows st m ri (gi_lv _ _ _ _ I) (gi_lf _ _ _ _ I) Hri)
      as [(vcl & flag & E & LV & LF & V0 & _ & Pt)|(E & Iso)]; rewrite E; simpl.
    + destruct (Nat.eq_dec m 0) as [->|Hm0].
      * assert (ri = r0) by congruence. subst ri. split.
        -- destruct (Pt 0%nat r0 H0) as [_ ->]. auto.
        -- intros _ j r Hr Hj W. destruct (Pt j r Hr) as [-> _]. rewrite W. discriminate.
      * assert (NW : @rwin ROps fs ri r0 = false).
        { destruct (@rwin ROps fs ri r0) eqn:W; auto. exfalso.
          destruct (HW _ _ Hri Hm0) as (W1 & W2 & W3).
          apply (V ltac:(lia) _ _ Hri Hm0); [apply rwin_swap; auto|auto]. }
        split.
        -- destruct (Pt 0%nat r0 H0) as [_ ->]. rewrite NW.
           destruct (Nat.eqb 0 m); auto.
        -- intros _ j r Hr Hj W. destruct (Pt j r Hr) as [-> _].
           destruct (@rwin ROps fs ri r); [discriminate|]. apply (V ltac:(lia) j r); auto.
    + split; auto. intros _ j r Hr Hj W.
      destruct (Nat.eq_dec m 0) as [->|Hm0].
      * assert (ri = r0) by congruence. subst ri.
        rewrite Iso with (j := j) (r := r) in W; auto. discriminate.
        unfold st. simpl. apply nth_repeat_0.
      * apply (V ltac:(lia) j r); auto.
Qed.

Lemma C19_partial_proof : forall argsort cat w fs f vcl vmain flag k e,
  @is_argsort ROps argsort -> sorts argsort ->
  @gardner_knopoff_decluster ROps argsort cat w fs = Ok (vcl, vmain, flag) ->
  @window_calc ROps w = Ok f -> nth_error cat k = Some e ->
  (forall k' e', k' <> k -> nth_error cat k' = Some e' ->
     ev_mw e' < ev_mw e /\
     snd (f (ev_mw e')) <= fs * snd (f (ev_mw e)) /\
     fs * snd (f (ev_mw e')) <= snd (f (ev_mw e)) /\
     fst (f (ev_mw e')) <= fst (f (ev_mw e))) ->
  nth_error flag k = Some 0%Z.
Proof.
  intros argsort cat w fs f vcl vmain flag k e AS SO H HW He Hmax.
  destruct (@gk_run ROps argsort AS _ _ _ _ _ _ H)
    as (NE & id0 & rows & st & P & Id & I & Est & Ev & Ef & Em).
  assert (PP := pr_perm _ _ _ _ P). assert (PL := pr_len _ _ _ _ P).
  assert (K := nth_error_lt _ _ _ _ He).
  assert (SP : spos id0 k = 0%nat).
  { destruct (Nat.eq_dec (spos id0 k) 0) as [|NZ]; auto. exfalso.
    destruct (spos_onto _ _ PP 0) as (k0 & Hk0 & S0). lia.
    assert (k0 <> k) by congruence.
    destruct (nth_error_ex _ cat k0 Hk0) as [e0 He0].
    destruct (Hmax _ _ H0 He0) as (L & _).
    assert (N1 := spos_nth _ _ PP k K). assert (N0 := spos_nth _ _ PP k0 Hk0).
    rewrite S0 in N0.
    set (l := argsort (map ev_mw cat)) in *.
    assert (LL : length l = length cat).
    { unfold l. rewrite (Permutation_length (AS (map ev_mw cat))), seq_length, map_length. auto. }
    assert (RI : forall q x, nth_error (rev l) q = Some x -> nth_error l (length l - S q) = Some x).
    { intros q x Hx. assert (q < length l)%nat by (rewrite <- rev_length; eapply nth_error_lt; eauto).
      apply nth_error_nth with (d := 0%nat) in Hx. rewrite rev_nth in Hx by auto.
      rewrite <- Hx. apply nth_error_nth'. lia. }
    rewrite Id in N0, N1. apply RI in N0. apply RI in N1.
    assert (G := sorts_mw argsort cat _ _ _ _ _ _ SO
      (ltac:(assert (Q := spos_lt _ _ PP k K); rewrite Id in Q, NZ; lia)
         : (length l - S (spos (rev l) k) < length l - 1)%nat) N1 N0 He He0).
    rops. lra. }
  destruct (nth_error_ex _ rows 0) as [r0 Hr0]; [lia|].
  destruct (gk_first_kept fs rows r0 Hr0) with (m := (length cat - 1)%nat) as [F0 _].
  - intros j r Hr Hj. destruct (spos_onto _ _ PP j) as (k' & Hk' & Sk').
    { rewrite <- PL. eapply nth_error_lt; eauto. }
    destruct (nth_error_ex _ cat k' Hk') as [e' He'].
    assert (k' <> k) by congruence.
    destruct (Hmax _ _ H0 He') as (_ & W).
    destruct (pr_row _ _ _ _ P _ _ He') as (f1 & t1 & HW1 & _ & R1).
    destruct (pr_row _ _ _ _ P _ _ He) as (f2 & t2 & HW2 & _ & R2).
    assert (f1 = f) by congruence. assert (f2 = f) by congruence. subst f1 f2.
    rewrite Sk', Hr in R1. rewrite SP, Hr0 in R2. injection R1; injection R2; intros -> ->.
    simpl. auto.
  - lia.
  - rewrite Ef. rewrite (unsort_nth (length cat)); auto.
    2:{ rewrite (gi_lf _ _ _ _ I). auto. }
    rewrite SP. rewrite <- F0, Est. rewrite PL. apply nth_error_nth'.
    rewrite <- Est, (gi_lf _ _ _ _ I). lia.
Qed.

(** *** Witness: the M5 the day before the M7 purges it. *)

Definition w19 : list revent :=
  [ mkEvent (AR := ROps) 1990 1 2 10 45 7 0;
    mkEvent (AR := ROps) 1990 1 1 10 45 5 0;
    mkEvent (AR := ROps) 1950 1 1 10 45 4 0 ].

(** Three magnitudes in decreasing order have one sorted order. *)
Lemma argsort3 : forall argsort a b c, @is_argsort ROps argsort -> sorts argsort ->
  c < b -> b < a -> argsort [a; b; c] = [2; 1; 0]%nat.
Proof.
  intros argsort a b c AS SO Hbc Hab.
  assert (P := AS [a; b; c]). simpl in P.
  assert (L := Permutation_length P). simpl in L.
  assert (S := SO [a; b; c]).
  destruct (argsort [a; b; c]) as [|x l1]; [discriminate|]; destruct l1 as [|y l2]; [discriminate|]; destruct l2 as [|z l3]; [discriminate|]; destruct l3; try discriminate.
  assert (D : forall q, In q [x; y; z] -> q = 0%nat \/ q = 1%nat \/ q = 2%nat).
  { intros q Hq. apply (Permutation_in _ P) in Hq. simpl in Hq. intuition auto. }
  assert (ND : NoDup [x; y; z]).
  { apply (Permutation_NoDup (Permutation_sym P)). repeat constructor; simpl; intuition discriminate. }
  assert (S1 := S 0%nat 1%nat x y ltac:(lia) eq_refl eq_refl).
  assert (S2 := S 1%nat 2%nat y z ltac:(lia) eq_refl eq_refl).
  inversion ND as [|? ? N1 N2]; subst. inversion N2 as [|? ? N3 N4]; subst. simpl in N1, N3.
  destruct (D x) as [->|[->| ->]]; simpl; auto;
    destruct (D y) as [->|[->| ->]]; simpl; auto;
    destruct (D z) as [->|[->| ->]]; simpl; auto; simpl in S1, S2;
    try (exfalso; intuition congruence); try lra; auto.
Qed.

(** One step with the selection already computed. *)
Lemma gk_step_eval : forall (AR : Ops) fs rows st i ri, nth_error rows i = Some ri ->
  @gk_step AR fs rows st i =
  if Nat.eqb (nth i (d_vcl st) 0%nat) 0%nat then
    let vsel := map (rwin fs ri) rows in
    let dt := map (fun r => sub (s_time r) (s_time ri)) rows in
    let temp_vsel := set_nth i false vsel in
    if existsb (fun b => b) temp_vsel then
      mkD (mask_set vsel (d_ci st + 1)%nat (d_vcl st))
          (set_nth i 0%Z
             (mask_set (mask_set (map (fun t => leb (ofZ 0) t) dt) false temp_vsel) (-1)%Z
                       (mask_set vsel 1%Z (d_flag st))))
          (d_ci st + 1)
    else st
  else st.
Proof.
  intros. unfold gk_step. rewrite H. destruct (Nat.eqb _ _); auto. cbv zeta. rewrite gk_vsel. auto.
Qed.

Lemma C19_witness : forall argsort, @is_argsort ROps argsort -> sorts argsort ->
  @gardner_knopoff_decluster ROps argsort w19 TDW_GARDNERKNOPOFF 0
  = Ok ([1; 1; 0]%nat, tl w19, [1; 0; 0]%Z).
Proof.
  intros argsort AS SO. unfold gardner_knopoff_decluster.
  destruct w19 as [|e0 cat] eqn:E19; [discriminate|]. rewrite <- E19 in *. clear e0 cat E19.
  assert (Y : @decimal_year ROps w19 = Ok [1990 + 1/365; 1990; 1950]).
  { unfold decimal_year, w19. cbn [mapM ev_year ev_month ev_day].
    rewrite !(decimal_year_value _ 1) by lia. cbn. repeat f_equal; field. }
  rewrite Y. cbn [bind window_calc].
  assert (A : argsort (map ev_mw w19) = [2; 1; 0]%nat).
  { unfold w19. cbn [map ev_mw]. apply argsort3; auto; lra. }
  rewrite A. cbn [rev app].
  set (ra := mkSrow (AR := ROps) (nth 0 w19 (mkEvent (AR := ROps) 0 0 0 0 0 0 0)) (1990 + 1/365)
                    (fst (@gk_window ROps 7)) (snd (@gk_window ROps 7))).
  set (rb := mkSrow (AR := ROps) (nth 1 w19 (mkEvent (AR := ROps) 0 0 0 0 0 0 0)) 1990
                    (fst (@gk_window ROps 5)) (snd (@gk_window ROps 5))).
  set (rc := mkSrow (AR := ROps) (nth 2 w19 (mkEvent (AR := ROps) 0 0 0 0 0 0 0)) 1950
                    (fst (@gk_window ROps 4)) (snd (@gk_window ROps 4))).
  assert (R : sorted_rows w19 [1990 + 1/365; 1990; 1950] (@gk_window ROps) [0; 1; 2]%nat = [ra; rb; rc])
    by reflexivity.
  rewrite R. clear R A Y.
  assert (T5 : 1 / 365 <= snd (@gk_window ROps 5)).
  { unfold gk_window, lit. simpl. rops. rdec. apply Rmult_le_compat_r; [lra|].
    rewrite <- (Rpower_O 10) by lra. apply power10_mono. lra. }
  assert (D0 : forall r r', In r [ra; rb; rc] -> In r' [ra; rb; rc] ->
            @event_dist ROps (s_ev r) (s_ev r') = 0).
  { intros r r' Hr Hr'.
    assert (G : forall q, In q [ra; rb; rc] -> ev_lon (s_ev q) = 10 /\ ev_lat (s_ev q) = 45).
    { intros q [<-|[<-|[<-|[]]]]; simpl; auto. }
    destruct (G r Hr) as [G1 G2]. destruct (G r' Hr') as [G3 G4].
    unfold event_dist. rewrite G1, G2, G3, G4. apply hav_self. }
  assert (SP : forall r, In r [ra; rb; rc] -> 0 < s_space r).
  { intros q [<-|[<-|[<-|[]]]]; simpl; apply Rpower_pos. }
  assert (TW : forall r, In r [ra; rb; rc] -> 0 < s_twin r).
  { intros q Hq. destruct (windows_positive TDW_GARDNERKNOPOFF (@gk_window ROps) (ev_mw (s_ev q)) eq_refl) as [_ W].
    destruct Hq as [<-|[<-|[<-|[]]]]; exact W. }
  assert (RW : forall r r', In r [ra; rb; rc] -> In r' [ra; rb; rc] ->
            @rwin ROps 0 r r' = (Rleb 0 (s_time r' - s_time r) && Rleb (s_time r' - s_time r) (s_twin r))).
  { intros r r' Hr Hr'. unfold rwin. rewrite D0 by auto. rops.
    replace (- s_twin r * 0) with 0 by ring. assert (Q := SP r Hr).
    assert (Q2 : Rleb 0 (s_space r) = true) by (apply Rleb_true; lra).
    rewrite Q2, andb_true_r. auto. }
  assert (T0 := TW ra (or_introl eq_refl)).
  assert (T1 := TW rb (or_intror (or_introl eq_refl))).
  assert (W00 : @rwin ROps 0 ra ra = true). { rewrite RW by (simpl; auto). cbn [s_time ra]. rdec. auto. }
  assert (W01 : @rwin ROps 0 ra rb = false). { rewrite RW by (simpl; auto). cbn [s_time ra rb]. rdec. auto. }
  assert (W02 : @rwin ROps 0 ra rc = false). { rewrite RW by (simpl; auto). cbn [s_time ra rc]. rdec. auto. }
  assert (W10 : @rwin ROps 0 rb ra = true). { rewrite RW by (simpl; auto). cbn [s_time s_twin ra rb]. rdec. auto. }
  assert (W11 : @rwin ROps 0 rb rb = true). { rewrite RW by (simpl; auto). cbn [s_time ra rb]. rdec. auto. }
  assert (W12 : @rwin ROps 0 rb rc = false). { rewrite RW by (simpl; auto). cbn [s_time rb rc]. rdec. auto. }
  cbn [length w19 Nat.sub seq fold_left].
  rewrite (gk_step_eval ROps 0 [ra; rb; rc] _ 0 ra eq_refl). cbn [map d_vcl repeat nth Nat.eqb].
  rewrite W00, W01, W02. cbn [set_nth existsb orb].
  rewrite (gk_step_eval ROps 0 [ra; rb; rc] _ 1 rb eq_refl). cbn [map d_vcl repeat nth Nat.eqb].
  rewrite W10, W11, W12. cbn [set_nth existsb orb].
  cbn [d_ci d_vcl d_flag mask_set]. cbn [s_time ra rb rc]. rops. rdec. cbn. reflexivity.
Qed.

Lemma C19_facts : exists k (e : revent) k' (e' : revent) c,
  nth_error w19 k = Some e /\ nth_error w19 k' = Some e' /\
  c <> 0%nat /\ nth_error [1; 1; 0]%nat k = Some c /\ nth_error [1; 1; 0]%nat k' = Some c /\
  (forall q x, nth_error w19 q = Some x -> ev_mw x <= ev_mw e) /\
  ev_mw e' < ev_mw e /\
  nth_error [1; 0; 0]%Z k <> Some 0%Z /\ nth_error [1; 0; 0]%Z k' = Some 0%Z.
Proof.
  exists 0%nat. eexists. exists 1%nat. eexists. exists 1%nat.
  split; [reflexivity|]. split; [reflexivity|]. split; [lia|]. split; [reflexivity|].
  split; [reflexivity|]. split.
  - intros q x Hx. destruct q as [|[|[|q]]]; cbn in Hx; try (destruct q; discriminate);
      injection Hx; intros <-; cbn; lra.
  - split; [cbn; lra|]. split; [discriminate|reflexivity].
Qed.

(** The same catalogue with foreshock proportion 1. *)
Lemma C20_case_proof : forall argsort, @is_argsort ROps argsort -> sorts argsort ->
  exists vmain, @gardner_knopoff_decluster ROps argsort w19 TDW_GARDNERKNOPOFF 1
  = Ok ([1; 1; 0]%nat, vmain, [0; -1; 0]%Z).
Proof.
  intros argsort AS SO. unfold gardner_knopoff_decluster.
  destruct w19 as [|e0 cat] eqn:E19; [discriminate|]. rewrite <- E19 in *. clear e0 cat E19.
  assert (Y : @decimal_year ROps w19 = Ok [1990 + 1/365; 1990; 1950]).
  { unfold decimal_year, w19. cbn [mapM ev_year ev_month ev_day].
    rewrite !(decimal_year_value _ 1) by lia. cbn. repeat f_equal; field. }
  rewrite Y. cbn [bind window_calc].
  assert (A : argsort (map ev_mw w19) = [2; 1; 0]%nat).
  { unfold w19. cbn [map ev_mw]. apply argsort3; auto; lra. }
  rewrite A. cbn [rev app].
  set (ra := mkSrow (AR := ROps) (nth 0 w19 (mkEvent (AR := ROps) 0 0 0 0 0 0 0)) (1990 + 1/365)
                    (fst (@gk_window ROps 7)) (snd (@gk_window ROps 7))).
  set (rb := mkSrow (AR := ROps) (nth 1 w19 (mkEvent (AR := ROps) 0 0 0 0 0 0 0)) 1990
                    (fst (@gk_window ROps 5)) (snd (@gk_window ROps 5))).
  set (rc := mkSrow (AR := ROps) (nth 2 w19 (mkEvent (AR := ROps) 0 0 0 0 0 0 0)) 1950
                    (fst (@gk_window ROps 4)) (snd (@gk_window ROps 4))).
  assert (R : sorted_rows w19 [1990 + 1/365; 1990; 1950] (@gk_window ROps) [0; 1; 2]%nat = [ra; rb; rc])
    by reflexivity.
  rewrite R. clear R A Y.
  assert (T7 : 1 / 365 <= snd (@gk_window ROps 7) /\ snd (@gk_window ROps 7) <= 10).
  { unfold gk_window, lit. cbn [snd]. rops. rdec. split.
    - apply Rmult_le_compat_r; [lra|].
      rewrite <- (Rpower_O 10) by lra. apply power10_mono. lra.
    - assert (Rpower 10 (32 / 1000 * 7 + 27389 / 10000) <= Rpower 10 (INR 3)).
      { apply power10_mono. cbn. lra. }
      rewrite Rpower_pow in H by lra. cbn in H. lra. }
  assert (D0 : forall r r', In r [ra; rb; rc] -> In r' [ra; rb; rc] ->
            @event_dist ROps (s_ev r) (s_ev r') = 0).
  { intros r r' Hr Hr'.
    assert (G : forall q, In q [ra; rb; rc] -> ev_lon (s_ev q) = 10 /\ ev_lat (s_ev q) = 45).
    { intros q [<-|[<-|[<-|[]]]]; simpl; auto. }
    destruct (G r Hr) as [G1 G2]. destruct (G r' Hr') as [G3 G4].
    unfold event_dist. rewrite G1, G2, G3, G4. apply hav_self. }
  assert (SP : 0 < s_space ra) by (simpl; apply Rpower_pos).
  assert (RW : forall r', In r' [ra; rb; rc] ->
            @rwin ROps 1 ra r' = (Rleb (- s_twin ra) (s_time r' - s_time ra) && Rleb (s_time r' - s_time ra) (s_twin ra))).
  { intros r' Hr'. unfold rwin. rewrite D0 by (simpl; auto). rops.
    replace (- s_twin ra * 1) with (- s_twin ra) by ring.
    assert (Q2 : Rleb 0 (s_space ra) = true) by (apply Rleb_true; lra).
    rewrite Q2, andb_true_r. auto. }
  destruct T7 as [T7 T7'].
  assert (W00 : @rwin ROps 1 ra ra = true). { rewrite RW by (simpl; auto). cbn [s_time s_twin ra]. rdec. auto. }
  assert (W01 : @rwin ROps 1 ra rb = true). { rewrite RW by (simpl; auto). cbn [s_time s_twin ra rb]. rdec. auto. }
  assert (W02 : @rwin ROps 1 ra rc = false). { rewrite RW by (simpl; auto). cbn [s_time s_twin ra rc]. rdec. auto. }
  cbn [length w19 Nat.sub seq fold_left].
  rewrite (gk_step_eval ROps 1 [ra; rb; rc] _ 0 ra eq_refl). cbn [map d_vcl repeat nth Nat.eqb].
  rewrite W00, W01, W02. cbn [set_nth existsb orb].
  cbn [d_ci d_vcl d_flag mask_set]. cbn [s_time ra rb rc]. rops. rdec. cbn [mask_set].
  unfold gk_step. cbn [nth_error d_vcl nth Nat.eqb Nat.add].
  eexists. cbn. reflexivity.
Qed.
