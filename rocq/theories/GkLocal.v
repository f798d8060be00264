(** Gardner-Knopoff declustering and an event far from all others (C97). *)
From Coq Require Import ZArith List Bool Arith Lia Permutation Sorted Reals Lra.
From Verif Require Import Base Ops BaseFacts RFacts CatUtil Decluster DeclusterSpec DeclusterProofs
  GeoProofs DeclusterR.
Import ListNotations.

Section Skip.
Context {AR : Ops}.

(** Where the rows before the insertion of one at position p stand after it. *)
Definition sk (p j : nat) : nat := if j <? p then j else S j.

Lemma sk_neq : forall p j, sk p j <> p.
Proof. intros p j. unfold sk. destruct (Nat.ltb_spec j p); lia. Qed.

Lemma sk_inj : forall p i j, sk p i = sk p j -> i = j.
Proof. intros p i j. unfold sk. destruct (Nat.ltb_spec i p), (Nat.ltb_spec j p); lia. Qed.

Lemma sk_onto : forall p j, j <> p -> exists i, j = sk p i.
Proof.
  intros p j H. destruct (Nat.ltb_spec j p) as [L|L].
  - exists j. unfold sk. destruct (Nat.ltb_spec j p); lia.
  - exists (j - 1). unfold sk. destruct (Nat.ltb_spec (j - 1) p); lia.
Qed.

Lemma sk_row : forall A (l1 l2 : list A) a j,
  nth_error (l1 ++ a :: l2) (sk (length l1) j) = nth_error (l1 ++ l2) j.
Proof.
  intros A l1 l2 a j. unfold sk. destruct (Nat.ltb_spec j (length l1)).
  - rewrite !nth_error_app1; auto.
  - rewrite !nth_error_app2 by lia. replace (S j - length l1) with (S (j - length l1)) by lia. reflexivity.
Qed.

Lemma mid_row : forall A (l1 l2 : list A) a, nth_error (l1 ++ a :: l2) (length l1) = Some a.
Proof. intros. rewrite nth_error_app2, Nat.sub_diag by lia. reflexivity. Qed.

(** The two runs in step: the same labels for the common rows, none for the new one. *)
Definition rel (p n : nat) (st st' : dstate) : Prop :=
  length (d_vcl st) = n /\ length (d_flag st) = n /\
  length (d_vcl st') = S n /\ length (d_flag st') = S n /\ d_ci st' = d_ci st /\
  nth p (d_vcl st') 0 = 0 /\ nth p (d_flag st') 0%Z = 0%Z /\
  (forall j, j < n -> nth (sk p j) (d_vcl st') 0 = nth j (d_vcl st) 0 /\
                      nth (sk p j) (d_flag st') 0%Z = nth j (d_flag st) 0%Z).

Variables (fs : T) (A B : list (srow AR)) (re : srow AR).
Hypothesis Far : forall r, In r (A ++ B) -> rwin fs re r = false /\ rwin fs r re = false.
Let p := length A.
Let rows := A ++ B.
Let rows' := A ++ re :: B.

Lemma far_in : forall j r, nth_error rows j = Some r -> rwin fs re r = false /\ rwin fs r re = false.
Proof. intros j r H. apply Far. eapply nth_error_In; eauto. Qed.

Lemma len' : length rows' = S (length rows).
Proof. unfold rows', rows. rewrite !app_length. cbn. lia. Qed.

Lemma rel_step : forall st st' i, i < length rows -> rel p (length rows) st st' ->
  rel p (length rows) (gk_step fs rows st i) (gk_step fs rows' st' (sk p i)).
Proof.
  intros st st' i Hi R. destruct (nth_error_ex _ rows i Hi) as [ri Hri].
  assert (Hri' : nth_error rows' (sk p i) = Some ri) by (unfold rows', p; rewrite sk_row; exact Hri).
  assert (R0 := R). destruct R0 as (L1 & L2 & L3 & L4 & Ci & P1 & P2 & Pt).
  rewrite <- len' in L3, L4.
  destruct (far_in _ _ Hri) as (_ & FE).
  destruct (gk_step_spec fs rows st i ri L1 L2 Hri)
    as [(vcl & flag & E & LV & LF & V0 & (j0 & r0 & N0 & H0 & W0) & PtS)|(E & Iso)];
  destruct (gk_step_spec fs rows' st' (sk p i) ri L3 L4 Hri')
    as [(vcl' & flag' & E' & LV' & LF' & V0' & (j0' & r0' & N0' & H0' & W0') & PtS')|(E' & Iso')];
  rewrite E, E'.
  - rewrite len' in LV', LF'. unfold rel. cbn [d_vcl d_flag d_ci]. repeat split; auto.
    + destruct (PtS' p re (mid_row _ _ _ _)) as (-> & _). rewrite FE. exact P1.
    + destruct (PtS' p re (mid_row _ _ _ _)) as (_ & ->). rewrite FE. 
      destruct (Nat.eqb_spec p (sk p i)) as [Q|Q]; auto.
    + destruct (nth_error_ex _ rows j H) as [r Hr].
      assert (Hr' : nth_error rows' (sk p j) = Some r) by (unfold rows', p; rewrite sk_row; exact Hr).
      destruct (PtS j r Hr) as (-> & _). destruct (PtS' _ r Hr') as (-> & _). rewrite Ci.
      destruct (rwin fs ri r); auto. apply Pt; auto.
    + destruct (nth_error_ex _ rows j H) as [r Hr].
      assert (Hr' : nth_error rows' (sk p j) = Some r) by (unfold rows', p; rewrite sk_row; exact Hr).
      destruct (PtS j r Hr) as (_ & ->). destruct (PtS' _ r Hr') as (_ & ->).
      destruct (Nat.eqb_spec j i) as [Q|Q].
      * subst j. rewrite Nat.eqb_refl. reflexivity.
      * destruct (Nat.eqb_spec (sk p j) (sk p i)) as [Q'|Q']; [exfalso; apply Q; eapply sk_inj; eauto|].
        destruct (rwin fs ri r); auto. apply Pt; auto.
  - exfalso. destruct (Pt i Hi) as (Q & _). rewrite V0 in Q.
    rewrite (Iso' Q (sk p j0) r0) in W0; [discriminate| |unfold rows', p; rewrite sk_row; exact H0].
    intros Z. apply N0. eapply sk_inj; eauto.
  - exfalso. destruct (Pt i Hi) as (Q & _). rewrite V0' in Q. symmetry in Q.
    destruct (Nat.eq_dec j0' p) as [->|Np].
    + unfold p, rows' in H0'. rewrite mid_row in H0'. injection H0' as <-. congruence.
    + destruct (sk_onto p j0' Np) as (j & ->). unfold rows', p in H0'. rewrite sk_row in H0'.
      rewrite (Iso Q j r0') in W0'; [discriminate| |exact H0']. intros ->. now apply N0'.
  - exact R.
Qed.

Lemma rel_mid : forall st st', rel p (length rows) st st' ->
  rel p (length rows) st (gk_step fs rows' st' p).
Proof.
  intros st st' R. assert (R0 := R). destruct R0 as (L1 & L2 & L3 & L4 & Ci & P1 & P2 & Pt).
  rewrite <- len' in L3, L4.
  destruct (gk_step_spec fs rows' st' p re L3 L4 (mid_row _ _ _ _))
    as [(vcl' & flag' & E' & LV' & LF' & V0' & (j0' & r0' & N0' & H0' & W0') & PtS')|(E' & Iso')].
  - exfalso. destruct (sk_onto p j0' N0') as (j & ->). unfold rows', p in H0'. rewrite sk_row in H0'.
    destruct (far_in j r0' H0'). congruence.
  - rewrite E'. exact R.
Qed.

Lemma rel_fold : forall l st st', (forall i, In i l -> i < length rows) -> rel p (length rows) st st' ->
  rel p (length rows) (fold_left (gk_step fs rows) l st) (fold_left (gk_step fs rows') (map (sk p) l) st').
Proof.
  induction l as [|i l IH]; intros st st' H R; cbn [fold_left map]; auto.
  apply IH; [intros; apply H; now right|]. apply rel_step; auto. apply H. now left.
Qed.

Lemma rel_init : rel p (length rows) (mkD (repeat 0 (length rows)) (repeat 0%Z (length rows)) 0)
  (mkD (repeat 0 (length rows')) (repeat 0%Z (length rows')) 0).
Proof.
  unfold rel. cbn [d_vcl d_flag d_ci]. rewrite !repeat_length, len'.
  repeat split; intros; rewrite ?nth_repeat_0; auto.
Qed.

Lemma skip_run : B <> [] ->
  rel p (length rows)
    (fold_left (gk_step fs rows) (seq 0 (length rows - 1)) (mkD (repeat 0 (length rows)) (repeat 0%Z (length rows)) 0))
    (fold_left (gk_step fs rows') (seq 0 (length rows' - 1)) (mkD (repeat 0 (length rows')) (repeat 0%Z (length rows')) 0)).
Proof.
  intros NB. assert (LB : length rows = p + length B) by (unfold rows, p; apply app_length).
  assert (0 < length B) by (destruct B; [congruence|cbn; lia]).
  assert (S1 : seq 0 (length rows - 1) = seq 0 p ++ seq p (length B - 1)).
  { rewrite <- seq_app. f_equal. lia. }
  assert (S2 : seq 0 (length rows' - 1) = map (sk p) (seq 0 p) ++ p :: map (sk p) (seq p (length B - 1))).
  { rewrite len'. replace (S (length rows) - 1) with (p + S (length B - 1)) by lia. rewrite seq_app. f_equal.
    - rewrite <- (map_id (seq 0 p)) at 1. apply map_ext_in. intros i Hi. apply in_seq in Hi. unfold sk.
      destruct (Nat.ltb_spec i p); lia.
    - cbn [Nat.add seq]. f_equal. rewrite <- seq_shift. apply map_ext_in. intros i Hi. apply in_seq in Hi.
      unfold sk. destruct (Nat.ltb_spec i p); lia. }
  rewrite S1, S2, !fold_left_app. cbn [fold_left].
  apply rel_fold. { intros i Hi. apply in_seq in Hi. lia. }
  apply rel_mid. apply rel_fold; [|apply rel_init]. intros i Hi. apply in_seq in Hi. lia.
Qed.

End Skip.

Lemma rel_list : forall p n st st', p <= n -> rel p n st st' ->
  d_vcl st' = firstn p (d_vcl st) ++ 0 :: skipn p (d_vcl st) /\
  d_flag st' = firstn p (d_flag st) ++ 0%Z :: skipn p (d_flag st).
Proof.
  intros p n st st' Hp (L1 & L2 & L3 & L4 & _ & P1 & P2 & Pt).
  assert (G : forall A (d : A) (l l' : list A), length l = n -> length l' = S n -> nth p l' d = d ->
    (forall j, j < n -> nth (sk p j) l' d = nth j l d) -> l' = firstn p l ++ d :: skipn p l).
  { intros A d l l' Ll Ll' E Q. apply nth_ext with (d := d) (d' := d).
    - rewrite app_length. cbn [length]. rewrite firstn_length, skipn_length. lia.
    - intros k Hk. assert (Lf : length (firstn p l) = p) by (rewrite firstn_length; lia).
      destruct (Nat.eq_dec k p) as [->|N].
      + rewrite E, app_nth2, Lf, Nat.sub_diag by lia. reflexivity.
      + destruct (sk_onto p k N) as (j & ->).
        assert (j < n). { unfold sk in Hk. destruct (Nat.ltb_spec j p); lia. }
        rewrite Q by auto. rewrite <- (firstn_skipn p l) at 1. unfold sk. destruct (Nat.ltb_spec j p).
        * rewrite !app_nth1 by lia. reflexivity.
        * rewrite !app_nth2 by lia. rewrite Lf. replace (S j - p) with (S (j - p)) by lia. reflexivity. }
  split; apply G; auto; intros; apply Pt; auto.
Qed.

(** ** Over the reals *)
Local Open Scope R_scope.

Lemma rwin_row_of : forall w f fs (a b : revent), @window_calc ROps w = Ok f ->
  (exists t, @event_time ROps a = Ok t) -> (exists t, @event_time ROps b = Ok t) ->
  @rwin ROps fs (row_of f a) (row_of f b) = @in_window ROps w fs a b.
Proof.
  intros w f fs a b HW (ta & Ha) (tb & Hb). unfold rwin, in_window, delay, row_of. rewrite HW, Ha, Hb.
  cbn [s_ev s_time s_twin s_space]. destruct (f (ev_mw a)) as [s t] eqn:E. cbn [fst snd]. reflexivity.
Qed.

Lemma strict_desc : forall l : list revent,
  StronglySorted (fun a b : revent => (ev_mw b : R) <= ev_mw a) l -> NoDup (map ev_mw l) ->
  StronglySorted (fun a b : revent => (ev_mw b : R) < ev_mw a) l.
Proof.
  induction 1 as [|a l S IH F]; intros N; constructor; simpl in N; inversion N; subst; auto.
  rewrite Forall_forall in *. intros b Hb. specialize (F b Hb).
  assert (ev_mw a <> ev_mw b). { intros E. apply H1. rewrite E. apply in_map; auto. } rops. lra.
Qed.

Lemma sorted_app : forall A (P : A -> A -> Prop) l1 a l2, StronglySorted P (l1 ++ a :: l2) ->
  StronglySorted P (l1 ++ l2) /\ (forall x, In x l1 -> P x a).
Proof.
  induction l1 as [|b l1 IH]; intros a l2 S; inversion S as [|? ? S1 F1]; subst.
  - split; auto. intros x [].
  - destruct (IH _ _ S1) as (Q1 & Q2). rewrite Forall_forall in F1. cbn. split.
    + constructor; auto. apply Forall_forall. intros x Hx. apply F1. apply in_app_iff in Hx.
      apply in_app_iff. cbn. tauto.
    + intros x [<-|Hx]; auto. apply F1. apply in_app_iff. cbn. tauto.
Qed.

Lemma combine_app_mid : forall A B (l1 l2 : list A) (v1 v2 : list B) a b, length l1 = length v1 ->
  combine (l1 ++ a :: l2) (v1 ++ b :: v2) = combine l1 v1 ++ (a, b) :: combine l2 v2.
Proof.
  induction l1 as [|x l1 IH]; intros l2 [|y v1] v2 a b H; try discriminate; cbn; auto. f_equal. apply IH. auto.
Qed.

Lemma combine_split : forall A B (l1 l2 : list A) (v : list B), length (l1 ++ l2) = length v ->
  combine (l1 ++ l2) v = combine l1 (firstn (length l1) v) ++ combine l2 (skipn (length l1) v).
Proof.
  induction l1 as [|x l1 IH]; intros l2 v H; cbn; auto. destruct v as [|y v]; [discriminate|]. cbn. f_equal. auto.
Qed.

Lemma combine_skipn : forall A B (l : list A) (v : list B) n,
  skipn n (combine l v) = combine (skipn n l) (skipn n v).
Proof.
  induction l as [|x l IH]; intros v n; [destruct n; reflexivity|].
  destruct n, v; cbn; auto. destruct (skipn n l); reflexivity.
Qed.

(** Labels of the rows with and without the new one. *)
Lemma insert_labels : forall A (l1 l2 : list A) e (v : list nat) (z : list Z),
  length v = length (l1 ++ l2) -> length z = length (l1 ++ l2) ->
  Permutation (combine (l1 ++ e :: l2)
      (combine (firstn (length l1) v ++ 0%nat :: skipn (length l1) v)
               (firstn (length l1) z ++ 0%Z :: skipn (length l1) z)))
    ((e, (0%nat, 0%Z)) :: combine (l1 ++ l2) (combine v z)).
Proof.
  intros A l1 l2 e v z Lv Lz. rewrite app_length in *.
  assert (F1 : length (firstn (length l1) v) = length l1) by (rewrite firstn_length; lia).
  assert (F2 : length (firstn (length l1) z) = length l1) by (rewrite firstn_length; lia).
  rewrite combine_app_mid by lia. rewrite combine_app_mid by (rewrite combine_length; lia).
  rewrite combine_split by (rewrite app_length, combine_length; lia).
  rewrite combine_firstn, combine_skipn. symmetry. apply Permutation_middle.
Qed.

Lemma C97_proof : forall argsort argsort' cat cat' e w fs vcl vmain flag,
  @is_argsort ROps argsort -> sorts argsort ->
  @is_argsort ROps argsort' -> sorts argsort' ->
  Permutation cat' (e :: cat) -> NoDup (map ev_mw cat') ->
  (exists t, @event_time ROps e = Ok t) ->
  (forall x, In x cat -> @in_window ROps w fs e x = false /\ @in_window ROps w fs x e = false) ->
  (exists x, In x cat /\ ev_mw x < ev_mw e) ->
  @gardner_knopoff_decluster ROps argsort cat w fs = Ok (vcl, vmain, flag) ->
  exists vcl' vmain' flag',
    @gardner_knopoff_decluster ROps argsort' cat' w fs = Ok (vcl', vmain', flag') /\
    (forall k k' x, nth_error cat k = Some x -> nth_error cat' k' = Some x ->
       nth_error vcl' k' = nth_error vcl k /\ nth_error flag' k' = nth_error flag k) /\
    Permutation vmain' (e :: vmain).
Proof.
  intros argsort argsort' cat cat' e w fs vcl vmain flag A1 S1 A2 S2 P ND (te & Te) Far (x0 & X0 & XL) H.
  destruct (gk_labels _ _ _ _ _ _ _ A1 H) as (years & f & HY & HW & LV & LF & PL).
  assert (TM : forall x, In x cat' -> exists t, @event_time ROps x = Ok t).
  { intros x Hx. apply (Permutation_in _ P) in Hx. destruct Hx as [<-|Hx]; [eauto|].
    apply In_nth_error in Hx. destruct Hx as [k Hk].
    destruct (mapM_nth _ _ _ _ _ _ _ HY Hk) as (t & _ & Et). eauto. }
  assert (HY' : exists years', @decimal_year ROps cat' = Ok years') by (apply mapM_ok; exact TM).
  destruct HY' as [years' HY'].
  assert (NE' : cat' <> []).
  { intros ->. apply Permutation_nil in P. discriminate. }
  destruct (@gk_ok ROps argsort' cat' w fs years' f NE' HY' HW) as [[[vcl' vmain'] flag'] H'].
  destruct (gk_labels _ _ _ _ _ _ _ A2 H') as (years2 & f2 & HY2 & HW2 & LV' & LF' & PL').
  assert (f2 = f) by congruence. subst f2. assert (years2 = years') by congruence. subst years2.
  destruct (sorted_rows_desc argsort cat f years A1 S1 HY) as (R1 & P1 & SS1).
  destruct (sorted_rows_desc argsort' cat' f years' A2 S2 HY') as (R2 & P2 & SS2).
  assert (NDC : NoDup (ev_mw e :: map ev_mw cat)) by (exact (Permutation_NoDup (Permutation_map ev_mw P) ND)).
  assert (N2 : NoDup (map ev_mw cat)) by (inversion NDC; auto).
  set (L := pick cat (rev (argsort (map ev_mw cat)))) in *.
  set (L' := pick cat' (rev (argsort' (map ev_mw cat')))) in *.
  assert (SL : StronglySorted (fun a b : revent => ev_mw b < ev_mw a) L).
  { apply strict_desc; auto. apply (Permutation_NoDup (Permutation_map ev_mw (Permutation_sym P1))). auto. }
  assert (SL' : StronglySorted (fun a b : revent => ev_mw b < ev_mw a) L').
  { apply strict_desc; auto. apply (Permutation_NoDup (Permutation_map ev_mw (Permutation_sym P2))). auto. }
  assert (IE : In e L').
  { apply (Permutation_in _ (Permutation_sym P2)). apply (Permutation_in _ (Permutation_sym P)). now left. }
  apply in_split in IE. destruct IE as (LA & LB & EL').
  rewrite EL' in SL'. destruct (sorted_app _ _ _ _ _ SL') as (SAB & BEF).
  assert (PAB : Permutation (LA ++ LB) cat).
  { apply Permutation_cons_inv with (a := e). rewrite <- P, <- P2, EL'. apply Permutation_middle. }
  assert (EL : L = LA ++ LB).
  { apply sorted_perm_unique with (P := fun a b : revent => ev_mw b < ev_mw a); auto.
    - intros a Q. lra.
    - intros a b Q Q'. lra.
    - rewrite P1, PAB. auto. }
  assert (NB : map (row_of f) LB <> []).
  { intros Z. apply map_eq_nil in Z. subst LB. rewrite app_nil_r in PAB.
    assert (I : In x0 LA) by (apply (Permutation_in _ (Permutation_sym PAB)); auto).
    apply BEF in I. lra. }
  rewrite R1, EL, map_app in LV, LF, PL. rewrite R2, EL', map_app in LV', LF', PL'. cbn [map] in LV', LF', PL'.
  assert (FarR : forall r, In r (map (row_of f) LA ++ map (row_of f) LB) ->
     @rwin ROps fs (row_of f e) r = false /\ @rwin ROps fs r (row_of f e) = false).
  { intros r Hr. rewrite <- map_app in Hr. apply in_map_iff in Hr. destruct Hr as (x & <- & Hx).
    apply (Permutation_in _ PAB) in Hx.
    assert (TX : exists t, @event_time ROps x = Ok t).
    { apply TM. apply (Permutation_in _ (Permutation_sym P)). now right. }
    rewrite !(rwin_row_of w) by (eauto). apply Far. auto. }
  assert (RR := @skip_run ROps fs _ _ _ FarR NB).
  apply rel_list in RR; [|rewrite app_length; lia]. destruct RR as (RV & RF).
  set (st := fold_left _ _ _) in LV, LF, PL, RV, RF. set (st' := fold_left _ _ _) in LV', LF', PL', RV, RF.
  rewrite RV, RF in PL'.
  rewrite map_app in PL'. cbn [map] in PL'. rewrite map_app in PL.
  assert (EV : forall l, map s_ev (map (row_of f) l) = l).
  { intros l. rewrite map_map. rewrite <- (map_id l) at 2. apply map_ext. reflexivity. }
  rewrite !EV in PL, PL'. rewrite map_length in PL'. cbn [s_ev row_of] in PL'.
  assert (PC : Permutation (combine cat' (combine vcl' flag')) ((e, (0%nat, 0%Z)) :: combine cat (combine vcl flag))).
  { rewrite PL'. rewrite insert_labels; [|rewrite app_length in *; rewrite !map_length in *; lia..].
    apply perm_skip. symmetry. exact PL. }
  destruct (@C15_proof ROps argsort A1 _ _ _ _ _ _ H) as (Lv & Lf & _ & Em & _).
  destruct (@C15_proof ROps argsort' A2 _ _ _ _ _ _ H') as (Lv' & Lf' & _ & Em' & _).
  exists vcl', vmain', flag'. split; auto. split.
  - intros k k' x Hk Hk'.
    assert (Q := nth_error_lt _ _ _ _ Hk). assert (Q' := nth_error_lt _ _ _ _ Hk').
    destruct (nth_error_ex _ vcl k) as [v Hv]; [lia|]. destruct (nth_error_ex _ flag k) as [z Hz]; [lia|].
    destruct (nth_error_ex _ vcl' k') as [v' Hv']; [lia|].
    destruct (nth_error_ex _ flag' k') as [z' Hz']; [lia|].
    assert (E : (v', z') = (v, z)).
    { apply (perm_label_unique _ _ (combine cat' (combine vcl' flag'))
               ((e, (0%nat, 0%Z)) :: combine cat (combine vcl flag)) x); auto.
      - rewrite map_fst_combine by (rewrite combine_length; lia).
        apply NoDup_map_inv in ND. auto.
      - apply (in_combine2 _ _ _ _ _ _ k'); auto.
      - right. apply (in_combine2 _ _ _ _ _ _ k); auto. }
    injection E; intros; subst. split; congruence.
  - rewrite Em, Em'.
    assert (CF : forall (c : list revent) (v : list nat) (z : list Z), length v = length c -> length z = length c ->
       map fst (filter (fun p => Z.eqb (snd p) 0) (combine c z))
       = map fst (filter (fun p => Z.eqb (snd (snd p)) 0) (combine c (combine v z)))).
    { induction c; destruct v, z; simpl; intros; try discriminate; auto.
      destruct (Z.eqb z 0); simpl; [f_equal|]; apply IHc; lia. }
    rewrite (CF cat vcl flag), (CF cat' vcl' flag') by auto.
    assert (PF : forall A (g : A -> bool) l l', Permutation l l' -> Permutation (filter g l) (filter g l')).
    { intros A g l l' Pm. induction Pm; simpl; auto.
      - destruct (g x); auto.
      - destruct (g x), (g y); auto. apply perm_swap.
      - etransitivity; eauto. }
    exact (Permutation_map fst (PF _ (fun p : revent * (nat * Z) => Z.eqb (snd (snd p)) 0) _ _ PC)).
Qed.

(** *** A case *)
Definition e97 : revent := mkEvent (AR := ROps) 1800 1 1 10 45 6 0.

Lemma uhrhammer_short : forall m, m <= 7 -> 0 < snd (@uhrhammer_window ROps m) <= 1.
Proof.
  intros m H. unfold uhrhammer_window, lit. cbn [snd]. rops. split; [apply exp_pos|].
  rewrite <- exp_0. apply exp_mono. lra.
Qed.

Lemma e97_far : forall x, In x w19 -> @in_window ROps TDW_UHRHAMMER 1 e97 x = false /\
                         @in_window ROps TDW_UHRHAMMER 1 x e97 = false.
Proof.
  assert (G : forall a b ta tb, @event_time ROps a = Ok ta -> @event_time ROps b = Ok tb -> ev_mw a <= 7 ->
    (tb - ta < -1 \/ 1 < tb - ta) -> @in_window ROps TDW_UHRHAMMER 1 a b = false).
  { intros a b ta tb Ha Hb M D. unfold in_window, delay. rewrite Ha, Hb. cbn [window_calc].
    destruct (uhrhammer_short (ev_mw a) M) as (S1 & S2).
    destruct (@uhrhammer_window ROps (ev_mw a)) as [s t]. cbn [snd] in S1, S2.
    apply andb_false_intro1. apply andb_false_iff. rops. destruct D as [D|D].
    - left. apply Rleb_false. lra.
    - right. apply Rleb_false. lra. }
  assert (E : @event_time ROps e97 = Ok 1800).
  { unfold event_time, e97. cbn [ev_year ev_month ev_day]. rewrite (decimal_year_value _ 1) by lia. cbn. f_equal; field. }
  assert (W : forall x, In x w19 -> exists t, @event_time ROps x = Ok t /\ 1949 <= t /\ ev_mw x <= 7).
  { intros x [<-|[<-|[<-|[]]]]; unfold event_time; cbn [ev_year ev_month ev_day ev_mw];
      rewrite (decimal_year_value _ 1) by lia; eexists; (split; [reflexivity|]); cbn; lra. }
  intros x Hx. destruct (W x Hx) as (t & Ht & B & M). split.
  - apply (G _ _ _ _ E Ht); [cbn; lra|right; lra].
  - apply (G _ _ _ _ Ht E); [exact M|left; lra].
Qed.

Lemma C97_case_proof : let e := mkEvent (AR := ROps) 1800 1 1 10 45 6 0 in
  NoDup (map ev_mw (e :: w19)) /\ (exists t, @event_time ROps e = Ok t) /\
  (exists x, In x w19 /\ (ev_mw x < ev_mw e)%R) /\
  (forall x, In x w19 -> @in_window ROps TDW_UHRHAMMER 1%R e x = false /\
                         @in_window ROps TDW_UHRHAMMER 1%R x e = false).
Proof.
  split; [|split; [|split]].
  - cbn. repeat constructor; cbn; intros H; repeat destruct H as [H|H]; try lra; contradiction.
  - unfold event_time. cbn [ev_year ev_month ev_day]. rewrite (decimal_year_value _ 1) by lia. eauto.
  - exists (nth 2 w19 e97). cbn. split; auto. lra.
  - exact e97_far.
Qed.
