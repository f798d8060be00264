(** Proofs about gardner_knopoff_decluster and afteran_decluster, any arithmetic. *)
From Coq Require Import ZArith List Bool Arith Lia Permutation.
From Verif Require Import Base Ops BaseFacts CatUtil Decluster DeclusterSpec.
Import ListNotations.

(** ** Lists *)

Lemma mask_put_refine : forall A (q p : A -> bool) l,
  mask_put (map q l) (map p (mask_get (map q l) l)) (map q l)
  = map (fun x => q x && p x) l.
Proof.
  induction l; simpl; auto. destruct (q a) eqn:E; simpl.
  - f_equal. auto.
  - f_equal. auto.
Qed.

Definition pick {A} (l : list A) (ids : list nat) : list A :=
  flat_map (fun k => match nth_error l k with Some r => [r] | None => [] end) ids.

Lemma pick_nth : forall A (l : list A) ids, (forall k, In k ids -> k < length l) ->
  length (pick l ids) = length ids /\
  forall i k, nth_error ids i = Some k -> nth_error (pick l ids) i = nth_error l k.
Proof.
  induction ids; intros H.
  - split; auto. intros i k E. destruct i; discriminate.
  - destruct IHids as [L N]. intros; apply H; simpl; auto.
    destruct (nth_error_ex _ l a) as [x Hx]. apply H; simpl; auto.
    unfold pick in *. simpl. rewrite Hx. simpl. split.
    + rewrite L; auto.
    + intros i k E. destruct i; simpl in *.
      * injection E; intros; subst. auto.
      * auto.
Qed.

Lemma index_of_nth : forall k l, In k l -> nth_error l (index_of k l) = Some k.
Proof.
  induction l; intros H. destruct H. simpl. destruct (Nat.eqb_spec k a).
  - subst; auto.
  - simpl. apply IHl. destruct H; congruence.
Qed.

Lemma index_of_inv : forall l i k, NoDup l -> nth_error l i = Some k -> index_of k l = i.
Proof.
  intros l i k ND H.
  assert (In k l) by (eapply nth_error_In; eauto).
  assert (index_of k l < length l) by (eapply nth_error_lt; apply index_of_nth; auto).
  apply (NoDup_nth l 0) ; auto.
  - eapply nth_error_lt; eauto.
  - rewrite (nth_error_nth _ _ _ H). apply nth_error_nth. apply index_of_nth; auto.
Qed.

(** An order of the positions of a catalogue of n rows, and the re-sorting to catalogue
    order. *)
Section Reorder.
Variable n : nat.
Variable id0 : list nat.
Hypothesis P0 : Permutation id0 (seq 0 n).

Lemma id0_len : length id0 = n.
Proof. rewrite (Permutation_length P0), seq_length. auto. Qed.
Lemma id0_in : forall k, In k id0 <-> k < n.
Proof.
  intros. split; intros H.
  - apply (Permutation_in _ P0) in H. apply in_seq in H. lia.
  - apply (Permutation_in _ (Permutation_sym P0)). apply in_seq. lia.
Qed.
Lemma id0_nodup : NoDup id0.
Proof. apply (Permutation_NoDup (Permutation_sym P0)). apply seq_NoDup. Qed.

(** Sorted position of catalogue row k. *)
Definition spos (k : nat) : nat := index_of k id0.

Lemma spos_nth : forall k, k < n -> nth_error id0 (spos k) = Some k.
Proof. intros. apply index_of_nth. apply id0_in. auto. Qed.
Lemma spos_lt : forall k, k < n -> spos k < n.
Proof. intros. rewrite <- id0_len. eapply nth_error_lt. apply spos_nth; auto. Qed.
Lemma spos_inv : forall i k, nth_error id0 i = Some k -> spos k = i.
Proof. intros. apply index_of_inv; auto. apply id0_nodup. Qed.
Lemma spos_onto : forall i, i < n -> exists k, k < n /\ spos k = i.
Proof.
  intros i H. destruct (nth_error_ex _ id0 i) as [k Hk]. rewrite id0_len; auto.
  exists k. split. apply id0_in. eapply nth_error_In; eauto. apply spos_inv; auto.
Qed.
Lemma spos_inj : forall k k', k < n -> k' < n -> spos k = spos k' -> k = k'.
Proof.
  intros k k' H H' E. assert (E1 := spos_nth k H). assert (E2 := spos_nth k' H').
  rewrite E in E1. congruence.
Qed.

Lemma eqid_id0 : take_idx 0 (seq 0 n) id0 = id0.
Proof.
  unfold take_idx. rewrite <- (map_id id0) at 2. apply map_ext_in.
  intros k Hk. apply id0_in in Hk. rewrite seq_nth; auto.
Qed.

Lemma id1_len : length (argsort_ids id0) = n.
Proof. unfold argsort_ids. rewrite map_length, seq_length. apply id0_len. Qed.
Lemma id1_nth : forall k, k < n -> nth_error (argsort_ids id0) k = Some (spos k).
Proof.
  intros. unfold argsort_ids. rewrite nth_error_map, id0_len, nth_error_seq by auto. auto.
Qed.

Lemma unsort_len : forall A (d : A) v, length (take_idx d v (argsort_ids id0)) = n.
Proof. intros. unfold take_idx. rewrite map_length. apply id1_len. Qed.
Lemma unsort_nth : forall A (d : A) v k, k < n -> length v = n ->
  nth_error (take_idx d v (argsort_ids id0)) k = nth_error v (spos k).
Proof.
  intros. unfold take_idx. rewrite nth_error_map, id1_nth by auto. simpl.
  symmetry. apply nth_error_nth'. rewrite H0. apply spos_lt; auto.
Qed.

Lemma sorted_nth : forall A (l : list A) k, length l = n -> k < n ->
  nth_error (pick l id0) (spos k) = nth_error l k.
Proof.
  intros. destruct (pick_nth _ l id0) as [_ N].
  - intros j Hj. apply id0_in in Hj. lia.
  - apply N. apply spos_nth; auto.
Qed.
Lemma sorted_len : forall A (l : list A), length l = n -> length (pick l id0) = n.
Proof.
  intros. destruct (pick_nth _ l id0) as [L _].
  - intros j Hj. apply id0_in in Hj. lia.
  - rewrite L. apply id0_len.
Qed.

Lemma unsort_sort : forall A (l : list A), length l = n -> pick (pick l id0) (argsort_ids id0) = l.
Proof.
  intros A l H. destruct (pick_nth _ (pick l id0) (argsort_ids id0)) as [L N].
  - intros k Hk. unfold argsort_ids in Hk. apply in_map_iff in Hk.
    destruct Hk as (j & <- & Hj). rewrite id0_len in Hj. apply in_seq in Hj.
    rewrite sorted_len by auto. apply spos_lt. lia.
  - rewrite id1_len in L. apply list_ext.
    + congruence.
    + intros k a b Ha Hb. assert (k < n) by (rewrite <- L; eapply nth_error_lt; eauto).
      rewrite (N k (spos k)) in Ha by (apply id1_nth; auto).
      rewrite sorted_nth in Ha by auto. congruence.
Qed.
End Reorder.

Lemma pick_map : forall A B (f : A -> B) l ids, pick (map f l) ids = map f (pick l ids).
Proof.
  induction ids; simpl; auto. unfold pick in *. simpl.
  rewrite nth_error_map. destruct (nth_error l a); simpl; auto. f_equal; auto.
Qed.

Section Generic.
Context {AR : Ops}.
Variable argsort : list T -> list nat.
Hypothesis AS : is_argsort argsort.

(** ** Preparation common to both algorithms *)

Definition all_rows (cat : list (event AR)) years (f : T -> T * T) : list (srow AR) :=
  map2 (fun e y => let w := f (ev_mw e) in mkSrow e y (fst w) (snd w)) cat years.

Record prep (cat : list (event AR)) (w : window_opt) (id0 : list nat) (rows : list (srow AR))
  : Prop := {
  pr_perm : Permutation id0 (seq 0 (length cat));
  pr_len : length rows = length cat;
  pr_row : forall k e, nth_error cat k = Some e ->
     exists f t, window_calc w = Ok f /\ event_time e = Ok t /\
       nth_error rows (spos id0 k) = Some (mkSrow e t (fst (f (ev_mw e))) (snd (f (ev_mw e))));
  pr_unsort : pick (map s_ev rows) (argsort_ids id0) = cat
}.

Lemma prep_ok : forall cat years w f,
  decimal_year cat = Ok years -> window_calc w = Ok f ->
  let id0 := rev (argsort (map ev_mw cat)) in
  prep cat w id0 (sorted_rows cat years f id0).
Proof.
  intros cat years w f HY HW id0.
  assert (P : Permutation id0 (seq 0 (length cat))).
  { unfold id0. rewrite <- (Permutation_rev). rewrite <- (map_length ev_mw cat). apply AS. }
  assert (LY := mapM_length _ _ _ _ _ HY).
  assert (LA : length (all_rows cat years f) = length cat).
  { unfold all_rows. rewrite length_map2, LY. lia. }
  constructor; auto.
  - change (length (pick (all_rows cat years f) id0) = length cat).
    apply sorted_len; auto.
  - intros k e He. assert (Hk := nth_error_lt _ _ _ _ He).
    destruct (mapM_nth _ _ _ _ _ _ _ HY He) as (t & Ht & Et).
    exists f, t. split; auto. split; auto.
    change (nth_error (pick (all_rows cat years f) id0) (spos id0 k)
      = Some (mkSrow e t (fst (f (ev_mw e))) (snd (f (ev_mw e))))).
    rewrite sorted_nth with (n := length cat); auto.
    unfold all_rows. erewrite nth_error_map2; eauto.
  - change (pick (map s_ev (pick (all_rows cat years f) id0)) (argsort_ids id0) = cat).
    rewrite <- pick_map.
    replace (map s_ev (all_rows cat years f)) with cat.
    + apply unsort_sort with (n := length cat); auto.
    + apply list_ext.
      * rewrite map_length; auto.
      * intros k a b Ha Hb. apply nth_error_map_inv in Hb. destruct Hb as (r & Hr & ->).
        unfold all_rows in Hr. apply nth_error_map2_inv in Hr.
        destruct Hr as (e & y & He & _ & ->). simpl. congruence.
Qed.

(** ** Gardner-Knopoff loop *)

(** Row [r] is in the window of row [ri]. *)
Definition rwin (fs : T) (ri r : srow AR) : bool :=
  (leb (mul (neg (s_twin ri)) fs) (sub (s_time r) (s_time ri))
   && leb (sub (s_time r) (s_time ri)) (s_twin ri))
  && leb (event_dist (s_ev r) (s_ev ri)) (s_space ri).

Definition rflag (ri r : srow AR) : Z :=
  if leb (ofZ 0) (sub (s_time r) (s_time ri)) then 1%Z else (-1)%Z.

Lemma haversine_col_map : forall rows e,
  haversine_col rows e = map (fun r => event_dist r e) rows.
Proof. intros. unfold haversine_col. apply map_ext. intros. reflexivity. Qed.

Lemma gk_vsel : forall fs rows ri,
  let vsel := gk_time_sel fs rows ri in
  mask_put vsel (map (fun d => leb d (s_space ri))
                     (haversine_col (map s_ev (mask_get vsel rows)) (s_ev ri))) vsel
  = map (rwin fs ri) rows.
Proof.
  intros. rewrite haversine_col_map, !map_map. unfold vsel, gk_time_sel.
  rewrite mask_put_refine. reflexivity.
Qed.

Lemma nth_mask_set : forall A mask (v d : A) l k, length mask = length l -> k < length l ->
  nth k (mask_set mask v l) d = if nth k mask false then v else nth k l d.
Proof.
  intros. destruct (nth_error_ex _ l k) as [a Ha]; auto.
  destruct (nth_error_ex _ mask k) as [b Hb]; [lia|].
  rewrite (nth_error_nth _ _ _ (nth_error_mask_set _ _ v _ _ _ _ Ha Hb)).
  rewrite (nth_error_nth _ _ _ Ha), (nth_error_nth _ _ _ Hb). auto.
Qed.

Lemma nth_map_b : forall A (f : A -> bool) l k r, nth_error l k = Some r ->
  nth k (map f l) false = f r.
Proof.
  intros. apply nth_error_nth. rewrite nth_error_map, H. auto.
Qed.

(** One step, seen pointwise. *)
Lemma gk_step_spec : forall fs rows st i ri,
  length (d_vcl st) = length rows -> length (d_flag st) = length rows ->
  nth_error rows i = Some ri ->
  (exists vcl flag,
     gk_step fs rows st i = mkD vcl flag (S (d_ci st)) /\
     length vcl = length rows /\ length flag = length rows /\
     nth i (d_vcl st) 0 = 0 /\
     (exists j r, j <> i /\ nth_error rows j = Some r /\ rwin fs ri r = true) /\
     (forall j r, nth_error rows j = Some r ->
        nth j vcl 0 = (if rwin fs ri r then S (d_ci st) else nth j (d_vcl st) 0) /\
        nth j flag 0%Z = (if Nat.eqb j i then 0%Z
                          else if rwin fs ri r then rflag ri r else nth j (d_flag st) 0%Z)))
  \/ (gk_step fs rows st i = st /\
      (nth i (d_vcl st) 0 = 0 ->
       forall j r, j <> i -> nth_error rows j = Some r -> rwin fs ri r = false)).
Proof.
  intros fs rows st i ri LV LF Hi. unfold gk_step. rewrite Hi.
  destruct (Nat.eqb_spec (nth i (d_vcl st) 0) 0) as [E|E].
  2:{ right. split; auto. intros; congruence. }
  cbv zeta. rewrite gk_vsel.
  set (V := map (rwin fs ri) rows).
  assert (LVs : length V = length rows) by apply map_length.
  assert (Hlt := nth_error_lt _ _ _ _ Hi).
  destruct (existsb (fun b => b) (set_nth i false V)) eqn:EX.
  - left. eexists. eexists. split; [rewrite Nat.add_1_r; reflexivity|].
    split; [rewrite length_mask_set; auto|].
    split; [rewrite length_set_nth, !length_mask_set; auto|].
    split; auto. split.
    + apply existsb_exists in EX. destruct EX as (b & Hb & ->).
      apply In_nth_error in Hb. destruct Hb as [j Hj].
      assert (j < length rows) by (apply nth_error_lt in Hj; rewrite length_set_nth in Hj; lia).
      destruct (Nat.eq_dec j i).
      * subst. rewrite nth_error_set_nth_eq in Hj by lia. discriminate.
      * rewrite nth_error_set_nth_neq in Hj by auto.
        unfold V in Hj. apply nth_error_map_inv in Hj. destruct Hj as (r & Hr & Er).
        exists j, r. auto.
    + intros j r Hr. assert (Hj := nth_error_lt _ _ _ _ Hr).
      assert (Vj : nth j V false = rwin fs ri r) by (apply nth_map_b; auto).
      split.
      * rewrite nth_mask_set by lia. rewrite Vj. reflexivity.
      * rewrite nth_set_nth by (rewrite !length_mask_set; lia).
        destruct (Nat.eqb_spec j i); auto.
        rewrite nth_mask_set.
        2:{ rewrite !length_mask_set, length_set_nth. lia. }
        2:{ rewrite length_mask_set. lia. }
        rewrite nth_mask_set.
        2:{ rewrite !map_length, length_set_nth. lia. }
        2:{ rewrite length_set_nth. lia. }
        rewrite nth_mask_set by lia. rewrite Vj.
        rewrite map_map. erewrite nth_map_b by eauto.
        rewrite nth_set_nth by lia. destruct (Nat.eqb_spec j i); [congruence|]. rewrite Vj.
        unfold rflag. destruct (rwin fs ri r).
        -- destruct (leb (ofZ 0) _); auto.
        -- destruct (leb (ofZ 0) _); auto.
  - right. split; auto. intros _ j r Hji Hr.
    destruct (rwin fs ri r) eqn:W; auto. exfalso.
    assert (existsb (fun b => b) (set_nth i false V) = true); [|congruence].
    apply existsb_exists. exists true. split; auto.
    apply nth_error_In with (n := j). rewrite nth_error_set_nth_neq by auto.
    unfold V. rewrite nth_error_map, Hr. simpl. congruence.
Qed.

(** Invariant after the positions below n have been processed. *)
Record gk_inv (fs : T) (rows : list (srow AR)) (n : nat) (st : dstate) : Prop := {
  gi_lv : length (d_vcl st) = length rows;
  gi_lf : length (d_flag st) = length rows;
  gi_flag : forall j, nth j (d_flag st) 0%Z = 0%Z \/ nth j (d_flag st) 0%Z = 1%Z
                      \/ nth j (d_flag st) 0%Z = (-1)%Z;
  gi_ci : forall j, nth j (d_vcl st) 0 <= d_ci st;
  gi_zero : forall j, nth j (d_vcl st) 0 = 0 -> nth j (d_flag st) 0%Z = 0%Z;
  gi_main : forall c, 0 < c <= d_ci st -> exists i ri, i < n /\ nth_error rows i = Some ri /\
     forall j r, nth_error rows j = Some r -> nth j (d_vcl st) 0 = c ->
       rwin fs ri r = true /\ nth j (d_flag st) 0%Z = if Nat.eqb j i then 0%Z else rflag ri r;
  gi_some : 0 < length rows -> exists j, j < length rows /\ nth j (d_flag st) 0%Z = 0%Z;
  gi_clustered : forall j r, nth_error rows j = Some r -> nth j (d_vcl st) 0 <> 0 ->
     exists i ri j' r', i <> j' /\ (j = i \/ j = j') /\ nth_error rows i = Some ri /\
       nth_error rows j' = Some r' /\ rwin fs ri r' = true;
  gi_isolated : forall i ri, i < n -> nth_error rows i = Some ri -> rwin fs ri ri = true ->
     nth i (d_vcl st) 0 = 0 ->
     forall j r, j <> i -> nth_error rows j = Some r -> rwin fs ri r = false
}.

Lemma gk_inv_step : forall fs rows n st, n < length rows -> gk_inv fs rows n st ->
  gk_inv fs rows (S n) (gk_step fs rows st n).
Proof.
  intros fs rows n st Hn I. destruct (nth_error_ex _ rows n Hn) as [ri Hri].
  destruct I as [Lv Lf Fl Ci Z0 Mn So Cl Is].
  destruct (gk_step_spec fs rows st n ri Lv Lf Hri)
    as [(vcl & flag & E & LV & LF & V0 & (j0 & r0 & Hj0 & Hr0 & W0) & Pt)|(E & Iso)]; rewrite E.
  - assert (OutV : forall j, length rows <= j -> nth j vcl 0 = 0)
      by (intros; apply nth_overflow; lia).
    assert (OutF : forall j, length rows <= j -> nth j flag 0%Z = 0%Z)
      by (intros; apply nth_overflow; lia).
    constructor; simpl; auto.
    + intros j. destruct (le_lt_dec (length rows) j).
      * rewrite OutF; auto.
      * destruct (nth_error_ex _ rows j l) as [r Hr]. destruct (Pt j r Hr) as [_ ->].
        destruct (Nat.eqb j n); auto. destruct (rwin fs ri r); auto.
        unfold rflag. destruct (leb _ _); auto.
    + intros j. destruct (le_lt_dec (length rows) j).
      * rewrite OutV; auto. lia.
      * destruct (nth_error_ex _ rows j l) as [r Hr]. destruct (Pt j r Hr) as [-> _].
        destruct (rwin fs ri r); auto.
    + intros j. destruct (le_lt_dec (length rows) j).
      * rewrite OutF; auto.
      * destruct (nth_error_ex _ rows j l) as [r Hr]. destruct (Pt j r Hr) as [-> ->].
        destruct (Nat.eqb j n); auto. destruct (rwin fs ri r); auto. discriminate.
    + intros c Hc. destruct (Nat.eq_dec c (S (d_ci st))) as [->|Hne].
      * exists n, ri. split; [lia|]. split; auto. intros j r Hr Hv.
        destruct (Pt j r Hr) as [Pv ->]. rewrite Pv in Hv.
        destruct (rwin fs ri r) eqn:W; auto.
        exfalso. specialize (Ci j). lia.
      * destruct (Mn c ltac:(lia)) as (i & r1 & Hi & Hr1 & M).
        exists i, r1. split; [lia|]. split; auto. intros j r Hr Hv.
        destruct (Pt j r Hr) as [Pv Pf]. rewrite Pv in Hv.
        destruct (rwin fs ri r) eqn:W; [congruence|].
        destruct (M j r Hr Hv) as [M1 M2]. split; auto.
        rewrite Pf. destruct (Nat.eqb_spec j n); auto. subst.
        exfalso. lia.
    + intros _. exists n. split; auto. destruct (Pt n ri Hri) as [_ ->].
      rewrite Nat.eqb_refl. auto.
    + intros j r Hr Hv. destruct (Pt j r Hr) as [Pv _]. rewrite Pv in Hv.
      destruct (rwin fs ri r) eqn:W.
      * destruct (Nat.eq_dec j n).
        -- subst j. exists n, ri, j0, r0. repeat split; auto.
        -- exists n, ri, j, r. repeat split; auto.
      * eauto.
    + intros i r1 Hi Hr1 Self Hv j r Hji Hr.
      destruct (Pt i r1 Hr1) as [Pv _]. rewrite Pv in Hv.
      destruct (Nat.eq_dec i n).
      * subst. exfalso. replace r1 with ri in * by congruence. rewrite Self in Hv. discriminate.
      * destruct (rwin fs ri r1); [discriminate|]. apply (Is i r1 ltac:(lia) Hr1 Self Hv j r Hji Hr).
  - constructor; auto.
    + intros c Hc. destruct (Mn c Hc) as (i & r1 & Hi & Hr1 & M). exists i, r1. split; auto.
    + intros i r1 Hi Hr1 Self Hv j r Hji Hr. destruct (Nat.eq_dec i n).
      * subst. replace r1 with ri in * by congruence. eauto.
      * apply (Is i r1 ltac:(lia) Hr1 Self Hv j r Hji Hr).
Qed.

Lemma nth_repeat_0 : forall A (v : A) n j, nth j (repeat v n) v = v.
Proof. induction n; destruct j; simpl; auto. Qed.

Lemma gk_inv_init : forall fs rows n, n = length rows ->
  gk_inv fs rows 0 (mkD (repeat 0 n) (repeat 0%Z n) 0).
Proof.
  intros fs rows n ->. constructor; simpl; try (intros; lia);
    try (rewrite repeat_length; auto); intros; rewrite ?nth_repeat_0 in *; auto.
  - exists 0. rewrite nth_repeat_0. auto.
  - congruence.
Qed.

Lemma gk_inv_loop : forall fs rows m, m <= length rows ->
  gk_inv fs rows m (fold_left (gk_step fs rows) (seq 0 m)
                      (mkD (repeat 0 (length rows)) (repeat 0%Z (length rows)) 0)).
Proof.
  intros fs rows. induction m; intros H.
  - apply gk_inv_init. auto.
  - rewrite seq_S, fold_left_app. simpl. apply gk_inv_step; auto. apply IHm. lia.
Qed.

(** What a successful run looks like. *)
Lemma gk_run : forall cat w fs vcl vmain flag,
  gardner_knopoff_decluster argsort cat w fs = Ok (vcl, vmain, flag) ->
  cat <> [] /\
  exists id0 rows st, prep cat w id0 rows /\ id0 = rev (argsort (map ev_mw cat)) /\
    gk_inv fs rows (length cat - 1) st /\
    st = fold_left (gk_step fs rows) (seq 0 (length cat - 1))
                      (mkD (repeat 0 (length cat)) (repeat 0%Z (length cat)) 0) /\
    vcl = take_idx 0 (d_vcl st) (argsort_ids id0) /\
    flag = take_idx 0%Z (d_flag st) (argsort_ids id0) /\
    vmain = mask_get (map (fun z => Z.eqb z 0) flag) cat.
Proof.
  intros cat w fs vcl vmain flag H. unfold gardner_knopoff_decluster in H.
  destruct cat as [|e0 cat0]; [discriminate|]. set (cat := e0 :: cat0) in *.
  split; [discriminate|].
  apply bind_ok in H. destruct H as (years & HY & H).
  apply bind_ok in H. destruct H as (f & HW & H).
  set (id0 := rev (argsort (map ev_mw cat))) in *.
  set (rows := sorted_rows cat years f id0) in *.
  assert (P : prep cat w id0 rows) by (apply prep_ok; auto).
  rewrite (eqid_id0 (length cat)) in H by (apply (pr_perm _ _ _ _ P)).
  set (st := fold_left _ _ _) in H.
  injection H; intros H1 H2 H3. clear H.
  exists id0, rows, st. split; auto. split; auto. split.
  - unfold st. rewrite <- (pr_len _ _ _ _ P). apply gk_inv_loop. lia.
  - split; auto. split; auto. split; auto.
    rewrite <- H1, <- H2.
    f_equal. apply (pr_unsort _ _ _ _ P).
Qed.

Lemma gk_ok : forall cat w fs years f, cat <> [] ->
  decimal_year cat = Ok years -> window_calc w = Ok f ->
  exists r, gardner_knopoff_decluster argsort cat w fs = Ok r.
Proof.
  intros cat w fs years f Hc HY HW. unfold gardner_knopoff_decluster.
  destruct cat; [congruence|]. rewrite HY. simpl. rewrite HW. simpl. eauto.
Qed.

(** Windows of rows are windows of events. *)
Lemma rwin_in_window : forall cat w fs id0 rows i k ei ek ri rk,
  prep cat w id0 rows ->
  nth_error cat i = Some ei -> nth_error cat k = Some ek ->
  nth_error rows (spos id0 i) = Some ri -> nth_error rows (spos id0 k) = Some rk ->
  rwin fs ri rk = in_window w fs ei ek /\ rflag ri rk = relative_flag ei ek.
Proof.
  intros cat w fs id0 rows i k ei ek ri rk P Hi Hk Hri Hrk.
  destruct (pr_row _ _ _ _ P _ _ Hi) as (f & ti & HW & Ti & R1).
  destruct (pr_row _ _ _ _ P _ _ Hk) as (f' & tk & HW' & Tk & R2).
  assert (f' = f) by congruence. subst f'.
  rewrite Hri in R1. rewrite Hrk in R2. injection R1; injection R2; intros -> ->.
  unfold in_window, relative_flag, delay. rewrite HW, Ti, Tk.
  destruct (f (ev_mw ei)). unfold rwin, rflag. simpl. auto.
Qed.

(** *** C15 *)
Lemma mask_get_combine_flag : forall A (l : list A) flag, length flag = length l ->
  mask_get (map (fun z => Z.eqb z 0) flag) l
  = map fst (filter (fun p => Z.eqb (snd p) 0) (combine l flag)).
Proof.
  induction l; destruct flag; simpl; intros; try discriminate; auto.
  destruct (Z.eqb z 0); simpl; [f_equal|]; auto.
Qed.

Lemma gk_pointwise : forall cat w fs vcl vmain flag,
  gardner_knopoff_decluster argsort cat w fs = Ok (vcl, vmain, flag) ->
  exists id0 rows st, prep cat w id0 rows /\ id0 = rev (argsort (map ev_mw cat)) /\
    gk_inv fs rows (length cat - 1) st /\
    length vcl = length cat /\ length flag = length cat /\
    vmain = mask_get (map (fun z => Z.eqb z 0) flag) cat /\
    forall k, k < length cat ->
      nth_error vcl k = Some (nth (spos id0 k) (d_vcl st) 0) /\
      nth_error flag k = Some (nth (spos id0 k) (d_flag st) 0%Z).
Proof.
  intros cat w fs vcl vmain flag H.
  destruct (gk_run _ _ _ _ _ _ H) as (_ & id0 & rows & st & P & Id & I & _ & Ev & Ef & Em).
  exists id0, rows, st. split; auto. split; auto. split; auto.
  assert (PP := pr_perm _ _ _ _ P). assert (PL := pr_len _ _ _ _ P).
  split. { rewrite Ev. apply unsort_len; auto. }
  split. { rewrite Ef. apply unsort_len; auto. }
  split; auto.
  intros k Hk. rewrite Ev, Ef.
  rewrite !(unsort_nth (length cat)); auto.
  - split; apply nth_error_nth'.
    + rewrite (gi_lv _ _ _ _ I), PL. apply spos_lt; auto.
    + rewrite (gi_lf _ _ _ _ I), PL. apply spos_lt; auto.
  - rewrite (gi_lf _ _ _ _ I). auto.
  - rewrite (gi_lv _ _ _ _ I). auto.
Qed.

Lemma C15_proof : forall cat w fs vcl vmain flag,
  gardner_knopoff_decluster argsort cat w fs = Ok (vcl, vmain, flag) ->
  length vcl = length cat /\ length flag = length cat /\
  (forall z, In z flag -> z = 0%Z \/ z = 1%Z \/ z = (-1)%Z) /\
  vmain = map fst (filter (fun p => Z.eqb (snd p) 0) (combine cat flag)) /\
  (forall k, nth_error vcl k = Some 0 -> nth_error flag k = Some 0%Z).
Proof.
  intros cat w fs vcl vmain flag H.
  destruct (gk_pointwise _ _ _ _ _ _ H) as (id0 & rows & st & P & _ & I & Lv & Lf & Em & Pt).
  split; auto. split; auto. split; [|split].
  - intros z Hz. apply In_nth_error in Hz. destruct Hz as [k Hk].
    assert (k < length cat) by (rewrite <- Lf; eapply nth_error_lt; eauto).
    destruct (Pt k H0) as [_ E]. rewrite E in Hk. injection Hk; intros <-.
    apply (gi_flag _ _ _ _ I).
  - rewrite Em. apply mask_get_combine_flag. auto.
  - intros k Hk. assert (k < length cat) by (rewrite <- Lv; eapply nth_error_lt; eauto).
    destruct (Pt k H0) as [E1 E2]. rewrite E2. f_equal.
    apply (gi_zero _ _ _ _ I). congruence.
Qed.

(** *** C16 *)
Lemma C16_proof : forall cat w fs vcl vmain flag c,
  gardner_knopoff_decluster argsort cat w fs = Ok (vcl, vmain, flag) ->
  c <> 0 -> In c vcl ->
  exists i main, nth_error cat i = Some main /\
    forall k e, nth_error cat k = Some e -> nth_error vcl k = Some c ->
      in_window w fs main e = true /\
      nth_error flag k = Some (if Nat.eqb k i then 0%Z else relative_flag main e).
Proof.
  intros cat w fs vcl vmain flag c H Hc Hin.
  destruct (gk_pointwise _ _ _ _ _ _ H) as (id0 & rows & st & P & _ & I & Lv & Lf & Em & Pt).
  assert (PP := pr_perm _ _ _ _ P). assert (PL := pr_len _ _ _ _ P).
  apply In_nth_error in Hin. destruct Hin as [k0 Hk0].
  assert (K0 : k0 < length cat) by (rewrite <- Lv; eapply nth_error_lt; eauto).
  destruct (gi_main _ _ _ _ I c) as (i0 & ri & Hi0 & Hri & M).
  { split; [lia|]. destruct (Pt k0 K0) as [E _]. rewrite E in Hk0.
    injection Hk0; intros <-. apply (gi_ci _ _ _ _ I). }
  destruct (spos_onto _ _ PP i0) as (i & Hi & Si). lia.
  destruct (nth_error_ex _ cat i Hi) as [main Hmain].
  exists i, main. split; auto. intros k e He Hv.
  assert (K : k < length cat) by (eapply nth_error_lt; eauto).
  destruct (Pt k K) as [E1 E2]. rewrite E1 in Hv. injection Hv; intros Hv'.
  destruct (nth_error_ex _ rows (spos id0 k)) as [r Hr].
  { rewrite PL. apply spos_lt; auto. }
  destruct (M _ _ Hr Hv') as [M1 M2].
  subst i0.
  destruct (rwin_in_window _ _ fs _ _ _ _ _ _ _ _ P Hmain He Hri Hr) as [W F].
  split; [congruence|]. rewrite E2, M2, F. f_equal.
  destruct (Nat.eqb_spec (spos id0 k) (spos id0 i)), (Nat.eqb_spec k i); auto.
  - exfalso. apply n. apply (spos_inj (length cat) id0 PP); auto.
  - congruence.
Qed.

(** At most one event of a cluster is kept. *)
Lemma C16_one_kept : forall cat w fs vcl vmain flag c k k',
  gardner_knopoff_decluster argsort cat w fs = Ok (vcl, vmain, flag) ->
  c <> 0 -> nth_error vcl k = Some c -> nth_error vcl k' = Some c ->
  nth_error flag k = Some 0%Z -> nth_error flag k' = Some 0%Z -> k = k'.
Proof.
  intros cat w fs vcl vmain flag c k k' H Hc Hk Hk' Hf Hf'.
  destruct (C16_proof _ _ _ _ _ _ c H Hc) as (i & main & Hmain & M).
  { eapply nth_error_In; eauto. }
  destruct (C15_proof _ _ _ _ _ _ H) as (Lv & _).
  assert (NZ : forall k e, nth_error cat k = Some e -> nth_error vcl k = Some c ->
     nth_error flag k = Some 0%Z -> k = i).
  { intros q e He Hv Hz. destruct (M q e He Hv) as [_ F]. rewrite Hz in F.
    destruct (Nat.eqb_spec q i); auto. exfalso. unfold relative_flag in F.
    destruct (delay main e); [destruct (leb _ _)|]; discriminate. }
  destruct (nth_error_ex _ cat k) as [e He]. { rewrite <- Lv. eapply nth_error_lt; eauto. }
  destruct (nth_error_ex _ cat k') as [e' He']. { rewrite <- Lv. eapply nth_error_lt; eauto. }
  rewrite (NZ k e), (NZ k' e'); auto.
Qed.

(** *** C17 *)
Lemma C17_proof : forall cat w fs vcl vmain flag,
  gardner_knopoff_decluster argsort cat w fs = Ok (vcl, vmain, flag) -> vmain <> [].
Proof.
  intros cat w fs vcl vmain flag H.
  destruct (gk_run _ _ _ _ _ _ H) as (Hne & _).
  destruct (gk_pointwise _ _ _ _ _ _ H) as (id0 & rows & st & P & _ & I & Lv & Lf & Em & Pt).
  assert (PP := pr_perm _ _ _ _ P). assert (PL := pr_len _ _ _ _ P).
  destruct (gi_some _ _ _ _ I) as (j & Hj & Fj).
  { rewrite PL. destruct cat; simpl; [congruence|lia]. }
  destruct (spos_onto _ _ PP j) as (k & Hk & Sk). lia.
  destruct (Pt k Hk) as [_ E]. rewrite Sk, Fj in E.
  destruct (nth_error_ex _ cat k Hk) as [e He].
  assert (In e vmain).
  { rewrite Em. apply in_mask_get. exists k. rewrite nth_error_map, E. auto. }
  intros Z. rewrite Z in H0. destruct H0.
Qed.

(** *** C18 *)
Lemma C18_isolated_proof : forall cat w fs vcl vmain flag k e,
  gardner_knopoff_decluster argsort cat w fs = Ok (vcl, vmain, flag) ->
  nth_error cat k = Some e ->
  (forall k' e', k' <> k -> nth_error cat k' = Some e' ->
     in_window w fs e e' = false /\ in_window w fs e' e = false) ->
  nth_error vcl k = Some 0 /\ nth_error flag k = Some 0%Z.
Proof.
  intros cat w fs vcl vmain flag k e H He Iso.
  assert (K : k < length cat) by (eapply nth_error_lt; eauto).
  assert (V : nth_error vcl k = Some 0).
  { destruct (gk_pointwise _ _ _ _ _ _ H) as (id0 & rows & st & P & _ & I & Lv & Lf & Em & Pt).
    assert (PP := pr_perm _ _ _ _ P). assert (PL := pr_len _ _ _ _ P).
    destruct (Pt k K) as [E1 E2]. rewrite E1. f_equal.
    destruct (Nat.eq_dec (nth (spos id0 k) (d_vcl st) 0) 0) as [|NZ]; auto. exfalso.
    destruct (nth_error_ex _ rows (spos id0 k)) as [r Hr].
    { rewrite PL. apply spos_lt; auto. }
    destruct (gi_clustered _ _ _ _ I _ _ Hr NZ) as (i & ri & j & rj & Hij & Hor & Hri & Hrj & W).
    destruct (spos_onto _ _ PP i) as (a & Ha & <-). { rewrite <- PL. eapply nth_error_lt; eauto. }
    destruct (spos_onto _ _ PP j) as (b & Hb & <-). { rewrite <- PL. eapply nth_error_lt; eauto. }
    destruct (nth_error_ex _ cat a Ha) as [ea Hea]. destruct (nth_error_ex _ cat b Hb) as [eb Heb].
    destruct (rwin_in_window _ _ fs _ _ _ _ _ _ _ _ P Hea Heb Hri Hrj) as [WW _].
    rewrite W in WW. destruct Hor as [Ho|Ho]; apply (spos_inj _ _ PP) in Ho; auto; subst.
    - assert (b <> a) by congruence. destruct (Iso b eb H0 Heb). congruence.
    - assert (a <> b) by congruence. destruct (Iso a ea H0 Hea). congruence. }
  split; auto. apply (C15_proof _ _ _ _ _ _ H). auto.
Qed.

(** The last event in the processing order is the first of the ascending order. *)
Lemma C18_converse_proof : forall cat w fs vcl vmain flag k e,
  gardner_knopoff_decluster argsort cat w fs = Ok (vcl, vmain, flag) ->
  nth_error cat k = Some e -> nth_error vcl k = Some 0 ->
  in_window w fs e e = true ->
  nth_error (argsort (map ev_mw cat)) 0 <> Some k ->
  forall k' e', k' <> k -> nth_error cat k' = Some e' -> in_window w fs e e' = false.
Proof.
  intros cat w fs vcl vmain flag k e H He Hv Self Last k' e' Hk' He'.
  destruct (gk_pointwise _ _ _ _ _ _ H) as (id0 & rows & st & P & Id & I & Lv & Lf & Em & Pt).
  assert (PP := pr_perm _ _ _ _ P). assert (PL := pr_len _ _ _ _ P).
  assert (K : k < length cat) by (eapply nth_error_lt; eauto).
  assert (K' : k' < length cat) by (eapply nth_error_lt; eauto).
  destruct (Pt k K) as [E1 _]. rewrite E1 in Hv. injection Hv; intros Hv'.
  assert (S1 := spos_lt _ _ PP k K). assert (S2 := spos_lt _ _ PP k' K').
  destruct (nth_error_ex _ rows (spos id0 k)) as [r Hr]; [lia|].
  destruct (nth_error_ex _ rows (spos id0 k')) as [r' Hr']; [lia|].
  destruct (rwin_in_window _ _ fs _ _ _ _ _ _ _ _ P He He' Hr Hr') as [W _].
  destruct (rwin_in_window _ _ fs _ _ _ _ _ _ _ _ P He He Hr Hr) as [WS _].
  rewrite <- W. apply (gi_isolated _ _ _ _ I (spos id0 k) r) with (j := spos id0 k'); auto.
  - destruct (Nat.eq_dec (spos id0 k) (length cat - 1)); [|lia]. exfalso.
    assert (N := spos_nth _ _ PP k K). rewrite e0, Id in N.
    assert (LA : length (argsort (map ev_mw cat)) = length cat).
    { rewrite (Permutation_length (AS (map ev_mw cat))), seq_length, map_length. auto. }
    apply Last. revert N LA. generalize (argsort (map ev_mw cat)). intros l N LA.
    destruct l as [|x l]; simpl in *. lia.
    rewrite nth_error_app2 in N by (rewrite rev_length; lia).
    replace (length cat - 1 - length (rev l)) with 0 in N by (rewrite rev_length; lia).
    simpl in N. auto.
  - congruence.
  - intros E. apply Hk'. apply (spos_inj _ _ PP); auto.
Qed.

End Generic.
