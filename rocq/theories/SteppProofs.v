(** Proofs about stepp_analysis. *)
From Coq Require Import ZArith Arith Bool List Lia Reals Lra Permutation.
From Verif Require Import Base Ops BaseFacts RFacts Completeness SteppSpec.
Import ListNotations.

(** ** Index-level facts, any arithmetic *)
Section Generic.
Context {AR : Ops}.

Lemma length_diffs : forall l : list T, length (diffs l) = length l - 1.
Proof.
  induction l as [|x l IH]; auto. destruct l as [|y l]; auto.
  change (diffs (x :: y :: l)) with (sub y x :: diffs (y :: l)).
  simpl length in *. rewrite IH. lia.
Qed.

Lemma nth_error_diffs : forall (l : list T) i a b,
  nth_error l i = Some a -> nth_error l (i + 1) = Some b ->
  nth_error (diffs l) i = Some (sub b a).
Proof.
  induction l as [|x l IH]; intros i a b Ha Hb. destruct i; discriminate.
  destruct l as [|y l]. destruct i as [|i]; simpl in *; try discriminate; destruct i; discriminate.
  change (diffs (x :: y :: l)) with (sub y x :: diffs (y :: l)).
  destruct i.
  - simpl in *. congruence.
  - simpl nth_error at 1. apply IH; auto.
Qed.

Lemma length_stepp_test : forall c tr, length c = length tr ->
  length (stepp_test c tr) = length tr - 2.
Proof.
  intros. unfold stepp_test, stepp_time_diff, stepp_siglam.
  rewrite map_length, length_diffs, !length_map2, !length_diffs, !map_length, !length_map2.
  lia.
Qed.

Lemma stepp_tloct_some : forall test ttol p, stepp_tloct test ttol = Some p <->
  p <> 0%nat /\ (exists x, nth_error test p = Some x /\ ltb ttol x = true) /\
  forall q x, nth_error test q = Some x -> ltb ttol x = true -> q <= p.
Proof.
  intros. unfold stepp_tloct.
  set (l := nonzero (map (fun x => ltb ttol x) test)).
  assert (N : forall k, In k l <-> exists x, nth_error test k = Some x /\ ltb ttol x = true)
    by (apply nonzero_spec_map_nth).
  assert (M : forall k, last_opt l = Some k -> forall j, In j l -> j <= k).
  { intros k Hk j Hj. destruct (last_nonzero_max _ _ Hk) as [_ H]. apply H.
    apply nonzero_in. auto. }
  destruct (existsb (fun k => negb (Nat.eqb k 0)) l) eqn:E.
  - apply existsb_exists in E. destruct E as (j & Hj & Hn).
    destruct (last_opt l) as [k|] eqn:L.
    2:{ apply last_opt_none in L. rewrite L in Hj. destruct Hj. }
    assert (In k l) by (apply last_opt_in; auto).
    split.
    + intros H0. injection H0; intros; subst p. repeat split.
      * specialize (M _ eq_refl _ Hj). destruct (Nat.eqb_spec j 0); simpl in Hn; [discriminate|lia].
      * apply N; auto.
      * intros q x H1 H2. apply (M _ eq_refl). apply N. eauto.
    + intros (Hp & Hx & Hmax). f_equal.
      assert (p <= k) by (apply (M _ eq_refl); apply N; auto).
      apply N in H. destruct H as (x & H1 & H2). specialize (Hmax _ _ H1 H2). lia.
  - split; [discriminate|]. intros (Hp & Hx & _). exfalso.
    assert (In p l) by (apply N; auto).
    assert (existsb (fun k => negb (Nat.eqb k 0)) l = true).
    { apply existsb_exists. exists p. split; auto. destruct (Nat.eqb_spec p 0); auto. }
    congruence.
Qed.

Lemma stepp_tloct_lt : forall c tr ttol p, length c = length tr ->
  stepp_tloct (stepp_test c tr) ttol = Some p -> p + 2 < length tr.
Proof.
  intros c tr ttol p H E. apply stepp_tloct_some in E. destruct E as (_ & (x & Hx & _) & _).
  apply nth_error_lt in Hx. rewrite length_stepp_test in Hx by auto. lia.
Qed.

(** Position of the duration selected for a bin by the bins before it. *)
Definition bin_tloct (year mw : list T) end_time mbin tr ttol k : option nat :=
  stepp_tloct (stepp_test (map (fun t => stepp_count year mw end_time mbin t k) tr) tr) ttol.

Definition next_pos (iloc : bool) (prev : nat) (o : option nat) : nat :=
  match o with None => prev | Some p => if iloc then Nat.max prev p else p end.

Lemma stepp_tloc_next : forall o prev nt iloc,
  (forall p, o = Some p -> p < nt) ->
  stepp_tloc o prev nt iloc = next_pos iloc (match prev with Some p => p | None => 0 end) o.
Proof.
  intros o prev nt iloc H. unfold stepp_tloc, next_pos.
  destruct o as [k|].
  - replace (Nat.ltb nt k) with false.
    2:{ symmetry. apply Nat.ltb_ge. specialize (H _ eq_refl). lia. }
    destruct prev as [p|].
    + destruct iloc; simpl; auto. destruct (Nat.ltb_spec k p); lia.
    + destruct iloc; simpl; auto.
  - destruct prev as [p|]; auto.
    replace (Nat.ltb p p) with false by (symmetry; apply Nat.ltb_irrefl).
    rewrite andb_false_r. auto.
Qed.

Lemma stepp_loop_ok : forall year mw e mbin tr ttol iloc nb s prev,
  (match prev with Some p => p | None => 0 end < length tr) ->
  exists lens (pos : nat -> nat),
    stepp_loop year mw e mbin tr ttol iloc prev (seq s nb) = Ok lens /\
    length lens = nb /\
    (forall k, k < nb -> pos k < length tr /\ nth_error lens k = nth_error tr (pos k)) /\
    (forall k, k < nb ->
       pos k = next_pos iloc (match k with 0 => match prev with Some p => p | None => 0 end
                                      | S k' => pos k' end)
                        (bin_tloct year mw e mbin tr ttol (s + k))).
Proof.
  intros year mw e mbin tr ttol iloc. induction nb; intros s prev Hp.
  - exists [], (fun _ => 0). simpl. repeat split; auto; intros; lia.
  - simpl.
    set (o := stepp_tloct (stepp_test (map (fun t => stepp_count year mw e mbin t s) tr) tr) ttol).
    assert (O : forall p, o = Some p -> p < length tr).
    { intros p E. apply stepp_tloct_lt in E; [lia|apply map_length]. }
    rewrite stepp_tloc_next by auto.
    set (p0 := match prev with Some p => p | None => 0 end) in *.
    set (t0 := next_pos iloc p0 o).
    assert (T0 : t0 < length tr).
    { unfold t0, next_pos. destruct o as [p|]; auto. specialize (O _ eq_refl).
      destruct iloc; auto. lia. }
    destruct (nth_error_ex _ tr t0 T0) as [len Hlen]. rewrite Hlen.
    destruct (IHnb (S s) (Some t0) T0) as (lens & pos & H1 & H2 & H3 & H4).
    rewrite H1. simpl.
    exists (len :: lens), (fun k => match k with 0 => t0 | S k' => pos k' end).
    split; auto. split; [simpl; auto|]. split.
    + intros k Hk. destruct k; simpl.
      * split; auto.
      * apply H3. lia.
    + intros k Hk. destruct k.
      * rewrite Nat.add_0_r. reflexivity.
      * rewrite H4 by lia. replace (s + S k) with (S s + k) by lia.
        destruct k; reflexivity.
Qed.

Lemma stepp_loop_empty : forall year mw e mbin ttol iloc prev bins, bins <> [] ->
  stepp_loop year mw e mbin [] ttol iloc prev bins = Err IndexError.
Proof.
  intros. destruct bins; [congruence|]. simpl. destruct (stepp_tloc _ _ _ _); reflexivity.
Qed.

Lemma nth_error_firstn : forall A (l : list A) n k, k < n -> nth_error (firstn n l) k = nth_error l k.
Proof. induction l; destruct n, k; simpl; intros; auto; try lia. apply IHl. lia. Qed.

Lemma mask_get_combine : forall (p : T -> bool) (q : T -> bool) year mw,
  count_true (map q (mask_get (map p year) mw))
  = count (fun e => p (fst e) && q (snd e)) (combine year mw).
Proof.
  induction year as [|y year IH]; intros mw; auto.
  destruct mw as [|m mw]; auto. simpl. rewrite count_cons. simpl.
  destruct (p y); simpl; rewrite IH; auto.
Qed.

Lemma stepp_count_spec : forall year mw e mbin t k,
  stepp_count year mw e mbin t k =
  count (fun ev => leb (sub e t) (fst ev) &&
           (leb (nth k mbin (ofZ 0)) (snd ev) &&
            (Nat.eqb k (length mbin - 2) || ltb (snd ev) (nth (k + 1) mbin (ofZ 0)))))
    (combine year mw).
Proof.
  intros. unfold stepp_count. destruct (Nat.eqb k (length mbin - 2)); rewrite mask_get_combine.
  - apply count_ext. intros a _. simpl. rewrite andb_true_r. auto.
  - apply count_ext. intros a _. simpl. auto.
Qed.

End Generic.

(** ** Reals *)
Local Open Scope R_scope.

Lemma round2_spec : forall x, hundredth x (@round2 ROps x).
Proof.
  intros x. unfold hundredth, round2. rops. split. eauto.
  assert (H := Rrint_near (100 * x)).
  replace (IZR (Rrint (100 * x)) / 100 - x) with ((IZR (Rrint (100 * x)) - 100 * x) * / 100) by field.
  rewrite Rabs_mult, (Rabs_pos_eq (/100)) by lra. lra.
Qed.

Lemma round2_forall : forall mw, Forall2 hundredth mw (map (@round2 ROps) mw).
Proof. induction mw; simpl; constructor; auto. apply round2_spec. Qed.

Lemma INR_S1 : forall k, INR (k + 1) = INR k + 1.
Proof. intros. rewrite plus_INR. reflexivity. Qed.

(** The grid computed by the code. *)
Record code_grid (year mw : list R) (dm dt : R) (mbin tr : list R) (lowm endt : R) (n nt : nat)
  : Prop := {
  cg_mbin : @stepp_mbin ROps (map (@round2 ROps) mw) dm = Ok mbin;
  cg_end : @maxv ROps year = Ok endt;
  cg_tr : @stepp_time_range ROps year dt = Ok tr;
  cg_nb : length mbin = S n;
  cg_nt : length tr = nt;
  cg_edge : forall k, (k <= n)%nat -> nth_error mbin k = Some (lowm + INR k * dm);
  cg_dur : forall i, (i < nt)%nat -> nth_error tr i = Some (INR (i + 1) * dt)
}.

Lemma grids : forall year mw dm dt, 0 < dm -> 0 < dt -> year <> [] -> mw <> [] ->
  exists mbin tr lowm endt n nt,
    code_grid year mw dm dt mbin tr lowm endt n nt /\
    stepp_grid year mw dm dt (map (@round2 ROps) mw) lowm endt n nt.
Proof.
  intros year mw dm dt Hdm Hdt Hy Hm.
  set (rm := map (@round2 ROps) mw).
  assert (rm <> []) by (unfold rm; destruct mw; simpl; congruence).
  destruct (minv_ok rm H) as [lo Hlo]. destruct (maxv_ok rm H) as [hi Hhi].
  destruct (minv_ok year Hy) as [start Hs]. destruct (maxv_ok year Hy) as [endt He].
  assert (Slo := proj1 (minv_spec _ _) Hlo). assert (Shi := proj1 (maxv_spec _ _) Hhi).
  assert (Ss := proj1 (minv_spec _ _) Hs). assert (Se := proj1 (maxv_spec _ _) He).
  set (lowm := IZR (Rfloor (10 * lo)) / 10). set (highm := IZR (Rceil (10 * hi)) / 10).
  assert (Low : lowm <= lo < lowm + 1/10).
  { unfold lowm. destruct (Rfloor_spec (10 * lo)). lra. }
  assert (High : highm - 1/10 < hi <= highm).
  { unfold highm. destruct (Rceil_spec (10 * hi)). lra. }
  assert (LH : lo <= hi). { apply Slo. apply Shi. }
  set (N := @arange_len ROps lowm (highm + dm) dm).
  set (nt := @arange_len ROps dt (endt - start + 2) dt).
  assert (N0 : (0 < N)%nat). { apply arange_len_lt; auto. simpl. lra. }
  exists (@arange ROps lowm (highm + dm) dm), (@arange ROps dt (endt - start + 2) dt),
    lowm, endt, (N - 1)%nat, nt.
  split; constructor.
  - unfold stepp_mbin. fold rm. rewrite Hlo, Hhi. reflexivity.
  - auto.
  - unfold stepp_time_range. rewrite He, Hs. reflexivity.
  - rewrite arange_length. fold N. lia.
  - apply arange_length.
  - intros k Hk. apply arange_nth. fold N. lia.
  - intros i Hi. rewrite arange_nth by auto. f_equal. rewrite INR_S1. ring.
  - apply round2_forall.
  - exists lo, (Rfloor (10 * lo)). repeat split; auto; try lra; apply Slo.
  - exists hi, highm, (Rceil (10 * hi)). split; [exact Shi|]. split; [reflexivity|].
    split; [lra|]. intros k. 
    assert (K : (k < N - 1)%nat <-> (k + 1 < N)%nat) by lia.
    rewrite K. unfold N. rewrite arange_len_lt by auto. rewrite INR_S1. lra.
  - exact Se.
  - exists start. split; [exact Ss|]. intros i. unfold nt. rewrite arange_len_lt by auto.
    rewrite INR_S1. lra.
Qed.

Lemma stepp_unfold : forall year mw dm dt ttol iloc mbin tr lowm endt n nt,
  code_grid year mw dm dt mbin tr lowm endt n nt ->
  @stepp_analysis ROps year mw dm dt ttol iloc =
  bind (@stepp_loop ROps year (map (@round2 ROps) mw) endt mbin tr ttol iloc None (seq 0 n))
       (fun lens => Ok (map2 (fun l m => (endt - l, m)) lens (firstn n mbin))).
Proof.
  intros year mw dm dt ttol iloc mbin tr lowm endt n nt G. unfold stepp_analysis.
  rewrite (cg_mbin _ _ _ _ _ _ _ _ _ _ G). cbn [bind].
  rewrite (cg_end _ _ _ _ _ _ _ _ _ _ G). cbn [bind].
  rewrite (cg_tr _ _ _ _ _ _ _ _ _ _ G). cbn [bind].
  rops. rewrite (cg_nb _ _ _ _ _ _ _ _ _ _ G). reflexivity.
Qed.

Definition sel_prev (pos : nat -> nat) (k : nat) : nat :=
  match k with 0 => 0 | S k' => pos k' end%nat.

Lemma stepp_rows : forall year mw dm dt ttol iloc mbin tr lowm endt n nt,
  code_grid year mw dm dt mbin tr lowm endt n nt -> (0 < nt)%nat ->
  exists tab (pos : nat -> nat),
    @stepp_analysis ROps year mw dm dt ttol iloc = Ok tab /\ length tab = n /\
    forall k, (k < n)%nat -> (pos k < nt)%nat /\
      nth_error tab k = Some (endt - INR (pos k + 1) * dt, lowm + INR k * dm) /\
      pos k = next_pos iloc (sel_prev pos k)
               (@bin_tloct ROps year (map (@round2 ROps) mw) endt mbin tr ttol k).
Proof.
  intros year mw dm dt ttol iloc mbin tr lowm endt n nt G Hnt.
  rewrite (stepp_unfold _ _ _ _ _ _ _ _ _ _ _ _ G).
  destruct (@stepp_loop_ok ROps year (map (@round2 ROps) mw) endt mbin tr ttol iloc n 0 None)
    as (lens & pos & H1 & H2 & H3 & H4).
  { rops. rewrite (cg_nt _ _ _ _ _ _ _ _ _ _ G). auto. }
  rewrite H1. cbn [bind]. rops. eexists. exists pos. split; [reflexivity|]. split.
  - rewrite length_map2, firstn_length, H2, (cg_nb _ _ _ _ _ _ _ _ _ _ G). lia.
  - intros k Hk. destruct (H3 k Hk) as [P1 P2]. rops.
    rewrite (cg_nt _ _ _ _ _ _ _ _ _ _ G) in P1. split; auto. split.
    + erewrite nth_error_map2.
      3:{ rewrite nth_error_firstn by auto. apply (cg_edge _ _ _ _ _ _ _ _ _ _ G). lia. }
      2:{ rewrite P2. apply (cg_dur _ _ _ _ _ _ _ _ _ _ G). auto. }
      reflexivity.
    + rewrite (H4 k Hk). simpl. f_equal.
Qed.

(** C30. *)
Lemma C30_proof : forall (year mw : list R) (dm dt ttol : R) (iloc : bool),
  0 < dm -> 0 < dt -> year <> [] -> mw <> [] ->
  exists rm lowm endt n nt,
    stepp_grid year mw dm dt rm lowm endt n nt /\
    (n = 0%nat -> @stepp_analysis ROps year mw dm dt ttol iloc = Ok []) /\
    ((0 < n)%nat -> nt = 0%nat ->
       @stepp_analysis ROps year mw dm dt ttol iloc = Err IndexError) /\
    ((0 < n)%nat -> (0 < nt)%nat ->
       exists tab, @stepp_analysis ROps year mw dm dt ttol iloc = Ok tab /\
         length tab = n /\
         forall k, (k < n)%nat -> exists i, (i < nt)%nat /\
           nth_error tab k = Some (endt - INR (i + 1) * dt, lowm + INR k * dm)).
Proof.
  intros year mw dm dt ttol iloc Hdm Hdt Hy Hm.
  destruct (grids year mw dm dt Hdm Hdt Hy Hm) as (mbin & tr & lowm & endt & n & nt & G & S).
  exists (map (@round2 ROps) mw), lowm, endt, n, nt. split; auto. split; [|split].
  - intros ->. rewrite (stepp_unfold _ _ _ _ _ _ _ _ _ _ _ _ G). reflexivity.
  - intros Hn ->. rewrite (stepp_unfold _ _ _ _ _ _ _ _ _ _ _ _ G).
    assert (tr = []) by (apply length_zero_iff_nil; apply (cg_nt _ _ _ _ _ _ _ _ _ _ G)).
    subst tr. rewrite (@stepp_loop_empty ROps). reflexivity.
    destruct n; [lia|simpl; congruence].
  - intros Hn Hnt. destruct (stepp_rows _ _ _ _ ttol iloc _ _ _ _ _ _ G Hnt)
      as (tab & pos & H1 & H2 & H3).
    exists tab. split; auto. split; auto. intros k Hk.
    destruct (H3 k Hk) as (P1 & P2 & _). eauto.
Qed.

(** ** The slope test over the reals *)

Lemma nth_of_error : forall A (l : list A) k a d, nth_error l k = Some a -> nth k l d = a.
Proof. intros. apply nth_error_nth. auto. Qed.

Lemma code_count : forall year mw dm dt mbin tr lowm endt n nt k t,
  code_grid year mw dm dt mbin tr lowm endt n nt -> (k < n)%nat ->
  @stepp_count ROps year (map (@round2 ROps) mw) endt mbin t k
  = observed (combine year (map (@round2 ROps) mw)) lowm dm endt n k t.
Proof.
  intros year mw dm dt mbin tr lowm endt n nt k t G Hk.
  rewrite (@stepp_count_spec ROps). unfold observed. apply count_ext. intros e _. rops.
  rewrite (nth_of_error _ _ _ _ _ (cg_edge _ _ _ _ _ _ _ _ _ _ G k ltac:(lia))).
  rewrite (nth_of_error _ _ _ _ _ (cg_edge _ _ _ _ _ _ _ _ _ _ G (k + 1) ltac:(lia))).
  rewrite (cg_nb _ _ _ _ _ _ _ _ _ _ G).
  replace (Nat.eqb k (S n - 2)) with (Nat.eqb (k + 1) n); auto.
  destruct (Nat.eqb_spec (k + 1) n), (Nat.eqb_spec k (S n - 2)); auto; lia.
Qed.

Lemma ln10_pos : 0 < ln 10.
Proof. rewrite <- ln_1. apply ln_increasing; lra. Qed.

Lemma log10_lt : forall x y, 0 < x -> x < y -> Rlog10 x < Rlog10 y.
Proof.
  intros. unfold Rlog10, Rdiv. apply Rmult_lt_compat_r.
  apply Rinv_0_lt_compat, ln10_pos. apply ln_increasing; auto.
Qed.

Lemma log10_inv_sqrt : forall t, 0 < t -> Rlog10 (1 / sqrt t) = - Rlog10 t / 2.
Proof.
  intros t H. unfold Rlog10.
  assert (0 < sqrt t) by (apply sqrt_lt_R0; auto).
  replace (1 / sqrt t) with (/ sqrt t) by (field; lra).
  rewrite ln_Rinv by auto.
  assert (ln t = ln (sqrt t) + ln (sqrt t)).
  { rewrite <- ln_mult by auto. rewrite sqrt_sqrt by lra. auto. }
  rewrite H1. field. apply Rgt_not_eq, ln10_pos.
Qed.

Lemma max_if : forall x y, (if Rltb x y then y else x) = Rmax x y.
Proof.
  intros. unfold Rltb, Rmax. destruct (Rlt_dec x y), (Rle_dec x y); lra.
Qed.

Lemma siglam_nth : forall (c : nat -> nat) tr nt dt i,
  (forall i, (i < nt)%nat -> nth_error tr i = Some (INR (i + 1) * dt)) -> length tr = nt ->
  (i < nt)%nat ->
  nth_error (@stepp_siglam ROps (map c (seq 0 nt)) tr) i
  = Some (rate_sigma (c i) (INR (i + 1) * dt)).
Proof.
  intros c tr nt dt i Hd Hl Hi. unfold stepp_siglam.
  erewrite nth_error_map2.
  3:{ apply Hd; auto. }
  2:{ rewrite nth_error_map, nth_error_seq by auto. reflexivity. }
  rops. unfold lit. rewrite ofnat_R. rops. rewrite max_if. reflexivity.
Qed.

Lemma dur_lt : forall dt i, 0 < dt -> 0 < INR (i + 1) * dt < INR (i + 1 + 1) * dt.
Proof.
  intros. rewrite (INR_S1 (i + 1)). assert (0 < INR (i + 1)) by (apply lt_0_INR; lia).
  split. apply Rmult_lt_0_compat; auto. nra.
Qed.

Lemma stepp_test_nth : forall (c : nat -> nat) tr nt dt i, 0 < dt ->
  (forall i, (i < nt)%nat -> nth_error tr i = Some (INR (i + 1) * dt)) -> length tr = nt ->
  (i + 2 < nt)%nat ->
  let dur := fun j => INR (j + 1) * dt in
  nth_error (@stepp_test ROps (map c (seq 0 nt)) tr) i
  = Some (Rabs (log_slope c dur (i + 1)%nat - log_slope c dur i)).
Proof.
  intros c tr nt dt i Hdt Hd Hl Hi dur.
  assert (G : forall j, (j + 1 < nt)%nat ->
    nth_error (map2 (@sub ROps) 
       (map2 (@div ROps) (@diffs ROps (map (@log10v ROps) (@stepp_siglam ROps (map c (seq 0 nt)) tr)))
                  (@diffs ROps (map (@log10v ROps) tr)))
       (@stepp_time_diff ROps tr)) j = Some (log_slope c dur j - - (1/2))).
  { intros j Hj.
    assert (L : forall f : R -> R, nth_error (@diffs ROps (map f tr)) j
        = Some (f (dur (j + 1)%nat) - f (dur j))).
    { intros f. apply (@nth_error_diffs ROps); rewrite nth_error_map, Hd by lia; reflexivity. }
    assert (D := dur_lt dt j Hdt). fold (dur j) (dur (j + 1)%nat) in D.
    assert (LL := log10_lt _ _ (proj1 D) (proj2 D)).
    erewrite nth_error_map2.
    3:{ unfold stepp_time_diff. rewrite map_map. erewrite nth_error_map2.
        3:{ apply L. }
        2:{ apply L. }
        reflexivity. }
    2:{ erewrite nth_error_map2.
        3:{ apply L. }
        2:{ apply (@nth_error_diffs ROps); rewrite nth_error_map; erewrite siglam_nth; eauto; try lia;
            reflexivity. }
        reflexivity. }
    rops. f_equal. unfold log_slope. f_equal.
    rewrite !log10_inv_sqrt by lra. field. lra. }
  unfold stepp_test. rewrite nth_error_map.
  erewrite (@nth_error_diffs ROps).
  3:{ apply G. lia. }
  2:{ apply G. lia. }
  simpl. f_equal. f_equal. ring.
Qed.

Lemma map_of_nth : forall A B (g : A -> B) (l : list A) (f : nat -> A) n, length l = n ->
  (forall i, (i < n)%nat -> nth_error l i = Some (f i)) -> map g l = map (fun i => g (f i)) (seq 0 n).
Proof.
  intros. apply list_ext. rewrite !map_length, seq_length. auto.
  intros k a b Ha Hb. assert (k < n)%nat by (apply nth_error_lt in Ha; rewrite map_length in Ha; lia).
  rewrite nth_error_map, H0 in Ha by auto. rewrite nth_error_map, nth_error_seq in Hb by auto.
  simpl in *. congruence.
Qed.

Lemma bin_tloct_spec : forall year mw dm dt ttol mbin tr lowm endt n nt k p,
  code_grid year mw dm dt mbin tr lowm endt n nt -> 0 < dt -> (k < n)%nat ->
  let ev := combine year (map (@round2 ROps) mw) in
  @bin_tloct ROps year (map (@round2 ROps) mw) endt mbin tr ttol k = Some p <->
  p <> 0%nat /\ last_violation ev lowm dm dt endt ttol n nt k p.
Proof.
  intros year mw dm dt ttol mbin tr lowm endt n nt k p G Hdt Hk ev.
  unfold bin_tloct.
  assert (Nt := cg_nt _ _ _ _ _ _ _ _ _ _ G).
  assert (Dur := cg_dur _ _ _ _ _ _ _ _ _ _ G).
  replace (map (fun t => @stepp_count ROps year (map (@round2 ROps) mw) endt mbin t k) tr)
    with (map (fun j => observed ev lowm dm endt n k (INR (j + 1) * dt)) (seq 0 nt)).
  2:{ symmetry. rewrite (map_of_nth _ _ _ tr (fun i => INR (i + 1) * dt) nt) by auto.
      apply map_ext. intros j. unfold ev. eapply code_count; eauto. }
  set (c := fun j => observed ev lowm dm endt n k (INR (j + 1) * dt)).
  rewrite (@stepp_tloct_some ROps).
  assert (V : forall q, (exists x, nth_error (@stepp_test ROps (map c (seq 0 nt)) tr) q = Some x
                /\ @ltb ROps ttol x = true) <-> violates ev lowm dm dt endt ttol n nt k q).
  { intros q. unfold violates. split.
    - intros (x & H1 & H2).
      assert (q + 2 < nt)%nat.
      { apply nth_error_lt in H1. rewrite (@length_stepp_test ROps) in H1.
        rops; lia. rewrite map_length, seq_length. auto. }
      split; auto. rewrite (stepp_test_nth c tr nt dt q Hdt Dur Nt H) in H1.
      injection H1; intros <-. apply Rltb_true in H2. exact H2.
    - intros (H & H2). eexists. split. apply (stepp_test_nth c tr nt dt q Hdt Dur Nt H).
      apply Rltb_true. exact H2. }
  unfold last_violation. split.
  - intros (H1 & H2 & H3). split; auto. split. apply V; auto.
    intros q Hq. apply V in Hq. destruct Hq as (x & ? & ?). eauto.
  - intros (H1 & H2 & H3). split; auto. split. apply V; auto.
    intros q x ? ?. apply H3. apply V. eauto.
Qed.

(** The full description of the table. *)
Lemma C31_proof : forall (year mw : list R) (dm dt ttol : R) (iloc : bool) tab,
  0 < dm -> 0 < dt -> year <> [] -> mw <> [] ->
  @stepp_analysis ROps year mw dm dt ttol iloc = Ok tab ->
  exists rm lowm endt n nt (pos : nat -> nat),
    stepp_grid year mw dm dt rm lowm endt n nt /\ length tab = n /\
    forall k, (k < n)%nat ->
      (pos k < nt)%nat /\
      nth_error tab k = Some (endt - INR (pos k + 1) * dt, lowm + INR k * dm) /\
      let ev := combine year rm in
      let prev := match k with 0 => 0 | S k' => pos k' end%nat in
      (forall p, (0 < p)%nat -> last_violation ev lowm dm dt endt ttol n nt k p ->
         pos k = if iloc then Nat.max prev p else p) /\
      ((forall p, (0 < p)%nat -> ~ violates ev lowm dm dt endt ttol n nt k p) ->
         pos k = prev).
Proof.
  intros year mw dm dt ttol iloc tab Hdm Hdt Hy Hm Htab.
  destruct (grids year mw dm dt Hdm Hdt Hy Hm) as (mbin & tr & lowm & endt & n & nt & G & S).
  destruct (Nat.eq_dec n 0) as [->|Hn].
  { exists (map (@round2 ROps) mw), lowm, endt, 0%nat, nt, (fun _ => 0%nat). split; auto.
    rewrite (stepp_unfold _ _ _ _ _ _ _ _ _ _ _ _ G) in Htab. simpl in Htab.
    injection Htab; intros <-. split; auto. intros; lia. }
  destruct (Nat.eq_dec nt 0) as [->|Hnt].
  { exfalso. rewrite (stepp_unfold _ _ _ _ _ _ _ _ _ _ _ _ G) in Htab.
    assert (tr = []) by (apply length_zero_iff_nil; apply (cg_nt _ _ _ _ _ _ _ _ _ _ G)).
    subst tr. rewrite (@stepp_loop_empty ROps) in Htab. discriminate.
    destruct n; [lia|simpl; congruence]. }
  destruct (stepp_rows _ _ _ _ ttol iloc _ _ _ _ _ _ G ltac:(lia)) as (tab' & pos & H1 & H2 & H3).
  rewrite Htab in H1. injection H1; intros <-.
  exists (map (@round2 ROps) mw), lowm, endt, n, nt, pos. split; auto. split; auto.
  intros k Hk. destruct (H3 k Hk) as (P1 & P2 & P3). split; auto. split; auto.
  intros ev prev. rewrite P3. unfold sel_prev. fold prev. split.
  - intros p Hp HL.
    replace (@bin_tloct ROps year (map (@round2 ROps) mw) endt mbin tr ttol k) with (Some p).
    reflexivity. symmetry. apply (bin_tloct_spec _ _ _ _ _ _ _ _ _ _ _ _ _ G Hdt Hk).
    split; auto. lia.
  - intros HN. destruct (@bin_tloct ROps _ _ _ _ _ _ _) as [p|] eqn:E; auto.
    apply (bin_tloct_spec _ _ _ _ _ _ _ _ _ _ _ _ _ G Hdt Hk) in E. destruct E as (E1 & E2 & _).
    exfalso. apply (HN p); auto. lia.
Qed.

(** Lock: later rows never have a later year. *)
Lemma stepp_lock_proof : forall (year mw : list R) (dm dt ttol : R) tab i j yi mi yj mj,
  0 < dm -> 0 < dt -> 
  @stepp_analysis ROps year mw dm dt ttol true = Ok tab ->
  (i < j)%nat -> nth_error tab i = Some (yi, mi) -> nth_error tab j = Some (yj, mj) ->
  mi < mj /\ yj <= yi.
Proof.
  intros year mw dm dt ttol tab i j yi mi yj mj Hdm Hdt Htab Hij Hi Hj.
  assert (Hm : mw <> []) by (intros ->; discriminate).
  assert (Hy : year <> []).
  { intros ->. unfold stepp_analysis in Htab. destruct (@stepp_mbin ROps _ _); discriminate. }
  destruct (grids year mw dm dt Hdm Hdt Hy Hm) as (mbin & tr & lowm & endt & n & nt & G & S).
  destruct (Nat.eq_dec nt 0) as [->|Hnt].
  { exfalso. rewrite (stepp_unfold _ _ _ _ _ _ _ _ _ _ _ _ G) in Htab.
    assert (tr = []) by (apply length_zero_iff_nil; apply (cg_nt _ _ _ _ _ _ _ _ _ _ G)).
    subst tr. destruct n; simpl in Htab.
    - injection Htab; intros; subst; destruct i; discriminate.
    - discriminate. }
  destruct (stepp_rows _ _ _ _ ttol true _ _ _ _ _ _ G ltac:(lia)) as (tab' & pos & H1 & H2 & H3).
  rewrite Htab in H1. injection H1; intros <-.
  assert (Hjn : (j < n)%nat) by (rewrite <- H2; eapply nth_error_lt; eauto).
  assert (M : forall d, (i + d < n)%nat -> (pos i <= pos (i + d))%nat).
  { induction d; intros Hd. rewrite Nat.add_0_r. lia.
    specialize (IHd ltac:(lia)).
    destruct (H3 (i + Datatypes.S d)%nat Hd) as (_ & _ & P).
    rewrite Nat.add_succ_r in *. simpl in P. rewrite P. unfold next_pos.
    destruct (@bin_tloct ROps _ _ _ _ _ _ _); lia. }
  destruct (H3 i ltac:(lia)) as (_ & Ri & _). destruct (H3 j Hjn) as (_ & Rj & _).
  rewrite Ri in Hi. rewrite Rj in Hj. injection Hi; injection Hj; intros; subst.
  specialize (M (j - i)%nat ltac:(lia)). replace (i + (j - i))%nat with j in M by lia.
  split.
  - apply Rplus_lt_compat_l. apply Rmult_lt_compat_r; auto. apply lt_INR; auto.
  - assert (INR (pos i + 1) <= INR (pos j + 1)) by (apply le_INR; lia). nra.
Qed.

(** C32: every sufficiently recent event is counted in exactly one bin. *)
Lemma observed_total : forall year mw dm dt rm lowm endt n nt t, 0 < dm ->
  stepp_grid year mw dm dt rm lowm endt n nt -> (0 < n)%nat ->
  nsum (map (fun k => observed (combine year rm) lowm dm endt n k t) (seq 0 n))
  = count (fun e => Rleb (endt - t) (fst e)) (combine year rm).
Proof.
  intros year mw dm dt rm lowm endt n nt t Hdm G Hn.
  unfold observed. rewrite nsum_count_swap. apply nsum_indicator.
  intros (y & m) Hin. apply in_combine_r in Hin. simpl.
  destruct (Rleb (endt - t) y).
  2:{ apply count_none. auto. }
  simpl.
  destruct (sg_low _ _ _ _ _ _ _ _ _ G) as (lo & z & (_ & Hlo) & _ & (Hl & _)).
  specialize (Hlo _ Hin).
  destruct n as [|n]; [lia|]. rewrite seq_S, count_app. simpl.
  set (g := fun k => lowm + INR k * dm).
  assert (Gm : forall k, g k <= g (S k)). { intros k. unfold g. rewrite S_INR. nra. }
  rewrite (count_ext _ _ (fun j => Rleb (g j) m && Rltb m (g (S j))) (seq 0 n)).
  2:{ intros k Hk. apply in_seq in Hk. unfold g. rewrite !Nat.add_1_r.
      replace (Nat.eqb (S k) (S n)) with false. auto.
      symmetry. apply Nat.eqb_neq. lia. }
  rewrite bins_below; auto.
  2:{ unfold g. simpl. lra. }
  unfold count. simpl. rewrite Nat.add_1_r, Nat.eqb_refl. simpl. rewrite andb_true_r.
  fold (g n). destruct (Rltb m (g n)) eqn:E.
  - apply Rltb_true in E. replace (Rleb (g n) m) with false; auto.
    symmetry. apply Rleb_false. lra.
  - apply Rltb_false in E. replace (Rleb (g n) m) with true; auto.
    symmetry. apply Rleb_true. lra.
Qed.

Lemma count_combine_fst : forall (p : R -> bool) (l m : list R), length l = length m ->
  count (fun e => p (fst e)) (combine l m) = count p l.
Proof.
  induction l; intros m H; destruct m; try discriminate; auto.
  simpl combine. rewrite !count_cons, IHl; auto.
Qed.

Lemma C32_proof : forall (year mw : list R) (dm dt t : R),
  0 < dm -> 0 < dt -> year <> [] -> length mw = length year ->
  exists mbin endt, 
    @stepp_mbin ROps (map (@round2 ROps) mw) dm = Ok mbin /\ is_max endt year /\
    ((1 < length mbin)%nat ->
     nsum (map (@stepp_count ROps year (map (@round2 ROps) mw) endt mbin t)
               (seq 0 (length mbin - 1)))
     = count (fun y => Rleb (endt - t) y) year).
Proof.
  intros year mw dm dt t Hdm Hdt Hy HL.
  assert (Hm : mw <> []) by (intros ->; destruct year; simpl in *; congruence).
  destruct (grids year mw dm dt Hdm Hdt Hy Hm) as (mbin & tr & lowm & endt & n & nt & G & S).
  exists mbin, endt. split; [apply G|]. split; [apply S|].
  rops. rewrite (cg_nb _ _ _ _ _ _ _ _ _ _ G). intros Hn.
  replace (Datatypes.S n - 1)%nat with n by lia.
  rewrite (map_ext_in _ (fun k => observed (combine year (map (@round2 ROps) mw)) lowm dm endt n k t)).
  - rops. etransitivity. apply (observed_total _ _ _ _ _ _ _ _ _ t Hdm S ltac:(lia)).
    apply count_combine_fst. rewrite map_length. auto.
  - intros k Hk. apply in_seq in Hk. eapply code_count; eauto. lia.
Qed.

(** C33: order of events. *)
Lemma Permutation_combine_fst : forall A B (l l' : list A) (m m' : list B),
  length m = length l -> length m' = length l' ->
  Permutation (combine l m) (combine l' m') -> Permutation l l'.
Proof.
  intros. apply (Permutation_map fst) in H1.
  assert (F : forall (l : list A) (m : list B), length m = length l -> map fst (combine l m) = l).
  { clear. induction l; destruct m; simpl; intros; try discriminate; auto. f_equal; auto. }
  rewrite !F in H1; auto.
Qed.
Lemma Permutation_combine_snd : forall A B (l l' : list A) (m m' : list B),
  length m = length l -> length m' = length l' ->
  Permutation (combine l m) (combine l' m') -> Permutation m m'.
Proof.
  intros. apply (Permutation_map snd) in H1.
  assert (F : forall (l : list A) (m : list B), length m = length l -> map snd (combine l m) = m).
  { clear. induction l; destruct m; simpl; intros; try discriminate; auto. f_equal; auto. }
  rewrite !F in H1; auto.
Qed.

Lemma combine_map_snd : forall A B C (f : B -> C) (l : list A) m,
  combine l (map f m) = map (fun p => (fst p, f (snd p))) (combine l m).
Proof. induction l; destruct m; simpl; auto. f_equal; auto. Qed.

Lemma C33_proof : forall (year mw year' mw' : list R) (dm dt ttol : R) (iloc : bool),
  length mw = length year -> length mw' = length year' ->
  Permutation (combine year mw) (combine year' mw') ->
  @stepp_analysis ROps year mw dm dt ttol iloc = @stepp_analysis ROps year' mw' dm dt ttol iloc.
Proof.
  intros year mw year' mw' dm dt ttol iloc L L' P.
  assert (Py : Permutation year year') by (eapply Permutation_combine_fst; [| |eauto]; auto).
  assert (Pm : Permutation mw mw') by (eapply Permutation_combine_snd; [| |eauto]; auto).
  assert (Pr : Permutation (map (@round2 ROps) mw) (map (@round2 ROps) mw')) by (apply Permutation_map; auto).
  assert (Pc : Permutation (combine year (map (@round2 ROps) mw)) (combine year' (map (@round2 ROps) mw'))).
  { rewrite !combine_map_snd. apply Permutation_map. auto. }
  unfold stepp_analysis, stepp_mbin, stepp_time_range.
  rewrite (maxv_perm _ _ Py), (minv_perm _ _ Py), (maxv_perm _ _ Pr), (minv_perm _ _ Pr).
  destruct (@minv ROps (map (@round2 ROps) mw')); auto. cbn [bind].
  destruct (@maxv ROps (map (@round2 ROps) mw')); auto. cbn [bind].
  destruct (@maxv ROps year') as [endt|]; auto. cbn [bind].
  destruct (@minv ROps year'); auto. cbn [bind].
  match goal with |- context [length ?m] => destruct (length m) as [|nb]; auto; set (mbin := m) end.
  match goal with |- context [@stepp_loop ROps _ _ _ _ ?t _ _ _ _] => set (tr := t) end.
  assert (E : forall prev bins,
     @stepp_loop ROps year (map (@round2 ROps) mw) endt mbin tr ttol iloc prev bins =
     @stepp_loop ROps year' (map (@round2 ROps) mw') endt mbin tr ttol iloc prev bins).
  { intros prev bins. revert prev. induction bins as [|k bins IH]; intros prev; [reflexivity|]. cbn [stepp_loop].
    assert (C : map (fun t => @stepp_count ROps year (map (@round2 ROps) mw) endt mbin t k) tr
              = map (fun t => @stepp_count ROps year' (map (@round2 ROps) mw') endt mbin t k) tr).
    { apply map_ext. intros x. rewrite !(@stepp_count_spec ROps). apply count_perm. auto. }
    rops. rewrite C. destruct (nth_error tr _); auto. rewrite IH. auto. }
  rewrite E. reflexivity.
Qed.

(** C34 *)
Lemma C34_partial_proof : forall (year mw : list R) (dm dt ttol : R) tab,
  0 < dm -> 0 < dt -> year <> [] -> mw <> [] ->
  @stepp_analysis ROps year mw dm dt ttol false = Ok tab ->
  exists rm lowm endt n nt,
    stepp_grid year mw dm dt rm lowm endt n nt /\ length tab = n /\
    forall k p, (k < n)%nat -> (0 < p)%nat ->
      last_violation (combine year rm) lowm dm dt endt ttol n nt k p ->
      nth_error tab k = Some (endt - INR (p + 1) * dt, lowm + INR k * dm).
Proof.
  intros year mw dm dt ttol tab H1 H2 H3 H4 H5.
  destruct (C31_proof _ _ _ _ _ _ _ H1 H2 H3 H4 H5) as (rm & lowm & endt & n & nt & pos & G & L & P).
  exists rm, lowm, endt, n, nt. split; auto. split; auto.
  intros k p Hk Hp HL. destruct (P k Hk) as (_ & R & S & _). rewrite R.
  rewrite (S p Hp HL). reflexivity.
Qed.

Definition w_year : list R := [2000; 1997; 1997; 1997; 2000; 1998; 1998; 1998].
Definition w_mw : list R :=
  [405/100; 405/100; 405/100; 405/100; 415/100; 415/100; 415/100; 415/100].

Lemma round2_cents : forall z, @round2 ROps (IZR z / 100) = IZR z / 100.
Proof.
  intros. unfold round2. rops. replace (100 * (IZR z / 100)) with (IZR z) by field.
  rewrite Rrint_IZR. auto.
Qed.

Lemma w_round : map (@round2 ROps) w_mw = w_mw.
Proof. unfold w_mw. cbn [map]. rewrite !round2_cents. reflexivity. Qed.

Lemma w_min : is_min (405/100) w_mw.
Proof. split. simpl; auto. simpl. intros y H. intuition; subst; lra. Qed.
Lemma w_max : is_max (415/100) w_mw.
Proof. split. simpl; auto 10. simpl. intros y H. intuition; subst; lra. Qed.
Lemma w_start : is_min 1997 w_year.
Proof. split. simpl; auto. simpl. intros y H. intuition; subst; lra. Qed.
Lemma w_end : is_max 2000 w_year.
Proof. split. simpl; auto 10. simpl. intros y H. intuition; subst; lra. Qed.

Lemma INR_lt_iff : forall k n, (k < n)%nat <-> INR k < INR n.
Proof. intros; split. apply lt_INR. apply INR_lt. Qed.

Lemma w_len1 : @arange_len ROps 4 (42/10 + 1/10) (1/10) = 3%nat.
Proof.
  apply arange_len_eq. lra.
  - intros i Hi. assert (INR i <= INR 2) by (apply le_INR; lia). simpl in H. lra.
  - simpl. lra.
Qed.
Lemma w_len2 : @arange_len ROps 1 (2000 - 1997 + 2) 1 = 4%nat.
Proof.
  apply arange_len_eq. lra.
  - intros i Hi. assert (INR i <= INR 3) by (apply le_INR; lia). simpl in H. lra.
  - simpl. lra.
Qed.

Lemma w_code : code_grid w_year w_mw (1/10) 1 (@arange ROps 4 (42/10 + 1/10) (1/10))
   (@arange ROps 1 (2000 - 1997 + 2) 1) 4 2000 2 4.
Proof.
  constructor.
  - unfold stepp_mbin. rewrite w_round.
    rewrite (proj2 (minv_spec w_mw _) w_min). rewrite (proj2 (maxv_spec w_mw _) w_max).
    cbn [bind]. rops.
    replace (Rfloor (10 * (405/100))) with 40%Z by (symmetry; apply Rfloor_unique; lra).
    replace (Rceil (10 * (415/100))) with 42%Z by (symmetry; apply Rceil_unique; lra).
    replace (40/10) with 4 by lra. reflexivity.
  - apply (proj2 (maxv_spec w_year _) w_end).
  - unfold stepp_time_range. rewrite (proj2 (maxv_spec w_year _) w_end).
    rewrite (proj2 (minv_spec w_year _) w_start). reflexivity.
  - rewrite arange_length. apply w_len1.
  - rewrite arange_length. apply w_len2.
  - intros k Hk. apply arange_nth. rewrite w_len1. lia.
  - intros i Hi. rewrite arange_nth by (rewrite w_len2; auto). rewrite INR_S1. f_equal. ring.
Qed.

Lemma w_grid : stepp_grid w_year w_mw (1/10) 1 w_mw 4 2000 2 4.
Proof.
  constructor.
  - rewrite <- w_round at 2. apply round2_forall.
  - exists (405/100), 40%Z. split. apply w_min. lra.
  - exists (415/100), (42/10), 42%Z. split. apply w_max. split; [lra|]. split; [lra|].
    intros k. rewrite INR_lt_iff. simpl. lra.
  - apply w_end.
  - exists 1997. split. apply w_start. intros i. rewrite INR_lt_iff, INR_S1. simpl. lra.
Qed.

Lemma w_count : forall k i, (k < 2)%nat -> (i < 4)%nat ->
  observed (combine w_year w_mw) 4 (1/10) 2000 2 k (INR (i + 1) * 1)
  = nth i (nth k [[1; 1; 4; 4]; [1; 4; 4; 4]]%nat []) 0%nat.
Proof.
  intros k i Hk Hi. unfold observed, w_year, w_mw, count.
  destruct k as [|[|k]]; try lia; destruct i as [|[|[|[|i]]]]; try lia;
    cbn [combine filter fst snd Nat.eqb Nat.add INR orb]; rdec; reflexivity.
Qed.

Lemma rate_sigma_val : forall c t v, 0 < t -> 1/100000000000000 <= v -> INR c = v * v * (t * t) ->
  rate_sigma c t = v.
Proof.
  intros c t v Ht Hv Hc. unfold rate_sigma.
  replace (INR c / t / t) with (v * v) by (rewrite Hc; field; lra).
  rewrite sqrt_square by lra. apply Rmax_left. lra.
Qed.

Lemma log10_sub : forall x y, 0 < x -> 0 < y -> Rlog10 x - Rlog10 y = Rlog10 (x / y).
Proof.
  intros. unfold Rlog10. replace (x / y) with (x * / y) by auto.
  rewrite ln_mult, ln_Rinv; auto. field. apply Rgt_not_eq, ln10_pos.
  apply Rinv_0_lt_compat; auto.
Qed.

Lemma slope_neg1 : forall a b, 0 < a -> 0 < b -> a <> b -> Rlog10 (a / b) / Rlog10 (b / a) = -1.
Proof.
  intros. rewrite <- !log10_sub by auto. field.
  destruct (Rlt_dec a b).
  - assert (H2 := log10_lt a b). lra.
  - assert (H2 := log10_lt b a). lra.
Qed.

Lemma w_slopes : forall (c : nat -> nat) i a b,
  rate_sigma (c (i + 1)%nat) (INR (i + 1 + 1) * 1) = a ->
  rate_sigma (c i) (INR (i + 1) * 1) = b -> 0 < a -> 0 < b ->
  log_slope c (fun j => INR (j + 1) * 1) i
   = Rlog10 (a / b) / Rlog10 ((INR (i + 1 + 1) * 1) / (INR (i + 1) * 1)).
Proof.
  intros c i a b Ha Hb Pa Pb. unfold log_slope. rewrite Ha, Hb.
  assert (0 < INR (i + 1)) by (apply lt_0_INR; lia).
  assert (0 < INR (i + 1 + 1)) by (apply lt_0_INR; lia).
  rewrite !log10_sub by lra. auto.
Qed.

Lemma log10_1 : Rlog10 1 = 0.
Proof. unfold Rlog10. rewrite ln_1. lra. Qed.
Lemma log10_pos : forall x, 1 < x -> 0 < Rlog10 x.
Proof. intros. rewrite <- log10_1. apply log10_lt; lra. Qed.

Lemma w_viol0 : violates (combine w_year w_mw) 4 (1/10) 1 2000 (2/10) 2 4 0 1.
Proof.
  split; [lia|]. intros dur c.
  assert (C : forall i, (i < 4)%nat -> c i = nth i [1; 1; 4; 4]%nat 0%nat)
    by (intros; apply (w_count 0); lia).
  unfold dur.
  rewrite (w_slopes c (1 + 1)%nat (1/2) (2/3)); try lra;
    try (rewrite C by lia; simpl; apply rate_sigma_val; simpl; lra).
  rewrite (w_slopes c 1%nat (2/3) (1/2)); try lra;
    try (rewrite C by lia; simpl; apply rate_sigma_val; simpl; lra).
  simpl INR.
  replace (1 / 2 / (2 / 3)) with (3 / 4) by field.
  replace ((1 + 1 + 1 + 1) * 1 / ((1 + 1 + 1) * 1)) with (4 / 3) by field.
  replace (2 / 3 / (1 / 2)) with (4 / 3) by field.
  replace ((1 + 1 + 1) * 1 / ((1 + 1) * 1)) with (3 / 2) by field.
  rewrite slope_neg1 by lra.
  assert (0 < Rlog10 (4/3) / Rlog10 (3/2)).
  { apply Rdiv_lt_0_compat; apply log10_pos; lra. }
  rewrite Rabs_left; lra.
Qed.

Lemma w_viol1 : violates (combine w_year w_mw) 4 (1/10) 1 2000 (2/10) 2 4 1 0 /\
  ~ violates (combine w_year w_mw) 4 (1/10) 1 2000 (2/10) 2 4 1 1.
Proof.
  set (c := fun j => observed (combine w_year w_mw) 4 (1/10) 2000 2 1 (INR (j + 1) * 1)).
  set (dur := fun j => INR (j + 1) * 1).
  assert (C : forall i, (i < 4)%nat -> c i = nth i [1; 4; 4; 4]%nat 0%nat)
    by (intros; apply (w_count 1); lia).
  assert (S0 : log_slope c dur 0 = 0).
  { unfold dur. rewrite (w_slopes c 0%nat 1 1); try lra;
    try (rewrite C by lia; simpl; apply rate_sigma_val; simpl; lra).
    replace (1/1) with 1 by lra. rewrite log10_1. unfold Rdiv. rewrite Rmult_0_l. auto. }
  assert (S1 : log_slope c dur 1 = -1).
  { unfold dur. rewrite (w_slopes c 1%nat (2/3) 1); try lra;
    try (rewrite C by lia; simpl; apply rate_sigma_val; simpl; lra).
    replace (2/3/1) with (2/3) by field. simpl INR.
    replace ((1 + 1 + 1) * 1 / ((1 + 1) * 1)) with (3/2) by field. apply slope_neg1; lra. }
  assert (S2 : log_slope c dur 2 = -1).
  { unfold dur. rewrite (w_slopes c 2%nat (1/2) (2/3)); try lra;
    try (rewrite C by lia; simpl; apply rate_sigma_val; simpl; lra).
    replace (1/2/(2/3)) with (3/4) by field. simpl INR.
    replace ((1 + 1 + 1 + 1) * 1 / ((1 + 1 + 1) * 1)) with (4/3) by field. apply slope_neg1; lra. }
  split.
  - split; [lia|]. change (2/10 < Rabs (log_slope c dur 1 - log_slope c dur 0)).
    rewrite S0, S1. rewrite Rabs_left; lra.
  - intros (_ & H). change (2/10 < Rabs (log_slope c dur 2 - log_slope c dur 1)) in H.
    rewrite S1, S2 in H. replace (-1 - -1) with 0 in H by lra. rewrite Rabs_R0 in H. lra.
Qed.

Lemma w_table : @stepp_analysis ROps w_year w_mw (1/10) 1 (2/10) false
   = Ok [(1998, 4); (1998, 41/10)].
Proof.
  destruct (stepp_rows _ _ _ _ (2/10) false _ _ _ _ _ _ w_code ltac:(lia)) as (tab & pos & H1 & H2 & H3).
  rewrite H1. f_equal.
  destruct (H3 0%nat ltac:(lia)) as (_ & R0 & P0). destruct (H3 1%nat ltac:(lia)) as (_ & R1 & P1).
  assert (B0 : @bin_tloct ROps w_year (map (@round2 ROps) w_mw) 2000 (@arange ROps 4 (42/10 + 1/10) (1/10))
   (@arange ROps 1 (2000 - 1997 + 2) 1) (2/10) 0 = Some 1%nat).
  { apply (bin_tloct_spec _ _ _ _ _ _ _ _ _ _ _ _ _ w_code); try lra; try lia.
    split; [lia|]. rewrite w_round. split. apply w_viol0. intros q (Hq & _). lia. }
  assert (B1 : @bin_tloct ROps w_year (map (@round2 ROps) w_mw) 2000 (@arange ROps 4 (42/10 + 1/10) (1/10))
   (@arange ROps 1 (2000 - 1997 + 2) 1) (2/10) 1 = None).
  { match goal with |- ?x = None => destruct x as [p|] eqn:E; auto end.
    apply (bin_tloct_spec _ _ _ _ _ _ _ _ _ _ _ _ _ w_code) in E; try lra; try lia.
    rewrite w_round in E. destruct E as (E1 & (E2 & _)).
    assert (p = 1%nat) by (destruct E2; lia). subst. exfalso. apply (proj2 w_viol1). auto. }
  rewrite B0 in P0. rewrite B1 in P1. simpl in P0, P1. rewrite P0 in *. rewrite P1 in *.
  simpl in R0, R1. destruct tab as [|a [|b [|x tab]]]; try discriminate.
  simpl in R0, R1. injection R0; injection R1; intros -> ->. f_equal; [|f_equal]; f_equal; lra.
Qed.

Lemma C34_refuted_proof :
  exists (year mw : list R) (dm dt ttol : R) tab rm lowm endt n nt k p,
    0 < dm /\ 0 < dt /\
    @stepp_analysis ROps year mw dm dt ttol false = Ok tab /\
    stepp_grid year mw dm dt rm lowm endt n nt /\ (k < n)%nat /\
    last_violation (combine year rm) lowm dm dt endt ttol n nt k p /\
    nth_error tab k <> Some (endt - INR (p + 1) * dt, lowm + INR k * dm).
Proof.
  exists w_year, w_mw, (1/10), 1, (2/10), [(1998, 4); (1998, 41/10)], w_mw, 4, 2000, 2%nat, 4%nat,
    1%nat, 0%nat.
  split; [lra|]. split; [lra|]. split; [apply w_table|]. split; [apply w_grid|].
  split; [lia|]. split.
  - split. apply (proj1 w_viol1). intros q Hq. destruct (Nat.eq_dec q 1).
    + subst. exfalso. apply (proj2 w_viol1). auto.
    + destruct Hq. lia.
  - simpl. intros E. injection E. intros. lra.
Qed.
