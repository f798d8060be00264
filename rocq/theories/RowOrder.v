(** The order of the rows of a completeness table (C116). *)
From Coq Require Import Reals ZArith Bool Arith Lia Lra String List Permutation.
From Verif Require Import Base BaseFacts Ops RFacts Completeness CompletenessProofs Recurrence RecurrenceProofs OrderProofs.
Import ListNotations.
Local Open Scope nat_scope.

Lemma existsb_same : forall {A : Type} (p : A -> bool) l m, (forall x, In x l <-> In x m) -> existsb p l = existsb p m.
Proof.
  intros A p l m H. destruct (existsb p l) eqn:E.
  - apply existsb_exists in E. destruct E as (x & I & P). symmetry. apply existsb_exists. exists x. split; auto. now apply H.
  - destruct (existsb p m) eqn:F; auto. apply existsb_exists in F. destruct F as (x & I & P).
    assert (X : existsb p l = true) by (apply existsb_exists; exists x; split; auto; now apply H). congruence.
Qed.

Section Any.
Context {AR : Ops}.

(** ** Selection vector: the set of rows is all that counts *)

Lemma C116_selection_proof : forall (year mw : list T) (tab tab' : list (T * T)) flags, length mw = length year ->
  (forall r, In r tab <-> In r tab') ->
  selected_eq_flag_vector year mw tab flags = selected_eq_flag_vector year mw tab' flags.
Proof.
  intros year mw tab tab' flags LN H. unfold selected_eq_flag_vector.
  assert (E : completeness_flag year mw tab = completeness_flag year mw tab').
  { apply nth_error_ext. intros k. destruct (nth_error year k) as [y|] eqn:Y.
    - assert (K : k < length mw) by (rewrite LN; apply nth_error_Some; congruence). destruct (nth_error mw k) as [m|] eqn:M; [|apply nth_error_None in M; lia].
      rewrite !(completeness_flag_nth year mw _ k y m Y M). now rewrite (existsb_same _ _ _ H).
    - apply nth_error_None in Y. transitivity (@None Z); [|symmetry]; apply nth_error_None; rewrite completeness_flag_length; exact Y. }
  now rewrite E.
Qed.

(** More rows remove more events; and rows applied one table after the other remove what both do. *)
Lemma C116_union_proof : forall (year mw : list T) (tab tab' : list (T * T)) flags v, length mw = length year -> length flags = length year ->
  selected_eq_flag_vector year mw tab flags = Ok v ->
  selected_eq_flag_vector year mw tab' v = selected_eq_flag_vector year mw (tab ++ tab') flags.
Proof.
  intros year mw tab tab' flags v LM LF H.
  destruct (selected_ok year mw tab flags LM LF) as (v0 & E0 & L0 & N0). rewrite H in E0. assert (v0 = v) as -> by congruence. clear E0.
  destruct (selected_ok year mw tab' v LM L0) as (v1 & E1 & L1 & N1). destruct (selected_ok year mw (tab ++ tab') flags LM LF) as (v2 & E2 & L2 & N2).
  rewrite E1, E2. f_equal. apply nth_error_ext. intros k. destruct (nth_error year k) as [y|] eqn:Y.
  - assert (K : k < length year) by (apply nth_error_Some; congruence).
    destruct (nth_error mw k) as [m|] eqn:M; [|apply nth_error_None in M; lia]. destruct (nth_error flags k) as [f|] eqn:F; [|apply nth_error_None in F; lia].
    rewrite (N2 k y m f Y M F). rewrite (N1 k y m _ Y M (N0 k y m f Y M F)). f_equal. rewrite existsb_app.
    destruct (existsb _ tab); destruct (existsb _ tab'); destruct (Z.eqb f 0); reflexivity.
  - apply nth_error_None in Y. transitivity (@None Z); [|symmetry]; apply nth_error_None; lia.
Qed.

(** ** Weichert's counts *)

Definition zero_row (c : nat) (row : list nat) : list nat := map2 (fun b n => if Nat.ltb b c then 0 else n) (seq 0 (length row)) row.

Lemma map2_seq_nth : forall {A B : Type} (f : nat -> A -> B) (l : list A) s k,
  nth_error (map2 f (seq s (length l)) l) k = match nth_error l k with Some a => Some (f (s + k) a) | None => None end.
Proof.
  intros A B f l. induction l as [|a l IH]; intros s k; cbn [length seq map2].
  - now destruct k.
  - destruct k as [|k]; cbn [nth_error]; [now rewrite Nat.add_0_r|]. rewrite IH. replace (S s + k) with (s + S k) by lia. reflexivity.
Qed.

Lemma zero_row_swap : forall c d row, zero_row c (zero_row d row) = zero_row d (zero_row c row).
Proof.
  intros c d row. apply nth_error_ext. intros k. unfold zero_row. rewrite !map2_seq_nth. destruct (nth_error row k); auto.
  destruct (Nat.ltb (0 + k) c), (Nat.ltb (0 + k) d); reflexivity.
Qed.

Lemma zero_corner_swap : forall r c r' c' m, zero_corner r c (zero_corner r' c' m) = zero_corner r' c' (zero_corner r c m).
Proof.
  intros r c r' c' m. apply nth_error_ext. intros k. unfold zero_corner. rewrite !map2_seq_nth. destruct (nth_error m k) as [row|]; auto.
  destruct (Nat.ltb (0 + k) r), (Nat.ltb (0 + k) r'); auto. f_equal. exact (zero_row_swap c c' row).
Qed.

Lemma zero_swap : forall ti mi m (a b : T * T), zero_incomplete ti mi (zero_incomplete ti mi m a) b = zero_incomplete ti mi (zero_incomplete ti mi m b) a.
Proof.
  intros ti mi m a b. unfold zero_incomplete.
  destruct (last_opt (nonzero (map (fun t => ltb t (fst a)) ti))); destruct (last_opt (nonzero (map (fun t => ltb t (fst b)) ti)));
  destruct (last_opt (nonzero (map (fun g => ltb g (snd a)) mi))); destruct (last_opt (nonzero (map (fun g => ltb g (snd b)) mi))); auto. apply zero_corner_swap.
Qed.

Lemma fold_perm : forall {A B : Type} (f : A -> B -> A), (forall m a b, f (f m a) b = f (f m b) a) -> forall l l', Permutation l l' -> forall m, fold_left f l m = fold_left f l' m.
Proof. intros A B f H l l' P. induction P; intros m; cbn; auto. - now rewrite H. - now rewrite IHP1. Qed.

Lemma tper_ok : forall ymax (tab : list (T * T)) mg, tab <> [] -> exists t, weichert_tper ymax tab mg = Ok t.
Proof.
  intros ymax tab mg N. unfold weichert_tper. destruct (last_opt (nonzero _)) as [k|] eqn:E.
  - assert (K : k < length tab).
    { apply last_opt_in in E. apply nonzero_in in E. assert (X : k < length (map (fun row : T * T => ltb (sub (snd row) mg) (lit 1 1000)) tab)) by (apply nth_error_Some; congruence). now rewrite map_length in X. }
    destruct (nth_error tab k) as [r|] eqn:R; [eauto|apply nth_error_None in R; lia].
  - destruct tab as [|r tab]; [contradiction|]. clear. revert r. induction tab as [|s tab IH]; intros r; cbn; [eauto|]. destruct (IH s) as (t & H). cbn in H. eauto.
Qed.

Lemma C116_counts_proof : forall (year mag : list T) (tab tab' : list (T * T)) d_m d_t cent tper nobs, Permutation tab tab' ->
  weichert_prep year mag tab d_m d_t = Ok (cent, tper, nobs) ->
  exists tper', weichert_prep year mag tab' d_m d_t = Ok (cent, tper', nobs) /\ length tper' = length tper.
Proof.
  intros year mag tab tab' d_m d_t cent tper nobs P H. unfold weichert_prep in *.
  apply bind_ok in H. destruct H as (ymin & E1 & H). apply bind_ok in H. destruct H as (ymax & E2 & H). apply bind_ok in H. destruct H as (mmin & E3 & H). apply bind_ok in H. destruct H as (mmax & E4 & H).
  rewrite E1, E2, E3, E4. cbn [bind]. apply bind_ok in H. destruct H as (tp & TP & H).
  rewrite <- (fold_perm _ (zero_swap _ _) _ _ P).
  set (mi := arange mmin _ d_m) in *.
  assert (Q : exists tp', mapM (fun i => weichert_tper ymax tab' (nth i mi (ofZ 0))) (seq 0 (length mi - 1)) = Ok tp').
  { destruct tab' as [|r' tab'].
    - apply Permutation_sym, Permutation_nil in P. subst tab. eauto.
    - apply mapM_ok. intros i _. apply tper_ok. discriminate. }
  destruct Q as (tp' & Q). exists tp'. rewrite Q. cbn [bind]. injection H as <- <- <-. split; auto.
  rewrite (mapM_length _ _ _ _ _ Q), (mapM_length _ _ _ _ _ TP). reflexivity.
Qed.

End Any.

(** ** Maximum likelihood *)
Local Open Scope R_scope.

Lemma mapM_perm : forall {A B : Type} (f : A -> res B) l l', Permutation l l' -> forall r, mapM f l = Ok r -> exists r', mapM f l' = Ok r' /\ Permutation r r'.
Proof.
  intros A B f l l' P. induction P as [|a l l' P IH|a b l|l l' l'' P1 IH1 P2 IH2]; intros r H.
  - exists r. auto.
  - cbn [mapM] in *. apply bind_ok in H. destruct H as (x & X & H). apply bind_ok in H. destruct H as (y & Y & H). injection H as <-.
    destruct (IH y Y) as (r' & E & Q). rewrite X. cbn [bind]. rewrite E. cbn [bind]. exists (x :: r'). auto.
  - cbn [mapM] in *. apply bind_ok in H. destruct H as (x & X & H). apply bind_ok in H. destruct H as (y & Y & H). apply bind_ok in Y. destruct Y as (z & Z & Y). apply bind_ok in Y. destruct Y as (u & U & Y).
    injection Y as <-. injection H as <-. rewrite Z. cbn [bind]. rewrite X. cbn [bind]. rewrite U. cbn [bind]. exists (z :: x :: u). split; auto. constructor.
  - destruct (IH1 r H) as (r1 & H1 & Q1). destruct (IH2 r1 H1) as (r2 & H2 & Q2). exists r2. split; auto. eapply perm_trans; eauto.
Qed.

Lemma period_rows : forall (year mag : list R) (tab tab' : list (R * R)) dmag ref cy, Permutation tab tab' ->
  @mle_period ROps year mag (map fst tab) (map snd tab) dmag ref cy = @mle_period ROps year mag (map fst tab') (map snd tab') dmag ref cy.
Proof.
  intros year mag tab tab' dmag ref cy P. unfold mle_period, same_year. rewrite !map_map. rewrite !(mask_get_pairs (R * R) R).
  assert (E := minv_perm_eq _ _ (Permutation_map snd (filter_perm _ (fun x => @ltb ROps (@absv ROps (@sub ROps (fst x) cy)) (@mag_eq_tolerance ROps)) _ _ P))).
  match goal with |- bind ?x _ = bind ?y _ => enough (Q : x = y) by (rewrite Q; reflexivity); exact E end.
Qed.

(** Rows of the same year are adjacent, and different years are not within the tolerance. *)
Definition grouped_years (ys : list R) : Prop :=
  (forall y y', In y ys -> In y' ys -> Rabs (y - y') < 1 / 100000 -> y = y') /\
  (forall i j k x y, (i < j < k)%nat -> nth_error ys i = Some x -> nth_error ys j = Some y -> nth_error ys k = Some x -> y = x).

Lemma C116_mle_proof : forall (year mag : list R) (tab tab' : list (R * R)) dmag ref r, Permutation tab tab' ->
  grouped_years (map fst tab) -> grouped_years (map fst tab') ->
  @b_maxlike_time ROps year mag (map fst tab) (map snd tab) dmag ref = Ok r ->
  @b_maxlike_time ROps year mag (map fst tab') (map snd tab') dmag ref = Ok r.
Proof.
  intros year mag tab tab' dmag ref r P (G1 & G2) (G1' & G2') H.
  destruct (adjacent_by_year _ G1 G2) as (g & BY & IFF & _). destruct (adjacent_by_year _ G1' G2') as (g' & BY' & IFF' & _).
  rewrite (b_maxlike_time_eq _ _ _ _ _ _ g BY) in H. rewrite (b_maxlike_time_eq _ _ _ _ _ _ g' BY').
  assert (PG : Permutation (map fst g) (map fst g')).
  { apply NoDup_Permutation; [apply BY|apply BY'|]. intros x. rewrite IFF, IFF'. split; intros I; eapply Permutation_in; try exact I; [|apply Permutation_sym]; now apply Permutation_map. }
  apply bind_ok in H. destruct H as (ps & HP & H).
  destruct (mapM_perm _ _ _ PG ps HP) as (ps' & HP' & PP).
  rewrite (mapM_ext _ _ _ (@mle_period ROps year mag (map fst tab) (map snd tab) dmag ref)).
  2:{ intros a _. symmetry. now apply period_rows. }
  match goal with |- bind ?x _ = _ => replace x with (Ok ps' : res (list (@period ROps))) by (symmetry; exact HP') end. cbn [bind].
  destruct ps as [|p ps]; [discriminate|]. destruct ps' as [|p' ps']; [apply Permutation_length in PP; discriminate|].
  rewrite <- H. cbv zeta.
  assert (SN : list_sum (map pd_n (p' :: ps')) = list_sum (map pd_n (p :: ps))).
  { clear - PP. revert PP. generalize (p :: ps) (p' :: ps'). intros l l' PP. induction PP; unfold list_sum in *; cbn [map fold_right] in *; lia. }
  rewrite SN.
  assert (SF : forall f : @period ROps -> R, Rsum (map (fun q => INR (pd_n q) / INR (list_sum (map pd_n (p :: ps))) * f q) (p' :: ps')) =
                         Rsum (map (fun q => INR (pd_n q) / INR (list_sum (map pd_n (p :: ps))) * f q) (p :: ps))).
  { intros f. apply Rsum_perm. apply Permutation_map. now apply Permutation_sym. }
  now rewrite !SF.
Qed.

Lemma C116_recurrence_proof : forall fuel (year mag : list R) (tab tab' : list (R * R)) window alg ref twin r,
  alg <> "Weichert"%string -> Permutation tab tab' ->
  (forall t, t = tab \/ t = tab' ->
     (forall y y', In y (map fst t) -> In y' (map fst t) -> Rabs (y - y') < 1 / 100000 -> y = y') /\
     (forall i j k x y, (i < j < k)%nat -> nth_error (map fst t) i = Some x -> nth_error (map fst t) j = Some y ->
        nth_error (map fst t) k = Some x -> y = x)) ->
  @recurrence_analysis ROps fuel year mag tab window alg ref twin = Ok r ->
  @recurrence_analysis ROps fuel year mag tab' window alg ref twin = Ok r.
Proof.
  intros fuel year mag tab tab' window alg ref twin r N P G. unfold recurrence_analysis.
  destruct (String.eqb alg "Weichert") eqn:E; [apply String.eqb_eq in E; contradiction|].
  apply C116_mle_proof; auto; apply G; auto.
Qed.
