(** Proofs for C98: the order of the events in the catalogue. *)
From Coq Require Import Reals ZArith Bool Arith Lia Lra String List Permutation.
From Verif Require Import Base BaseFacts Ops Recurrence MaxMag RFacts RecurrenceProofs MaxMagProofs KijkoProofs MomentProofs.
Import ListNotations.
Local Open Scope R_scope.

(** Case analysis on the first step of a computation. *)
Ltac step := match goal with |- bind ?x _ = _ => destruct x; cbn [bind]; [|reflexivity] end.

Lemma bind_both : forall A B (x y : res A) (f g : A -> res B), x = y -> (forall a, f a = g a) -> bind x f = bind y g.
Proof. intros A B x y f g -> H. destruct y; cbn [bind]; auto. Qed.

Lemma count_true_perm' : forall A (p : A -> bool) l m, Permutation l m -> count_true (map p l) = count_true (map p m).
Proof. intros A p l m H. induction H; cbn [map count_true]; try destruct (p x); try destruct (p y); lia. Qed.

Lemma filter_perm : forall A (p : A -> bool) l m, Permutation l m -> Permutation (filter p l) (filter p m).
Proof.
  intros A p l m H. induction H; simpl; auto.
  - destruct (p x); auto.
  - destruct (p x), (p y); auto. constructor.
  - eapply perm_trans; eauto.
Qed.

Lemma maxv_perm_eq : forall l m : list R, Permutation l m -> @maxv ROps l = @maxv ROps m.
Proof. intros. apply maxv_perm. auto. Qed.
Lemma minv_perm_eq : forall l m : list R, Permutation l m -> @minv ROps l = @minv ROps m.
Proof. intros. apply minv_perm. auto. Qed.

Lemma map2_pairs : forall A B C (f : A -> B -> C) (l : list (A * B)),
  map2 f (map fst l) (map snd l) = map (fun p => f (fst p) (snd p)) l.
Proof. induction l; simpl; congruence. Qed.

Lemma mask_get_pairs : forall A B (p : A -> bool) (f : A -> B) l,
  mask_get (map p l) (map f l) = map f (filter p l).
Proof. induction l; simpl; auto. destruct (p a); simpl; congruence. Qed.

Lemma histogram_perm : forall (l m edges : list R), Permutation l m -> @histogram ROps l edges = @histogram ROps m edges.
Proof. intros. unfold histogram. apply map_ext. intros. apply count_true_perm'. auto. Qed.

Lemma rec_table_perm : forall (mag mag' year year' : list R) dmag, Permutation mag mag' -> Permutation year year' ->
  @recurrence_table ROps mag dmag year = @recurrence_table ROps mag' dmag year'.
Proof.
  intros mag mag' year year' dmag M Y. unfold recurrence_table, rec_mag_range.
  rewrite (maxv_perm_eq _ _ Y), (minv_perm_eq _ _ Y).
  rewrite (maxv_perm_eq _ _ (Permutation_map (fun m => @div ROps (ceilv (mul (ofZ 10) m)) (ofZ 10)) M)).
  rewrite (minv_perm_eq _ _ (Permutation_map (fun m => @div ROps (floorv (mul (ofZ 10) m)) (ofZ 10)) M)).
  destruct (@maxv ROps year') as [ymax|]; cbn [bind]; auto. destruct (@minv ROps year') as [ymin|]; cbn [bind]; auto.
  match goal with |- context [@maxv ROps (map ?f mag')] => destruct (@maxv ROps (map f mag')) end; cbn [bind]; auto.
  match goal with |- context [@minv ROps (map ?f mag')] => destruct (@minv ROps (map f mag')) end; cbn [bind]; auto.
  rewrite (histogram_perm _ _ _ M). reflexivity.
Qed.

Lemma mle_period_perm : forall (evs evs' : list (R * R)) (ctime cmag : list R) dmag ref cy, Permutation evs evs' ->
  @mle_period ROps (map fst evs) (map snd evs) ctime cmag dmag ref cy
  = @mle_period ROps (map fst evs') (map snd evs') ctime cmag dmag ref cy.
Proof.
  intros evs evs' ctime cmag dmag ref cy P. unfold mle_period.
  step.
  match goal with |- context [in_period cy ?m] => set (m_c := m) end.
  rewrite !map2_pairs. rewrite !(mask_get_pairs (R * R) R).
  set (f := fun p : R * R => in_period cy m_c (fst p) (snd p)).
  assert (F := filter_perm _ f _ _ P).
  rewrite (maxv_perm_eq _ _ (Permutation_map fst F)), (minv_perm_eq _ _ (Permutation_map fst F)).
  rewrite (rec_table_perm _ _ _ _ dmag (Permutation_map snd F) (Permutation_map fst F)).
  rewrite (count_true_perm' _ f _ _ P). reflexivity.
Qed.

Lemma mle_loop_perm : forall (evs evs' : list (R * R)) (ctime cmag : list R) dmag ref, Permutation evs evs' ->
  forall fuel i, @mle_loop ROps fuel (map fst evs) (map snd evs) ctime cmag dmag ref i
  = @mle_loop ROps fuel (map fst evs') (map snd evs') ctime cmag dmag ref i.
Proof.
  intros evs evs' ctime cmag dmag ref P. induction fuel; intros i; cbn [mle_loop]; auto.
  match goal with |- match ?x with _ => _ end = _ => destruct x as [cy|]; auto end. apply bind_both. exact (mle_period_perm _ _ _ _ _ _ _ P).
  intros p. apply bind_both. apply IHfuel. auto.
Qed.

Lemma hist2d_perm : forall (evs evs' : list (R * R)) (g : R -> R) (ti mi : list R), Permutation evs evs' ->
  @histogram2d ROps (map fst evs) (map g (map snd evs)) ti mi
  = @histogram2d ROps (map fst evs') (map g (map snd evs')) ti mi.
Proof.
  intros evs evs' g ti mi P. unfold histogram2d. apply map_ext. intros a. apply map_ext. intros b.
  assert (E : forall l : list (R * R),
    map2 (fun y m => @in_bin ROps ti a y && @in_bin ROps mi b m)%bool (map fst l) (map g (map snd l))
    = map (fun p => @in_bin ROps ti a (fst p) && @in_bin ROps mi b (g (snd p)))%bool l)
    by (induction l as [|e l IH]; cbn [map map2 fst snd]; [auto|f_equal; exact IH]).
  rewrite !E. apply count_true_perm'. auto.
Qed.

Lemma weichert_prep_perm : forall (evs evs' : list (R * R)) (tab : list (R * R)) d_m d_t, Permutation evs evs' ->
  @weichert_prep ROps (map fst evs) (map snd evs) tab d_m d_t
  = @weichert_prep ROps (map fst evs') (map snd evs') tab d_m d_t.
Proof.
  intros evs evs' tab d_m d_t P. unfold weichert_prep.
  assert (Y := Permutation_map fst P). assert (M := Permutation_map (@round1 ROps) (Permutation_map snd P)).
  rewrite (maxv_perm_eq _ _ Y), (minv_perm_eq _ _ Y), (maxv_perm_eq _ _ M), (minv_perm_eq _ _ M).
  step. step.
  step. step.
  rewrite (hist2d_perm _ _ (@round1 ROps) _ _ P). reflexivity.
Qed.

Lemma C98_proof : forall fuel (evs evs' tab : list (R * R)) window alg ref twin, Permutation evs evs' ->
  @recurrence_analysis ROps fuel (map fst evs) (map snd evs) tab window alg ref twin
  = @recurrence_analysis ROps fuel (map fst evs') (map snd evs') tab window alg ref twin.
Proof.
  intros fuel evs evs' tab window alg ref twin P. unfold recurrence_analysis.
  destruct (String.eqb alg "Weichert").
  - rewrite (weichert_prep_perm _ _ _ _ _ P). reflexivity.
  - unfold b_maxlike_time. rewrite (mle_loop_perm _ _ _ _ _ _ P). reflexivity.
Qed.

(** ** Kijko *)

Lemma largest_perm : forall (l m : list R) neq, Permutation l m ->
  Permutation (fst (@largest ROps l neq)) (fst (@largest ROps m neq)) /\
  snd (@largest ROps l neq) = snd (@largest ROps m neq).
Proof.
  intros l m neq P. unfold largest. rops. rewrite (Permutation_length P).
  destruct (Nat.leb (length m) neq); simpl; auto. rewrite (sortv_perm_eq l m P). auto.
Qed.

Lemma sumv_perm : forall l m : list R, Permutation l m -> @sumv ROps l = @sumv ROps m.
Proof. intros. rewrite !sumv_R. apply Rsum_perm. auto. Qed.

Lemma kijko_cdf_perm : forall mmin mmax (l m : list R) h n t, Permutation l m ->
  @kijko_cdf ROps mmin mmax l h n t = @kijko_cdf ROps mmin mmax m h n t.
Proof.
  intros mmin mmax l m h n t P. unfold kijko_cdf. rops. rewrite !gauss_vec.
  assert (E : forall (f g : R -> R) (k : list R), map2 Rminus (map f k) (map g k) = map (fun x => f x - g x) k)
    by (induction k; simpl; congruence).
  rewrite !E.
  rewrite (sumv_perm _ _ (Permutation_map (fun x => hst ((t - x) / h) - hst ((mmin - x) / h)) P)).
  rewrite (sumv_perm _ _ (Permutation_map (fun x => hst ((mmax - x) / h) - hst ((mmin - x) / h)) P)).
  reflexivity.
Qed.

Lemma kijko_delta_perm : forall mmin nsamp (l m : list R) h n t, Permutation l m ->
  @kijko_delta ROps mmin nsamp l h n t = @kijko_delta ROps mmin nsamp m h n t.
Proof.
  intros. unfold kijko_delta, kijko_npg_intfunc_simps. destruct (minv _); cbn [bind]; auto.
  destruct (maxv _); cbn [bind]; auto. f_equal. apply map_ext. intros. apply kijko_cdf_perm. auto.
Qed.

Lemma h_smooth_perm : forall l m : list R, Permutation l m -> @h_smooth ROps l = @h_smooth ROps m.
Proof.
  intros l m P. symmetry. exact (proj2 (C51_partial_proof l) m P).
Qed.

Lemma kijko_loop_ext : forall (f g : R -> res R), (forall x, f x = g x) ->
  forall fuel om tol maxit d m dl j,
  @kijko_loop ROps fuel f om tol maxit d m dl j = @kijko_loop ROps fuel g om tol maxit d m dl j.
Proof.
  intros f g E. induction fuel; intros; cbn [kijko_loop]; rops; destruct (Rltb tol d); auto.
  rewrite E. destruct (g m); cbn [bind]; auto.
Qed.


(** The loop of the estimator, given the observed maximum: the estimate and the last increment. *)
Definition kijko_core (fuel : nat) (mag : list R) (neq nsamp : nat) (tol : R) (maxit : nat) (om : R) : res (R * R) :=
  let (sel, n) := @largest ROps mag neq in
  bind (@minv ROps sel) (fun mmin =>
  bind (@kijko_loop ROps fuel (@kijko_delta ROps mmin nsamp sel (@h_smooth ROps sel) n) om tol maxit
          (@ofZ ROps 100000000) om None 0) (fun r =>
  let '(mmax, delta, _) := r in
  match delta with None => Err NameError | Some d => Ok (mmax, d) end)).

Lemma kijko_split : forall fuel (mag sig : list R) neq nsamp tol maxit mo,
  @kijko_nonparametric_gauss ROps fuel mag sig neq nsamp tol maxit mo
  = bind (@observed_max ROps mag sig mo) (fun p =>
    bind (kijko_core fuel mag neq nsamp tol maxit (fst p)) (fun q =>
    Ok (fst q, sqrt (snd p * snd p + snd q * snd q)))).
Proof.
  intros. unfold kijko_nonparametric_gauss, kijko_core. destruct (@observed_max ROps mag sig mo) as [[om os]|]; cbn [bind]; auto.
  cbn [fst snd]. destruct (@largest ROps mag neq) as [sel n]. destruct (@minv ROps sel); cbn [bind]; auto.
  destruct (@kijko_loop ROps _ _ _ _ _ _ _ _ _) as [[[mx d] j]|]; cbn [bind]; auto. destruct d; cbn [bind]; auto.
Qed.

Lemma kijko_at : forall fuel (mag sig : list R) neq nsamp tol maxit om os,
  @observed_max ROps mag sig None = Ok (om, os) ->
  @kijko_nonparametric_gauss ROps fuel mag sig neq nsamp tol maxit None
  = bind (kijko_core fuel mag neq nsamp tol maxit om) (fun q => Ok (fst q, sqrt (os * os + snd q * snd q))).
Proof. intros fuel mag sig neq nsamp tol maxit om os H. rewrite kijko_split, H. reflexivity. Qed.

Lemma kijko_core_perm : forall fuel (mag mag' : list R) neq nsamp tol maxit om, Permutation mag mag' ->
  kijko_core fuel mag neq nsamp tol maxit om = kijko_core fuel mag' neq nsamp tol maxit om.
Proof.
  intros fuel mag mag' neq nsamp tol maxit om P. unfold kijko_core.
  destruct (largest_perm mag mag' neq P) as [Q1 Q2].
  destruct (@largest ROps mag neq) as [l n], (@largest ROps mag' neq) as [l' n']. simpl in Q1, Q2. subst n'.
  rewrite (minv_perm_eq _ _ Q1), (h_smooth_perm _ _ Q1). destruct (@minv ROps l') as [mmin|]; cbn [bind]; auto.
  rewrite (kijko_loop_ext _ (@kijko_delta ROps mmin nsamp l' (@h_smooth ROps l') n)); auto.
  intros. apply kijko_delta_perm. auto.
Qed.

Lemma observed_max_pairs : forall (evs : list (R * R)), evs <> [] ->
  exists om os, @observed_max ROps (map fst evs) (map snd evs) None = Ok (om, os) /\ In (om, os) evs /\
    forall p, In p evs -> fst p <= om.
Proof.
  intros [|[m s] evs] NE; [congruence|]. cbn [map fst snd observed_max].
  destruct (@argmax_from ROps m s (map fst evs) (map snd evs)) as [om os] eqn:E. exists om, os. split; auto.
  apply argmax_spec in E. 2: rewrite !map_length; auto.
  destruct E as (i & I1 & I2 & I3 & _). split.
  - change (m :: map fst evs) with (map fst ((m, s) :: evs)) in I1.
    change (s :: map snd evs) with (map snd ((m, s) :: evs)) in I2.
    rewrite nth_error_map in I1, I2. destruct (nth_error ((m, s) :: evs) i) as [[a b]|] eqn:N; try discriminate.
    simpl in I1, I2. injection I1. injection I2. intros <- <-. eapply nth_error_In; eauto.
  - intros p Hp. apply I3. change (m :: map fst evs) with (map fst ((m, s) :: evs)). apply in_map. auto.
Qed.

Lemma C98_kijko_proof : forall fuel (evs evs' : list (R * R)) neq nsamp tol maxit, Permutation evs evs' ->
  let run l := @kijko_nonparametric_gauss ROps fuel (map fst l) (map snd l) neq nsamp tol maxit None in
  (forall mmax sigma, run evs = Ok (mmax, sigma) -> exists sigma', run evs' = Ok (mmax, sigma')) /\
  ((forall m s s', In (m, s) evs -> In (m, s') evs -> (forall p, In p evs -> fst p <= m) -> s = s') ->
   run evs = run evs').
Proof.
  intros fuel evs evs' neq nsamp tol maxit P run. unfold run. clear run.
  destruct evs as [|e evs]. { apply Permutation_nil in P. subst. split; eauto. }
  assert (NE' : evs' <> []). { intros ->. symmetry in P. apply Permutation_nil in P. discriminate. }
  destruct (observed_max_pairs (e :: evs) ltac:(discriminate)) as (om & os & O1 & O2 & O3).
  destruct (observed_max_pairs evs' NE') as (om' & os' & O1' & O2' & O3').
  assert (I : In (om', os') (e :: evs)) by (eapply Permutation_in; [symmetry; exact P|auto]).
  assert (I' : In (om, os) evs') by (eapply Permutation_in; [exact P|auto]).
  assert (om = om'). { specialize (O3 _ I). specialize (O3' _ I'). simpl in *. lra. } subst om'.
  rewrite (kijko_at _ _ _ _ _ _ _ _ _ O1), (kijko_at _ _ _ _ _ _ _ _ _ O1').
  rewrite (kijko_core_perm _ _ _ _ _ _ _ _ (Permutation_map fst P)).
  split.
  - intros mmax sigma H. destruct (kijko_core _ _ _ _ _ _ _) as [[mx d]|]; cbn [bind] in *; [|discriminate].
    injection H. intros _ <-. eexists. reflexivity.
  - intros U. rewrite (U om os os'); auto.
Qed.

Lemma C98_kijko_refuted_proof : exists (evs evs' : list (R * R)) r r',
  Permutation evs evs' /\
  @kijko_nonparametric_gauss ROps 12 (map fst evs) (map snd evs) 100 51 (1 / 1000) 10 None = Ok r /\
  @kijko_nonparametric_gauss ROps 12 (map fst evs') (map snd evs') 100 51 (1 / 1000) 10 None = Ok r' /\
  snd r < snd r'.
Proof.
  set (evs := [(4, 1 / 10); (6, 1 / 10); (6, 3 / 10)]). set (evs' := [(4, 1 / 10); (6, 3 / 10); (6, 1 / 10)]).
  assert (P : Permutation evs evs') by (constructor; constructor).
  destruct (C47_proof 12 (map fst evs) (map snd evs) 100 51 (1 / 1000) 10 None) as
    (om & os & sel & n & mmin & prev & d & mmax & sigma & A1 & A2 & A3 & A4 & A5 & A6 & A7 & _);
    try (simpl; lia); try (simpl; congruence); try lra.
  assert (O1 : @observed_max ROps (map fst evs) (map snd evs) None = Ok (6, 1 / 10)).
  { unfold evs. cbn [map fst snd observed_max argmax_from]. rops. rdec. auto. }
  assert (O2 : @observed_max ROps (map fst evs') (map snd evs') None = Ok (6, 3 / 10)).
  { unfold evs'. cbn [map fst snd observed_max argmax_from]. rops. rdec. auto. }
  rewrite (kijko_at _ _ _ _ _ _ _ _ _ O1) in A4.
  destruct (kijko_core _ _ _ _ _ _ _) as [[mx d']|] eqn:K; cbn [bind fst snd] in A4; [|discriminate].
  exists evs, evs', (mx, sqrt (1 / 10 * (1 / 10) + d' * d')), (mx, sqrt (3 / 10 * (3 / 10) + d' * d')).
  split; auto. rewrite (kijko_at _ _ _ _ _ _ _ _ _ O1), (kijko_at _ _ _ _ _ _ _ _ _ O2).
  assert (K' := kijko_core_perm 12 _ _ 100 51 (1 / 1000) 10 6 (Permutation_map fst P)).
  rewrite K in K'. rewrite K, <- K'. cbn [bind fst snd].
  split; auto. split; auto. apply sqrt_lt_1; nra.
Qed.
