(** The standard normal distribution function, specified by its density, and how far the
    Hastings approximation of maximum_magnitude.py:70-102 is from it (property C88). *)
From Coq Require Import ZArith List Reals Lra Lia Machin.
From Coquelicot Require Import Coquelicot.
From Verif Require Import Base Ops RFacts MaxMag MaxMagProofs.
Local Open Scope R_scope.

(** The density of the standard normal distribution. *)
Definition normal_density (x : R) : R := exp (- (x * x) / 2) / sqrt (2 * PI).

(** A standard normal distribution function: one half at the mean, with that density as derivative.
    There is exactly one ([normal_cdf_exists], [normal_cdf_unique]). *)
Definition normal_cdf (Phi : R -> R) : Prop :=
  Phi 0 = 1 / 2 /\ forall x, derivable_pt_lim Phi x (normal_density x).

(** * Comparison of functions through their derivatives *)

Lemma compare_deriv : forall (f g f' g' : R -> R) (b : R), 0 <= b -> f 0 = g 0 ->
  (forall c, 0 <= c <= b -> derivable_pt_lim f c (f' c)) ->
  (forall c, 0 <= c <= b -> derivable_pt_lim g c (g' c)) ->
  (forall c, 0 <= c <= b -> f' c <= g' c) -> f b <= g b.
Proof.
  intros f g f' g' b Hb H0 Hf Hg Hle. destruct (Req_dec b 0) as [->|Hne]; [lra|].
  assert (Hd : forall c, 0 <= c <= b -> derivable_pt_lim (fun x => g x - f x) c (g' c - f' c)).
  { intros c Hc. apply derivable_pt_lim_minus; auto. }
  destruct (MVT_cor2 (fun x => g x - f x) (fun c => g' c - f' c) 0 b ltac:(lra) Hd) as [c [Hc Hr]].
  assert (0 <= g' c - f' c) by (specialize (Hle c ltac:(lra)); lra).
  assert (0 <= (g' c - f' c) * (b - 0)) by (apply Rmult_le_pos; lra).
  lra.
Qed.

Ltac dlim := apply is_derive_Reals; auto_derive; [trivial|].

(** * Alternating bounds for exp (-u) *)

Lemma d_expm : forall c, derivable_pt_lim (fun u => exp (- u)) c (- exp (- c)).
Proof. intro c. dlim. ring. Qed.

Lemma expm_le0 : forall u, 0 <= u -> exp (- u) <= 1.
Proof. intros u Hu. rewrite <- exp_0. destruct Hu as [Hu| <-]; [left; apply exp_increasing; lra|right; f_equal; lra]. Qed.
Lemma expm_ge1 : forall u, 0 <= u -> 1 - u <= exp (- u).
Proof.
  intros u Hu. apply (compare_deriv (fun u => 1 - u) (fun u => exp (- u)) (fun _ => - 1) (fun u => - exp (- u))); auto.
  - rewrite Ropp_0, exp_0. lra.
  - intros c _. dlim. ring.
  - intros c _. apply d_expm.
  - intros c Hc. pose proof (expm_le0 c ltac:(lra)). lra.
Qed.
Lemma expm_le2 : forall u, 0 <= u -> exp (- u) <= 1 - u + u ^ 2 / 2.
Proof.
  intros u Hu. apply (compare_deriv (fun u => exp (- u)) (fun u => 1 - u + u ^ 2 / 2) (fun u => - exp (- u)) (fun u => - (1 - u))); auto.
  - rewrite Ropp_0, exp_0. lra.
  - intros c _. apply d_expm.
  - intros c _. dlim. field.
  - intros c Hc. pose proof (expm_ge1 c ltac:(lra)). lra.
Qed.
Lemma expm_ge3 : forall u, 0 <= u -> 1 - u + u ^ 2 / 2 - u ^ 3 / 6 <= exp (- u).
Proof.
  intros u Hu. apply (compare_deriv (fun u => 1 - u + u ^ 2 / 2 - u ^ 3 / 6) (fun u => exp (- u)) (fun u => - (1 - u + u ^ 2 / 2)) (fun u => - exp (- u))); auto.
  - rewrite Ropp_0, exp_0. lra.
  - intros c _. dlim. field.
  - intros c _. apply d_expm.
  - intros c Hc. pose proof (expm_le2 c ltac:(lra)). lra.
Qed.
Lemma expm_le4 : forall u, 0 <= u -> exp (- u) <= 1 - u + u ^ 2 / 2 - u ^ 3 / 6 + u ^ 4 / 24.
Proof.
  intros u Hu. apply (compare_deriv (fun u => exp (- u)) (fun u => 1 - u + u ^ 2 / 2 - u ^ 3 / 6 + u ^ 4 / 24) (fun u => - exp (- u)) (fun u => - (1 - u + u ^ 2 / 2 - u ^ 3 / 6))); auto.
  - rewrite Ropp_0, exp_0. lra.
  - intros c _. apply d_expm.
  - intros c _. dlim. field.
  - intros c Hc. pose proof (expm_ge3 c ltac:(lra)). lra.
Qed.

(** * The normalising constant *)

Lemma PI_bounds : 3.1415 < PI < 3.142.
Proof.
  destruct (PI_2_3_7_ineq 2) as [H1 H2]. destruct (PI_2_3_7_ineq 3) as [H3 H4].
  unfold sum_f_R0, tg_alt, PI_2_3_7_tg, Ratan_seq in *. simpl in *. lra.
Qed.

Lemma sqrt2pi : 2.5064 < sqrt (2 * PI) < 2.5069.
Proof.
  pose proof PI_bounds. split.
  - rewrite <- (sqrt_square 2.5064) by lra. apply sqrt_lt_1; lra.
  - rewrite <- (sqrt_square 2.5069) by lra. apply sqrt_lt_1; lra.
Qed.

Definition kappa := / sqrt (2 * PI).
Lemma kappa_bounds : 0.39889 < kappa < 0.39898.
Proof.
  unfold kappa. pose proof sqrt2pi as H. split.
  - rewrite <- (Rinv_inv 0.39889). apply Rinv_lt_contravar; [|lra]. apply Rmult_lt_0_compat; lra.
  - rewrite <- (Rinv_inv 0.39898). apply Rinv_lt_contravar; [|lra]. apply Rmult_lt_0_compat; lra.
Qed.

Lemma density_kappa : forall x, normal_density x = kappa * exp (- (x * x / 2)).
Proof. intro x. unfold normal_density, kappa, Rdiv. rewrite Rmult_comm. f_equal. f_equal. lra. Qed.

(** * Existence and uniqueness *)

Lemma normal_cdf_exists : exists Phi, normal_cdf Phi.
Proof.
  exists (fun x => 1 / 2 + RInt normal_density 0 x). split.
  - rewrite RInt_point. unfold zero. simpl. lra.
  - intro x. apply is_derive_Reals.
    assert (Hc : forall z, continuous normal_density z).
    { intro z. apply (ex_derive_continuous (V:=R_NormedModule) normal_density z). unfold normal_density. auto_derive. pose proof sqrt2pi. lra. }
    replace (normal_density x) with (0 + normal_density x) by lra.
    apply @is_derive_plus; [apply @is_derive_const|].
    apply (is_derive_RInt normal_density (fun x => RInt normal_density 0 x) 0 x).
    + apply filter_forall. intro y. apply (@RInt_correct R_CompleteNormedModule). apply (@ex_RInt_continuous R_CompleteNormedModule). intros z _. apply Hc.
    + apply Hc.
Qed.

Lemma normal_cdf_sym : forall P, normal_cdf P -> forall x, P (- x) = 1 - P x.
Proof.
  intros P [HP dP]. assert (D : forall c, derivable_pt_lim (fun x => P x + P (- x)) c 0).
  { intro c. replace 0 with (normal_density c + normal_density (- c) * (- 1)).
    - apply derivable_pt_lim_plus; auto. apply (derivable_pt_lim_comp Ropp P); auto.
      apply derivable_pt_lim_opp_id || (apply (derivable_pt_lim_opp id c 1); apply derivable_pt_lim_id).
    - unfold normal_density. replace (- (- c * - c) / 2) with (- (c * c) / 2) by lra. lra. }
  assert (E : forall x, 0 <= x -> P x + P (- x) = 1).
  { intros x Hx. apply Rle_antisym.
    - apply (compare_deriv (fun x => P x + P (- x)) (fun _ => 1) (fun _ => 0) (fun _ => 0)); auto; intros; try lra.
      + rewrite Ropp_0. lra.
      + apply derivable_pt_lim_const.
    - apply (compare_deriv (fun _ => 1) (fun x => P x + P (- x)) (fun _ => 0) (fun _ => 0)); auto; intros; try lra.
      + rewrite Ropp_0. lra.
      + apply derivable_pt_lim_const. }
  intro x. destruct (Rle_dec 0 x) as [Hx|Hx].
  - specialize (E x Hx). lra.
  - specialize (E (- x) ltac:(lra)). rewrite Ropp_involutive in E. lra.
Qed.

Lemma normal_cdf_unique : forall P Q, normal_cdf P -> normal_cdf Q -> forall x, P x = Q x.
Proof.
  intros P Q NP NQ x. assert (E : forall x, 0 <= x -> P x = Q x).
  { destruct NP as [HP dP], NQ as [HQ dQ]. clear x. intros x Hx. apply Rle_antisym.
    - apply (compare_deriv P Q normal_density normal_density); auto; try lra. intros; lra.
    - apply (compare_deriv Q P normal_density normal_density); auto; try lra. intros; lra. }
  destruct (Rle_dec 0 x) as [Hx|Hx]; auto.
  replace x with (- - x) by lra. rewrite (normal_cdf_sym P NP), (normal_cdf_sym Q NQ), (E (- x)) by lra. reflexivity.
Qed.

(** * Numerical bounds of the distribution function *)

Definition taylor_up (x : R) : R := x - x ^ 3 / 6 + x ^ 5 / 40 - x ^ 7 / 336 + x ^ 9 / 3456.
Definition taylor_lo (x : R) : R := x - x ^ 3 / 6.

Lemma kappa_pos : 0 < kappa. Proof. pose proof kappa_bounds. lra. Qed.

Lemma cdf_up : forall P, normal_cdf P -> forall x, 0 <= x -> P x <= 1 / 2 + kappa * taylor_up x.
Proof.
  intros P [HP dP] x Hx.
  apply (compare_deriv P (fun x => 1 / 2 + kappa * taylor_up x) normal_density
    (fun x => kappa * (1 - x ^ 2 / 2 + x ^ 4 / 8 - x ^ 6 / 48 + x ^ 8 / 384))); auto.
  - unfold taylor_up. rewrite HP. field.
  - intros c _. unfold taylor_up. dlim. field.
  - intros c Hc. rewrite density_kappa. apply Rmult_le_compat_l; [pose proof kappa_pos; lra|].
    assert (A := expm_le4 (c * c / 2) ltac:(nra)). eapply Rle_trans; [exact A|]. right. field.
Qed.

Lemma cdf_lo : forall P, normal_cdf P -> forall x, 0 <= x -> 1 / 2 + kappa * taylor_lo x <= P x.
Proof.
  intros P [HP dP] x Hx.
  apply (compare_deriv (fun x => 1 / 2 + kappa * taylor_lo x) P
    (fun x => kappa * (1 - x ^ 2 / 2)) normal_density); auto.
  - unfold taylor_lo. rewrite HP. field.
  - intros c _. unfold taylor_lo. dlim. field.
  - intros c Hc. rewrite density_kappa. apply Rmult_le_compat_l; [pose proof kappa_pos; lra|].
    assert (A := expm_ge1 (c * c / 2) ltac:(nra)). eapply Rle_trans; [|exact A]. right. field.
Qed.

Lemma cdf_mono : forall P, normal_cdf P -> forall x y, x <= y -> P x <= P y.
Proof.
  intros P [HP dP] x y Hxy. destruct Hxy as [Hxy| ->]; [|lra].
  destruct (MVT_cor2 P normal_density x y Hxy) as [c [Hc _]]; [intros; apply dP|].
  assert (0 <= normal_density c * (y - x)).
  { apply Rmult_le_pos; [|lra]. rewrite density_kappa. apply Rmult_le_pos; [pose proof kappa_pos; lra|left; apply exp_pos]. }
  lra.
Qed.

(** Beyond 2 the function gains at most density(2)/2. *)
Lemma cdf_tail : forall P, normal_cdf P -> forall x, 0 <= x -> P x <= 1.0195.
Proof.
  intros P NP x Hx. assert (P2 : P 2 <= 0.9923).
  { pose proof (cdf_up P NP 2 ltac:(lra)) as A. pose proof kappa_bounds. unfold taylor_up in A.
    assert (kappa * (2 - 2 ^ 3 / 6 + 2 ^ 5 / 40 - 2 ^ 7 / 336 + 2 ^ 9 / 3456) <= 0.4923) by lra. lra. }
  destruct (Rle_dec x 2) as [H2|H2]. { pose proof (cdf_mono P NP x 2 H2). lra. }
  assert (E2 : exp (- 2) <= 0.1356).
  { replace (-2) with (- (1/2) + - (1/2) + (- (1/2) + - (1/2))) by lra. rewrite !exp_plus.
    pose proof (expm_le4 (1/2) ltac:(lra)) as A. pose proof (exp_pos (- (1/2))) as B.
    assert (C : exp (- (1/2)) * exp (- (1/2)) <= 0.36818) by nra.
    assert (0 < exp (- (1/2)) * exp (- (1/2))) by nra. nra. }
  destruct NP as [HP dP]. pose proof kappa_bounds as K.
  pose (G := fun t => P 2 - kappa / 2 * exp (- (t * t / 2)) + kappa / 2 * exp (- 2)).
  assert (D : forall c, 2 <= c <= x -> derivable_pt_lim (fun t => G t - P t) c (kappa / 2 * exp (- (c * c / 2)) * c - normal_density c)).
  { intros c _. apply derivable_pt_lim_minus; [|apply dP]. unfold G. dlim. change (c * c * / 2) with (c * c / 2). set (e := exp _). field. }
  destruct (MVT_cor2 _ _ 2 x ltac:(lra) D) as [c [Hc Hr]].
  assert (0 <= kappa / 2 * exp (- (c * c / 2)) * c - normal_density c).
  { rewrite density_kappa. pose proof (exp_pos (- (c * c / 2))). assert (0 < kappa * exp (- (c * c / 2))) by nra. nra. }
  assert (0 <= (kappa / 2 * exp (- (c * c / 2)) * c - normal_density c) * (x - 2)) by (apply Rmult_le_pos; lra).
  assert (G2 : G 2 = P 2). { unfold G. replace (- (2 * 2 / 2)) with (-2) by lra. lra. }
  assert (Gx : G x <= P 2 + kappa / 2 * exp (- 2)).
  { unfold G. pose proof (exp_pos (- (x * x / 2))). nra. }
  assert (kappa / 2 * exp (- 2) <= 0.0271) by (pose proof (exp_pos (-2)); nra).
  lra.
Qed.

(** * Distance of the approximation *)

Lemma hup_le : forall x y, 0 <= x -> x <= y -> hup x <= hup y.
Proof. intros x y Hx [H| ->]; [left; apply hup_mono; auto|lra]. Qed.

Lemma step_up : forall P a b m x, normal_cdf P -> 0 <= a -> a <= x <= b ->
  P b <= m -> m - hup a <= 1 / 4 -> P x - hup x <= 1 / 4.
Proof.
  intros P a b m x NP Ha Hx Hm Hd. pose proof (cdf_mono P NP x b ltac:(lra)). pose proof (hup_le a x Ha ltac:(lra)). lra.
Qed.

Lemma hup_lower : forall x v, 0 <= x -> 0 < hpoly x -> 1 / (2 * (1 - v)) <= hpoly x * hpoly x * (hpoly x * hpoly x) -> v < 1 -> v <= hup x.
Proof.
  intros x v Hx Hp Hv Hv1. unfold hup. set (q := hpoly x) in *.
  replace (q * (q * (q * (q * 1)))) with (q * q * (q * q)) by ring.
  set (w := q * q * (q * q)) in *.
  assert (0 < w) by (unfold w; repeat apply Rmult_lt_0_compat; auto).
  assert (0 < 1 / (2 * (1 - v))) by (apply Rdiv_lt_0_compat; lra).
  assert (1 / w <= 2 * (1 - v)).
  { replace (2 * (1 - v)) with (/ (1 / (2 * (1 - v)))) by (field; lra). unfold Rdiv at 1. rewrite Rmult_1_l.
    apply Rinv_le_contravar; auto. }
  lra.
Qed.

Lemma hup_upper : forall x v, 0 < hpoly x -> hpoly x * hpoly x * (hpoly x * hpoly x) <= 1 / (2 * (1 - v)) -> v < 1 -> hup x <= v.
Proof.
  intros x v Hp Hv Hv1. unfold hup. set (q := hpoly x) in *.
  replace (q * (q * (q * (q * 1)))) with (q * q * (q * q)) by ring.
  set (w := q * q * (q * q)) in *.
  assert (0 < w) by (unfold w; repeat apply Rmult_lt_0_compat; auto).
  assert (2 * (1 - v) <= 1 / w).
  { replace (2 * (1 - v)) with (/ (1 / (2 * (1 - v)))) by (field; lra). unfold Rdiv at 2. rewrite Rmult_1_l.
    apply Rinv_le_contravar; auto. }
  lra.
Qed.

Lemma hup_1 : hup 1 <= 0.661.
Proof. apply hup_upper; [unfold hpoly; lra | unfold hpoly; lra | lra]. Qed.

Ltac seg a b m v :=
  match goal with NP : normal_cdf ?P, H : _ <= ?x |- _ =>
    apply (step_up P a b m x NP); [lra | lra |
      eapply Rle_trans; [apply (cdf_up P NP); lra|]; pose proof kappa_bounds; unfold taylor_up;
        assert (kappa * (b - b ^ 3 / 6 + b ^ 5 / 40 - b ^ 7 / 336 + b ^ 9 / 3456) <= m - 1/2) by lra; lra
    | assert (v <= hup a) by (apply hup_lower; [lra | unfold hpoly; lra | unfold hpoly; lra | lra]); lra]
  end.

Lemma close_pos : forall P x, normal_cdf P -> 0 <= x -> Rabs (hup x - P x) <= 1 / 4.
Proof.
  intros P x NP Hx. apply Rabs_le. split.
  - cut (P x - hup x <= 1 / 4); [lra|].
    destruct (Rle_dec x 0.65); [seg 0 0.65 0.7423 0.5|].
    destruct (Rle_dec x 1.2); [seg 0.65 1.2 0.8851 0.6363|].
    destruct (Rle_dec x 1.4); [seg 1.2 1.4 0.9197 0.6723|].
    destruct (Rle_dec x 1.5); [seg 1.4 1.5 0.934 0.6886|].
    destruct (Rle_dec x 1.6); [seg 1.5 1.6 0.9467 0.6998|].
    destruct (Rle_dec x 1.7); [seg 1.6 1.7 0.9583 0.7135|].
    destruct (Rle_dec x 1.85); [seg 1.7 1.85 0.9746 0.7299|].
    destruct (Rle_dec x 1.9); [seg 1.85 1.9 0.9802 0.7595|].
    assert (0.7704 <= hup 1.9) by (apply hup_lower; [lra | unfold hpoly; lra | unfold hpoly; lra | lra]).
    pose proof (hup_le 1.9 x ltac:(lra) ltac:(lra)). pose proof (cdf_tail P NP x Hx). lra.
  - assert (U := hup_range x Hx). pose proof kappa_bounds as K. destruct (Rle_dec x 1).
    + pose proof (hup_le x 1 Hx ltac:(lra)). pose proof (cdf_mono P NP 0 x Hx). destruct NP as [HP _].
      pose proof hup_1.
      lra.
    + pose proof (cdf_mono P NP 1 x ltac:(lra)). pose proof (cdf_lo P NP 1 ltac:(lra)) as A. unfold taylor_lo in A. lra.
Qed.

Lemma C88_refuted_proof : exists barx sigx x : R, 0 < sigx /\ barx - 5 * sigx <= x <= barx + 5 * sigx /\
  forall Phi, normal_cdf Phi -> 17 / 100 < Phi ((x - barx) / sigx) - @gauss_cdf_hastings1 ROps barx sigx x.
Proof.
  exists 0, 1, 1. split; [lra|]. split; [lra|]. intros Phi NP. rewrite hastings_eval.
  replace ((1 - 0) / 1) with 1 by field. unfold hst.
  replace (Rltb 1 (-5)) with false by (symmetry; apply Rltb_false; lra).
  replace (Rltb 5 1) with false by (symmetry; apply Rltb_false; lra).
  replace (Rltb 1 0) with false by (symmetry; apply Rltb_false; lra).
  pose proof (cdf_lo Phi NP 1 ltac:(lra)) as A. unfold taylor_lo in A. pose proof kappa_bounds.
  pose proof hup_1. lra.
Qed.

Lemma C88_partial_proof : forall (Phi : R -> R) (barx sigx : R), normal_cdf Phi -> 0 < sigx ->
  @gauss_cdf_hastings1 ROps barx sigx barx = Phi 0 /\
  forall x, barx - 5 * sigx <= x <= barx + 5 * sigx ->
    Rabs (@gauss_cdf_hastings1 ROps barx sigx x - Phi ((x - barx) / sigx)) <= 1 / 4.
Proof.
  intros Phi barx sigx NP Hs. split.
  - destruct (C44_proof barx sigx Hs) as [_ [E _]]. rewrite E. symmetry. apply NP.
  - intros x Hx. rewrite hastings_eval. set (z := (x - barx) / sigx).
    assert (Hz : -5 <= z <= 5).
    { unfold z. split; [apply Rle_div_r|apply Rle_div_l]; lra. }
    unfold hst.
    replace (Rltb z (-5)) with false by (symmetry; apply Rltb_false; lra).
    replace (Rltb 5 z) with false by (symmetry; apply Rltb_false; lra).
    destruct (Rltb z 0) eqn:E.
    + apply Rltb_true in E. pose proof (close_pos Phi (- z) NP ltac:(lra)) as C.
      rewrite (normal_cdf_sym Phi NP z) in C. rewrite <- Rabs_Ropp.
      replace (- (1 - hup (- z) - Phi z)) with (hup (- z) - (1 - Phi z)) by lra. exact C.
    + apply Rltb_false in E. apply close_pos; auto; lra.
Qed.
