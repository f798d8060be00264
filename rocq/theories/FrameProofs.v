(** Proofs for C99: declustering depends on the catalogue only through magnitudes, time
    differences and distances. *)
From Coq Require Import Reals ZArith Bool Arith Lia Lra List.
From Verif Require Import Base BaseFacts Ops CatUtil Decluster DeclusterSpec RFacts FrameSpec.
Import ListNotations.
Local Open Scope R_scope.

Lemma cos_shift : forall x (n : Z), cos (x + 2 * IZR n * PI) = cos x.
Proof.
  intros x n. destruct (Z_le_dec 0 n) as [H|H].
  - rewrite <- (Z2Nat.id n H), <- INR_IZR_INZ. apply cos_period.
  - assert (E : (n = - Z.of_nat (Z.to_nat (- n)))%Z) by lia.
    rewrite E, opp_IZR, <- INR_IZR_INZ.
    rewrite <- (cos_period (x + 2 * - INR (Z.to_nat (- n)) * PI) (Z.to_nat (- n))). f_equal. ring.
Qed.

Lemma sin2_half : forall x, sin (x / 2) * sin (x / 2) = (1 - cos x) / 2.
Proof.
  intros x. replace (cos x) with (cos (2 * (x / 2))) by (f_equal; field). rewrite cos_2a_sin. field.
Qed.

Lemma haversine_shift : forall erad lon1 lat1 lon2 lat2 d (k1 k2 : Z),
  @haversine1 ROps false erad (lon1 + d + 360 * IZR k1) lat1 (lon2 + d + 360 * IZR k2) lat2
  = @haversine1 ROps false erad lon1 lat1 lon2 lat2.
Proof.
  intros. unfold haversine1, haversine_rad, sq. rops.
  rewrite !sin2_half.
  replace (PI / 180 * (lon1 + d + 360 * IZR k1) - PI / 180 * (lon2 + d + 360 * IZR k2))
    with ((PI / 180 * lon1 - PI / 180 * lon2) + 2 * IZR (k1 - k2) * PI) by (rewrite minus_IZR; field).
  rewrite cos_shift. reflexivity.
Qed.

Section Frame.
Variables (c d : R) (f : event ROps -> event ROps).
Hypothesis NF : new_frame c d f.

Lemma frame_dist : forall l e, @haversine_col ROps (map f l) (f e) = @haversine_col ROps l e.
Proof.
  intros l e. unfold haversine_col. rewrite map_map. apply map_ext. intros r. unfold haversine. cbn [map fst snd].
  destruct (NF r) as (_ & _ & _ & A1 & _ & k1 & A2). destruct (NF e) as (_ & _ & _ & B1 & _ & k2 & B2).
  rewrite A1, A2, B1, B2. apply haversine_shift.
Qed.

Lemma frame_year : forall l y, @decimal_year ROps l = Ok y ->
  @decimal_year ROps (map f l) = Ok (map (fun t => t + c) y).
Proof.
  unfold decimal_year. induction l as [|e l IH]; intros y H; cbn [map mapM] in *.
  - injection H. intros <-. reflexivity.
  - apply bind_ok in H. destruct H as (t & H1 & H). apply bind_ok in H. destruct H as (ys & H2 & H).
    injection H. intros <-. destruct (NF e) as (A1 & A2 & A3 & _).
    rewrite (IH _ H2). unfold decimal_year1 in *. rewrite A1, A2, A3.
    apply bind_ok in H1. destruct H1 as (mk & H1 & H3). rewrite H1. cbn [bind map].
    f_equal. f_equal. injection H3. intros <-. rops. ring.
Qed.

Lemma frame_year_err : forall l x, @decimal_year ROps l = Err x -> @decimal_year ROps (map f l) = Err x.
Proof.
  unfold decimal_year. induction l as [|e l IH]; intros x H; cbn [map mapM] in *; [discriminate|].
  destruct (NF e) as (A1 & A2 & A3 & _). unfold decimal_year1 in *. rewrite A1, A2, A3.
  destruct (py_index _ _) as [mk|x']; cbn [bind] in *; [|congruence].
  destruct (mapM _ l) as [ys|x'] eqn:E; cbn [bind] in *; [discriminate|].
  rewrite (IH x' eq_refl). cbn [bind]. congruence.
Qed.

(** The sorted row of a changed event. *)
Definition frow (r : srow ROps) : srow ROps := mkSrow (f (s_ev r)) (s_time r + c) (s_space r) (s_twin r).

Lemma frow_evs : forall l, map (@s_ev ROps) (map frow l) = map f (map s_ev l).
Proof. intros. rewrite !map_map. reflexivity. Qed.

Lemma frow_dt : forall l r, map (fun r' => @sub ROps (s_time r') (s_time (frow r))) (map frow l)
  = map (fun r' => @sub ROps (s_time r') (s_time r)) l.
Proof. intros. rewrite map_map. apply map_ext. intros. cbn [frow s_time]. rops. ring. Qed.

Lemma gk_step_frame : forall fs rows st i, @gk_step ROps fs (map frow rows) st i = @gk_step ROps fs rows st i.
Proof.
  intros fs rows st i. unfold gk_step. rewrite nth_error_map.
  destruct (nth_error rows i) as [ri|]; cbn [option_map]; auto.
  destruct (Nat.eqb _ 0); auto.
  assert (V : @gk_time_sel ROps fs (map frow rows) (frow ri) = @gk_time_sel ROps fs rows ri).
  { unfold gk_time_sel. rewrite map_map. apply map_ext. intros r. rops. cbn [frow s_time s_twin].
    replace (s_time r + c - (s_time ri + c)) with (s_time r - s_time ri) by ring. reflexivity. }
  cbv zeta. rewrite V, frow_dt, mask_get_map, frow_evs.
  change (s_ev (frow ri)) with (f (s_ev ri)). rewrite frame_dist. reflexivity.
Qed.
Lemma af_step_frame : forall tw rows st i, @af_step ROps tw (map frow rows) st i = @af_step ROps tw rows st i.
Proof.
  intros tw rows st i. unfold af_step. destruct st as [st|]; cbn [bind]; auto. rewrite nth_error_map.
  destruct (nth_error rows i) as [ri|]; cbn [option_map]; auto.
  destruct (Nat.eqb _ 0); auto. cbv zeta. rewrite mask_get_map, frow_dt, frow_evs.
  change (s_ev (frow ri)) with (f (s_ev ri)). rewrite frame_dist. reflexivity.
Qed.

Lemma frame_mw : forall l, map (@ev_mw ROps) (map f l) = map ev_mw l.
Proof. intros. rewrite map_map. apply map_ext. intros e. apply NF. Qed.

Lemma frame_rows : forall cat years wcalc id0,
  @sorted_rows ROps (map f cat) (map (fun t => t + c) years) wcalc id0
  = map frow (@sorted_rows ROps cat years wcalc id0).
Proof.
  intros cat years wcalc id0. unfold sorted_rows.
  assert (E : map2 (fun e y => let w := wcalc (ev_mw e) in mkSrow e y (fst w) (snd w)) (map f cat) (map (fun t => t + c) years)
    = map frow (map2 (fun (e : event ROps) y => let w := wcalc (ev_mw e) in mkSrow e y (fst w) (snd w)) cat years)).
  { revert years. induction cat as [|e cat IH]; intros [|y years]; cbn [map map2]; auto. f_equal; auto.
    unfold frow. cbn [s_ev s_time s_space s_twin]. destruct (NF e) as (_ & _ & _ & _ & A & _). rewrite A. reflexivity. }
  cbv zeta in *.
  match goal with |- flat_map ?g _ = _ => match g with context [nth_error ?x _] => rewrite (E : x = _) end end.
  induction id0 as [|k id0 IH]; cbn [flat_map map]; auto. rewrite map_app, <- IH, nth_error_map.
  destruct (nth_error _ k); reflexivity.
Qed.

Lemma frame_back : forall rows id1,
  flat_map (fun k => match nth_error (map (@s_ev ROps) (map frow rows)) k with Some r => [r] | None => [] end) id1
  = map f (flat_map (fun k => match nth_error (map s_ev rows) k with Some r => [r] | None => [] end) id1).
Proof.
  intros rows id1. rewrite frow_evs. induction id1 as [|k id1 IH]; cbn [flat_map map]; auto.
  rewrite map_app, <- IH, nth_error_map. destruct (nth_error (map s_ev rows) k); reflexivity.
Qed.

Lemma fold_ext : forall A B (g h : A -> B -> A) l a, (forall x y, g x y = h x y) -> fold_left g l a = fold_left h l a.
Proof. induction l; intros; simpl; auto. rewrite H. auto. Qed.

(** What a changed catalogue gives: the same cluster numbers and flags, the changed main shocks. *)
Definition framed (r : res (list nat * list (event ROps) * list Z)) : res (list nat * list (event ROps) * list Z) :=
  match r with Ok (vcl, vmain, flag) => Ok (vcl, map f vmain, flag) | Err x => Err x end.

Lemma gk_frame : forall argsort cat w fs,
  @gardner_knopoff_decluster ROps argsort (map f cat) w fs = framed (@gardner_knopoff_decluster ROps argsort cat w fs).
Proof.
  intros argsort [|e cat] w fs; auto. unfold gardner_knopoff_decluster.
  change (map f (e :: cat)) with (f e :: map f cat) at 1. cbv iota.
  change (f e :: map f cat) with (map f (e :: cat)). generalize (e :: cat). clear e cat. intros cat.
  rewrite frame_mw, map_length.
  destruct (@decimal_year ROps cat) as [y|x] eqn:E.
  2: { rewrite (frame_year_err _ _ E). reflexivity. }
  rewrite (frame_year _ _ E). cbn [bind]. destruct (window_calc w) as [wc|]; cbn [bind]; auto.
  cbv zeta. rewrite frame_rows, frame_back.
  rewrite (fold_ext _ _ (@gk_step ROps fs (map frow (@sorted_rows ROps cat y wc (rev (argsort (map ev_mw cat))))))
             (@gk_step ROps fs (@sorted_rows ROps cat y wc (rev (argsort (map ev_mw cat))))))
    by (intros; apply gk_step_frame).
  cbn [framed]. rewrite mask_get_map. reflexivity.
Qed.

Lemma af_frame : forall argsort cat w tw,
  @afteran_decluster ROps argsort (map f cat) w tw = framed (@afteran_decluster ROps argsort cat w tw).
Proof.
  intros argsort [|e cat] w tw; auto. unfold afteran_decluster.
  change (map f (e :: cat)) with (f e :: map f cat) at 1. cbv iota.
  change (f e :: map f cat) with (map f (e :: cat)). generalize (e :: cat). clear e cat. intros cat.
  rewrite frame_mw, map_length.
  destruct (@decimal_year ROps cat) as [y|x] eqn:E.
  2: { rewrite (frame_year_err _ _ E). reflexivity. }
  rewrite (frame_year _ _ E). cbv zeta. cbn [bind]. destruct (window_calc w) as [wc|]; cbn [bind]; auto.
  rewrite frame_rows, frame_back.
  match goal with |- context [fold_left (@af_step ROps ?t (map frow ?r))] =>
    rewrite (fold_ext _ _ (@af_step ROps t (map frow r)) (@af_step ROps t r)) by (intros; apply af_step_frame) end.
  destruct (fold_left _ _ _); cbn [bind framed]; auto. rewrite mask_get_map. reflexivity.
Qed.
End Frame.

Lemma C99_proof : forall c d f, new_frame c d f -> forall argsort cat w p,
  (forall vcl vmain flag, @gardner_knopoff_decluster ROps argsort cat w p = Ok (vcl, vmain, flag) ->
     @gardner_knopoff_decluster ROps argsort (map f cat) w p = Ok (vcl, map f vmain, flag)) /\
  (forall vcl vmain flag, @afteran_decluster ROps argsort cat w p = Ok (vcl, vmain, flag) ->
     @afteran_decluster ROps argsort (map f cat) w p = Ok (vcl, map f vmain, flag)).
Proof.
  intros c d f NF argsort cat w p. split; intros vcl vmain flag H.
  - rewrite (gk_frame c d f NF), H. reflexivity.
  - rewrite (af_frame c d f NF), H. reflexivity.
Qed.
