(** Equality of sources on doubles (C150). *)
From Coq Require Import ZArith Bool String List Lia.
From Coq Require Import Floats.SpecFloat.
From Verif Require Import Base Ops BaseFacts FloatOps PyStr PyStrProofs SourceModel Nrml NrmlSpec Tectonic RegionEq RegionEqProofs SourceEq.
Import ListNotations.

Lemma otext_eqb_eq : forall a b, otext_eqb a b = true <-> a = b.
Proof.
  intros [a|] [b|]; cbn; split; try discriminate; auto.
  - intros H. apply text_eqb_eq in H. congruence.
  - intros E. injection E as ->. now apply text_eqb_eq.
Qed.

Section FL.
Variable lm : libm.
Local Instance AR : Ops := FOps lm.
Notation F := (@T AR).

Definition proper (l : list F) : Prop := forall x, In x l -> x <> (S754_zero true : F).

(** Equal doubles that are not -0 are the same. *)
Lemma same_double : forall x y : F, x <> (S754_zero true : F) -> y <> (S754_zero true : F) -> eqb x y = true -> x = y.
Proof.
  intros x y X Y H. destruct (sfeqb_cases x y H) as [E|(a & b & E1 & E2)]; [exact E|]. change F with spec_float in *. subst.
  destruct a; [now elim X|]. destruct b; [now elim Y|]. reflexivity.
Qed.

Lemma same_doubles : forall l m : list F, proper l -> proper m -> list_eqb eqb l m = true -> l = m.
Proof.
  induction l as [|a l IH]; intros [|b m] L M H; try discriminate H; auto. cbn [list_eqb] in H. apply andb_true_iff in H. destruct H as (P & Q).
  f_equal; [apply same_double; auto; [apply L; now left|apply M; now left]|].
  apply IH; auto; intros x I; [apply L; now right|apply M; now right].
Qed.

Lemma same_points : forall l m : list (F * F), proper (flat_points l) -> proper (flat_points m) -> list_eqb point_eqb l m = true -> l = m.
Proof.
  induction l as [|[a a'] l IH]; intros [|[b b'] m] L M H; try discriminate H; auto. cbn [list_eqb] in H. apply andb_true_iff in H. destruct H as (P & Q).
  unfold point_eqb in P. cbn [fst snd] in P. apply andb_true_iff in P. destruct P as (P1 & P2).
  assert (a = b) by (apply same_double; auto; [apply L; now left|apply M; now left]).
  assert (a' = b') by (apply same_double; auto; [apply L; right; now left|apply M; right; now left]).
  subst. f_equal. apply IH; auto; intros x I; [apply L; right; now right|apply M; right; now right].
Qed.

Ltac ands := repeat match goal with H : (_ && _)%bool = true |- _ => apply andb_true_iff in H; destruct H end.

Theorem eq_same : forall s o : area_source AR, source_eqb s o = true -> proper (source_numbers s) -> proper (source_numbers o) ->
  eq_part s = eq_part o.
Proof.
  intros [i1 i2 i3 i4 i5 [srs pos] [[ga gb gmn gmx gt] st dp rk] [dt dm dd] hy x1 x2 x3]
         [j1 j2 j3 j4 j5 [srs' pos'] [[ga' gb' gmn' gmx' gt'] st' dp' rk'] [dt' dm' dd'] hy' y1 y2 y3] H N N'.
  unfold source_eqb, boundary_eqb, rate_eqb, tgr_eqb, depth_eqb in H. cbn in H. unfold source_numbers in N, N'. cbn -[flat_points] in N, N'.
  ands. repeat match goal with H : otext_eqb _ _ = true |- _ => apply otext_eqb_eq in H end. subst.
  assert (P1 : proper (flat_points pos)) by (intros x I; apply N; apply in_or_app; now left).
  assert (P2 : proper (flat_points pos')) by (intros x I; apply N'; apply in_or_app; now left).
  assert (M1 : proper dm) by (intros x I; apply N; rewrite !in_app_iff; cbn; rewrite !in_app_iff; tauto).
  assert (M2 : proper dm') by (intros x I; apply N'; rewrite !in_app_iff; cbn; rewrite !in_app_iff; tauto).
  assert (D1 : proper dd) by (intros x I; apply N; rewrite !in_app_iff; cbn; rewrite !in_app_iff; tauto).
  assert (D2 : proper dd') by (intros x I; apply N'; rewrite !in_app_iff; cbn; rewrite !in_app_iff; tauto).
  assert (pos = pos') by (now apply same_points). assert (dm = dm') by (now apply same_doubles). assert (dd = dd') by (now apply same_doubles). subst.
  assert (S : forall x, x = ga \/ x = gb \/ x = gmn \/ x = gmx \/ x = st \/ x = dp \/ x = rk \/ x = hy -> x <> (S754_zero true : F)).
  { intros x I. apply N. rewrite !in_app_iff. cbn. rewrite !in_app_iff. cbn. intuition. }
  assert (S' : forall x, x = ga' \/ x = gb' \/ x = gmn' \/ x = gmx' \/ x = st' \/ x = dp' \/ x = rk' \/ x = hy' -> x <> (S754_zero true : F)).
  { intros x I. apply N'. rewrite !in_app_iff. cbn. rewrite !in_app_iff. cbn. intuition. }
  unfold eq_part. cbn.
  repeat match goal with H : SFeqb ?x ?y = true |- _ => apply same_double in H; [|apply S; tauto|apply S'; tauto] end.
  congruence.
Qed.

(** The writer looks at the compared attributes only. *)
Lemma elem_part : forall sf xo (s o : area_source AR), eq_part s = eq_part o -> area_source_elem sf xo s = area_source_elem sf xo o.
Proof.
  intros sf xo s o E. unfold eq_part in E. injection E as E1 E2 E3 E4 E5 E6 E7 E8 E9.
  unfold area_source_elem. rewrite E3, E4, E5, E6, E7, E8, E9. reflexivity.
Qed.

Lemma doc_part : forall sf xo (a b : list (area_source AR)) s o, eq_part s = eq_part o ->
  write_doc sf xo (a ++ s :: b) = write_doc sf xo (a ++ o :: b).
Proof.
  intros sf xo a b s o E.
  assert (M : mapM (area_source_elem sf xo) (a ++ s :: b) = mapM (area_source_elem sf xo) (a ++ o :: b)).
  { induction a as [|x a IH]; cbn [mapM app]; [rewrite (elem_part sf xo s o E); reflexivity|]. rewrite IH. reflexivity. }
  assert (E1 : as_nrml_id s = as_nrml_id o) by (unfold eq_part in E; congruence).
  assert (E2 : as_sm_id s = as_sm_id o) by (unfold eq_part in E; congruence).
  unfold write_doc. destruct a as [|x a]; cbn [app] in *; rewrite M; [rewrite E1, E2|]; reflexivity.
Qed.

Theorem C150_proof : forall (s o : area_source AR), source_eqb s o = true -> proper (source_numbers s) -> proper (source_numbers o) ->
  forall sf xo a b, write_doc sf xo (a ++ s :: b) = write_doc sf xo (a ++ o :: b).
Proof. intros. apply doc_part. now apply eq_same. Qed.

(** ** An equivalence *)
Lemma point_sym : forall p q : F * F, point_eqb p q = true -> point_eqb q p = true.
Proof.
  intros p q. unfold point_eqb. rewrite !andb_true_iff. intros (A & B). split; now apply sfeqb_sym.
Qed.
Lemma point_trans : forall p q r : F * F, point_eqb p q = true -> point_eqb q r = true -> point_eqb p r = true.
Proof.
  intros p q r. unfold point_eqb. rewrite !andb_true_iff. intros (A & B) (C & D). split; eapply sfeqb_trans; eauto.
Qed.

Theorem eq_sym_source : forall s o : area_source AR, source_eqb s o = true -> source_eqb o s = true.
Proof.
  intros [i1 i2 i3 i4 i5 [srs pos] [[ga gb gmn gmx gt] st dp rk] [dt dm dd] hy x1 x2 x3]
         [j1 j2 j3 j4 j5 [srs' pos'] [[ga' gb' gmn' gmx' gt'] st' dp' rk'] [dt' dm' dd'] hy' y1 y2 y3] H.
  unfold source_eqb, boundary_eqb, rate_eqb, tgr_eqb, depth_eqb in *. cbn in *.
  ands. repeat match goal with H : otext_eqb _ _ = true |- _ => apply otext_eqb_eq in H end. subst.
  repeat (apply andb_true_iff; split); try (now apply otext_eqb_eq); try (apply sfeqb_sym; assumption).
  - apply (list_eqb_sym _ _ point_sym). assumption.
  - apply (list_eqb_sym _ _ sfeqb_sym). assumption.
  - apply (list_eqb_sym _ _ sfeqb_sym). assumption.
Qed.

Theorem eq_trans_source : forall s o r : area_source AR, source_eqb s o = true -> source_eqb o r = true -> source_eqb s r = true.
Proof.
  intros [i1 i2 i3 i4 i5 [srs pos] [[ga gb gmn gmx gt] st dp rk] [dt dm dd] hy x1 x2 x3]
         [j1 j2 j3 j4 j5 [srs' pos'] [[ga' gb' gmn' gmx' gt'] st' dp' rk'] [dt' dm' dd'] hy' y1 y2 y3]
         [k1 k2 k3 k4 k5 [srs2 pos2] [[ga2 gb2 gmn2 gmx2 gt2] st2 dp2 rk2] [dt2 dm2 dd2] hy2 z1 z2 z3] H K.
  unfold source_eqb, boundary_eqb, rate_eqb, tgr_eqb, depth_eqb in *. cbn in *.
  ands. repeat match goal with H : otext_eqb _ _ = true |- _ => apply otext_eqb_eq in H end. subst.
  repeat (apply andb_true_iff; split); try (now apply otext_eqb_eq); try (eapply sfeqb_trans; eassumption).
  - eapply (list_eqb_trans _ _ point_trans); eassumption.
  - eapply (list_eqb_trans _ _ sfeqb_trans); eassumption.
  - eapply (list_eqb_trans _ _ sfeqb_trans); eassumption.
Qed.

(** Sources that agree in the compared attributes and hold no NaN are equal. *)
Theorem eq_of_part : forall s o : area_source AR, (forall x, In x (source_numbers s) -> x <> (S754_nan : F)) -> eq_part s = eq_part o ->
  source_eqb s o = true.
Proof.
  intros [i1 i2 i3 i4 i5 [srs pos] [[ga gb gmn gmx gt] st dp rk] [dt dm dd] hy x1 x2 x3]
         [j1 j2 j3 j4 j5 [srs' pos'] [[ga' gb' gmn' gmx' gt'] st' dp' rk'] [dt' dm' dd'] hy' y1 y2 y3] N E.
  unfold eq_part in E. cbn in E. injection E. intros. subst. clear E.
  unfold source_numbers in N. cbn -[flat_points] in N.
  assert (NN : forall x, (In x (flat_points pos') \/ x = ga' \/ x = gb' \/ x = gmn' \/ x = gmx' \/ x = st' \/ x = dp' \/ x = rk' \/
      In x dm' \/ In x dd' \/ x = hy') -> SFeqb x x = true).
  { intros x I. apply sfeqb_refl. apply N. rewrite !in_app_iff. cbn -[flat_points]. rewrite !in_app_iff. cbn -[flat_points]. intuition. }
  assert (NP : forall p, In p pos' -> point_eqb p p = true).
  { intros [u v] I. assert (J : In u (flat_points pos') /\ In v (flat_points pos')).
    { clear - I. induction pos' as [|[a b] l IH]; [destruct I|]. destruct I as [E|I].
      - injection E as -> ->. split; [now left|right; now left].
      - destruct (IH I). split; right; right; assumption. }
    destruct J. apply andb_true_iff. split; apply NN; tauto. }
  unfold source_eqb, boundary_eqb, rate_eqb, tgr_eqb, depth_eqb. cbn.
  repeat (apply andb_true_iff; split); try (now apply otext_eqb_eq); try (apply NN; tauto).
  - apply list_eqb_refl. exact NP.
  - apply list_eqb_refl. intros a I. apply NN. tauto.
  - apply list_eqb_refl. intros a I. apply NN. tauto.
Qed.

Lemma list_eqb_length : forall A (eq : A -> A -> bool) l m, list_eqb eq l m = true -> List.length l = List.length m.
Proof.
  intros A eq. induction l as [|a l IH]; intros [|b m] H; try discriminate H; auto. cbn [list_eqb] in H. apply andb_true_iff in H.
  cbn. f_equal. apply IH. tauto.
Qed.

Lemma flat_length : forall l : list (F * F), List.length (flat_points l) = (2 * List.length l)%nat.
Proof. induction l as [|p l IH]; auto. cbn [flat_points flat_map app List.length] in *. unfold flat_points in IH. rewrite IH. lia. Qed.

Theorem C150_differs_proof : forall s o : area_source AR, source_eqb s o = true ->
  as_nrml_id s = as_nrml_id o /\ as_sm_id s = as_sm_id o /\ source_texts s = source_texts o /\
  List.length (source_numbers s) = List.length (source_numbers o).
Proof.
  intros [i1 i2 i3 i4 i5 [srs pos] [[ga gb gmn gmx gt] st dp rk] [dt dm dd] hy x1 x2 x3]
         [j1 j2 j3 j4 j5 [srs' pos'] [[ga' gb' gmn' gmx' gt'] st' dp' rk'] [dt' dm' dd'] hy' y1 y2 y3] H.
  unfold source_eqb, boundary_eqb, rate_eqb, tgr_eqb, depth_eqb in H. cbn in H.
  ands. repeat match goal with H : otext_eqb _ _ = true |- _ => apply otext_eqb_eq in H end.
  repeat match goal with H : list_eqb _ _ _ = true |- _ => apply list_eqb_length in H end. subst.
  repeat split. unfold source_numbers. cbn -[flat_points]. rewrite !app_length. cbn -[flat_points]. rewrite !app_length, !flat_length. cbn. lia.
Qed.

End FL.
