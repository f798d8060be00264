(** Simple fault geometry (C55), tectonic regions (C56, C58), fault rates (C53, C54). *)
From Coq Require Import String ZArith Arith Bool List Lia Reals Lra.
From Verif Require Import Base Ops BaseFacts RFacts CatUtil GeoProofs SimpleFault Tectonic FaultCalc FaultSpec.
Import ListNotations.
Local Open Scope R_scope.

(** ** Simple fault *)

Lemma ensure_ok : forall b u, ensure b = Ok u <-> b = true.
Proof. intros [] []; simpl; split; intros; congruence. Qed.

Lemma bind_ok : forall A B (a : A) (k : A -> res B), bind (Ok a) k = k a.
Proof. reflexivity. Qed.

Lemma ensure_bind : forall A b (k : unit -> res A) r, bind (ensure b) k = Ok r <-> b = true /\ k tt = Ok r.
Proof. intros A [] k r; simpl; split; intros; intuition congruence. Qed.

Lemma check_point_ok : forall p : R * R, @check_point ROps p = Ok tt <->
  -180 <= fst p <= 180 /\ -90 <= snd p <= 90.
Proof.
  intros p. unfold check_point. rewrite ensure_bind, ensure_ok. rops.
  rewrite !andb_true_iff, !Rleb_true. intuition lra.
Qed.

Lemma mapM_unit : forall A (f : A -> res unit) l, (exists u, mapM f l = Ok u) <-> forall a, In a l -> f a = Ok tt.
Proof.
  induction l as [|a l IH]; simpl.
  - split; [intros _ ? []|eauto].
  - split.
    + intros [u H] x [<-|I].
      * destruct (f a) as [[]|] eqn:E; simpl in H; [auto|discriminate].
      * destruct (f a) eqn:E; simpl in H; [|discriminate]. destruct (mapM f l) eqn:E2; simpl in H; [|discriminate].
        apply IH; eauto.
    + intros H. rewrite (H a) by auto. simpl. destruct (proj2 IH) as [u E]; [auto|]. rewrite E. simpl. eauto.
Qed.

Lemma mapM_bind : forall A B (f : A -> res unit) l (k : res B) r,
  bind (mapM f l) (fun _ => k) = Ok r <-> (forall a, In a l -> f a = Ok tt) /\ k = Ok r.
Proof.
  intros A B f l k r. assert (M := mapM_unit _ f l). destruct (mapM f l) as [u|e]; cbn [bind].
  - split. intros H. split; auto. apply M. eauto. intros [_ H]; auto.
  - split. discriminate. intros [H _]. apply M in H. destruct H. discriminate.
Qed.

Lemma C55_construct_proof : forall (trace : list (R * R)) upp low dip f,
  @simple_fault_init ROps trace upp low dip = Ok f <->
  fault_ok trace upp low dip /\ f = @mkFault ROps trace upp low dip.
Proof.
  intros trace upp low dip f. unfold simple_fault_init, fault_ok. rewrite ensure_bind. rops.
  rewrite Nat.leb_le, mapM_bind, !ensure_bind. rops. rewrite andb_true_iff, !Rltb_true, !Rleb_true.
  split.
  - intros (H1 & P & H2 & H3 & H4 & H5 & H6). injection H6. intros <-. split; auto. split; auto. split.
    intros p I. apply check_point_ok. apply P. auto. lra.
  - intros ((H1 & P & H2 & H3) & ->). split; auto. split. intros p I. apply check_point_ok. auto. repeat split; lra.
Qed.

Lemma seg_length_gc : forall p q : R * R, @seg_length ROps p q = gc_dist p q.
Proof.
  intros [lon1 lat1] [lon2 lat2]. unfold gc_dist. cbn [fst snd].
  assert (H := C28_formula 6371 lon1 lat1 lon2 lat2). cbv zeta in *. rewrite <- H, hav_sym.
  unfold haversine1, haversine_rad, seg_length, radians, sq. cbn [fst snd]. rops.
  rewrite !(Rmult_comm (PI / 180)).
  replace (cos (lat1 * (PI / 180)) * cos (lat2 * (PI / 180))) with (cos (lat2 * (PI / 180)) * cos (lat1 * (PI / 180))) by ring.
  ring.
Qed.

Lemma trace_length_acc : forall (l : list (R * R)) acc, @trace_length ROps acc l = acc + path_length l.
Proof.
  induction l as [|p l IH]; intros acc; [simpl; lra|]. destruct l as [|q l]; [simpl; lra|].
  change (@trace_length ROps acc (p :: q :: l)) with (@trace_length ROps (acc + @seg_length ROps p q) (q :: l)).
  rewrite IH, seg_length_gc. cbn [path_length]. rops. lra.
Qed.

Lemma gc_dist_nonneg : forall p q, 0 <= gc_dist p q.
Proof. intros. unfold gc_dist. match goal with |- context [acos ?x] => assert (B := acos_bound x) end. nra. Qed.

Lemma gc_dist_sym : forall p q, gc_dist p q = gc_dist q p.
Proof.
  intros [a b] [c d]. unfold gc_dist. cbn [fst snd].
  assert (H := C28_formula 6371 a b c d). assert (H' := C28_formula 6371 c d a b). cbv zeta in *.
  rewrite <- H, <- H'. apply hav_sym.
Qed.

Lemma path_length_nonneg : forall l, 0 <= path_length l.
Proof.
  induction l as [|p l IH]; [simpl; lra|]. destruct l as [|q l]; [simpl; lra|].
  cbn [path_length]. assert (B := gc_dist_nonneg p q). cbn [path_length] in IH. lra.
Qed.

Lemma path_length_app : forall l m p, path_length (l ++ p :: m) = path_length (l ++ [p]) + path_length (p :: m).
Proof.
  induction l as [|a l IH]; intros m p.
  - simpl app. cbn [path_length]. lra.
  - destruct l as [|b l].
    + simpl app. cbn [path_length]. lra.
    + specialize (IH m p). simpl app in *. cbn [path_length] in *. lra.
Qed.

Lemma path_length_rev : forall l, path_length (rev l) = path_length l.
Proof.
  induction l as [|a l IH]; auto. destruct l as [|b l]; auto.
  replace (rev (a :: b :: l)) with (rev l ++ b :: [a]) by (simpl; rewrite <- app_assoc; auto).
  rewrite path_length_app. simpl rev in IH. rewrite IH. cbn [path_length]. rewrite (gc_dist_sym a b). lra.
Qed.

Lemma path_at_least_direct : forall l p q, path_length (p :: l ++ [q]) >= gc_dist p q.
Proof.
  induction l as [|a l IH]; intros p q.
  - simpl app. cbn [path_length]. lra.
  - simpl app. specialize (IH a q).
    replace (path_length (p :: a :: l ++ [q])) with (gc_dist p a + path_length (a :: l ++ [q])) by reflexivity.
    destruct p as [x1 y1], a as [x2 y2], q as [x3 y3].
    assert (H := hav_triangle 6371 x1 y1 x2 y2 x3 y3 ltac:(lra)).
    rewrite !C28_formula in H. unfold gc_dist in *. cbn [fst snd] in *. lra.
Qed.

Lemma sin_dip : forall dip, 0 < dip <= 90 -> 0 < sin (dip * (PI / 180)) <= 1.
Proof.
  intros dip H. assert (P := PI_RGT_0). split; [|apply SIN_bound].
  apply sin_gt_0; nra.
Qed.

Lemma C55_geometry_proof : forall (trace : list (R * R)) upp low dip f,
  @simple_fault_init ROps trace upp low dip = Ok f ->
  @get_length ROps f = path_length trace /\ 0 <= @get_length ROps f /\
  low - upp <= @get_width ROps f /\ 0 < @get_width ROps f /\
  @get_width ROps f * sin (dip * (PI / 180)) = low - upp /\
  @get_area ROps f = @get_length ROps f * @get_width ROps f /\ 0 <= @get_area ROps f.
Proof.
  intros trace upp low dip f H. apply C55_construct_proof in H. destruct H as [(H1 & H2 & H3 & H4) ->].
  assert (L : @get_length ROps (@mkFault ROps trace upp low dip) = path_length trace).
  { unfold get_length. rewrite trace_length_acc. rops. simpl sf_trace. lra. }
  assert (W : @get_width ROps (@mkFault ROps trace upp low dip) = (low - upp) / sin (dip * (PI / 180))) by reflexivity.
  assert (B := sin_dip dip H4). set (s := sin (dip * (PI / 180))) in *.
  assert (N := path_length_nonneg trace).
  assert (WP : 0 < (low - upp) / s) by (apply Rdiv_lt_0_compat; lra).
  assert (WS : (low - upp) / s * s = low - upp) by (field; lra).
  split; [exact L|]. split; [rewrite L; auto|]. rewrite W. split; [nra|]. split; auto. split; auto.
  split; [reflexivity|]. unfold get_area. rewrite L, W. rops. nra.
Qed.

Lemma C55_reverse_proof : forall (trace : list (R * R)) upp low dip f,
  @simple_fault_init ROps trace upp low dip = Ok f ->
  exists f', @simple_fault_init ROps (rev trace) upp low dip = Ok f' /\
    @get_length ROps f' = @get_length ROps f /\ @get_area ROps f' = @get_area ROps f.
Proof.
  intros trace upp low dip f H. assert (G := C55_geometry_proof _ _ _ _ _ H). destruct G as (L & _).
  apply C55_construct_proof in H. destruct H as [(H1 & H2 & H3) ->].
  exists (@mkFault ROps (rev trace) upp low dip).
  assert (H : @simple_fault_init ROps (rev trace) upp low dip = Ok (@mkFault ROps (rev trace) upp low dip)).
  { apply C55_construct_proof. split; auto. split; [rewrite rev_length; auto|]. split; auto.
    intros p I. apply H2. apply in_rev. auto. }
  assert (G := C55_geometry_proof _ _ _ _ _ H). destruct G as (L' & _).
  split; auto. split. { rewrite L', L. apply path_length_rev. }
  unfold get_area. rewrite L', L, path_length_rev. reflexivity.
Qed.

Lemma C55_additive_proof : forall (t1 t2 : list (R * R)) p upp low dip f f1 f2,
  @simple_fault_init ROps (t1 ++ [p]) upp low dip = Ok f1 ->
  @simple_fault_init ROps (p :: t2) upp low dip = Ok f2 ->
  @simple_fault_init ROps (t1 ++ p :: t2) upp low dip = Ok f ->
  @get_length ROps f = @get_length ROps f1 + @get_length ROps f2 /\
  @get_area ROps f = @get_area ROps f1 + @get_area ROps f2.
Proof.
  intros t1 t2 p upp low dip f f1 f2 H1 H2 H3.
  destruct (C55_geometry_proof _ _ _ _ _ H1) as (L1 & _).
  destruct (C55_geometry_proof _ _ _ _ _ H2) as (L2 & _).
  destruct (C55_geometry_proof _ _ _ _ _ H3) as (L3 & _).
  assert (E : @get_length ROps f = @get_length ROps f1 + @get_length ROps f2).
  { rewrite L1, L2, L3. apply path_length_app. }
  split; auto. unfold get_area. rewrite E.
  apply C55_construct_proof in H1, H2, H3. destruct H1 as [_ ->], H2 as [_ ->], H3 as [_ ->].
  unfold get_width. cbn [sf_low sf_upp sf_dip]. rops. ring.
Qed.

Lemma C80_proof : forall (trace : list (R * R)) p q upp low dip f,
  @simple_fault_init ROps (p :: trace ++ [q]) upp low dip = Ok f -> gc_dist p q <= @get_length ROps f.
Proof.
  intros trace p q upp low dip f H. destruct (C55_geometry_proof _ _ _ _ _ H) as (L & _). rewrite L.
  apply Rge_le, path_at_least_direct.
Qed.

(** ** Tectonic region *)

Lemma lookup_bind : forall A B (o : option A) (k : A -> res B) r,
  bind (lookup o) k = Ok r <-> exists a, o = Some a /\ k a = Ok r.
Proof.
  intros A B [a|] k r; simpl; split.
  - eauto.
  - intros (x & E & H). injection E. intros ->. auto.
  - discriminate.
  - intros (x & E & _). discriminate.
Qed.

Lemma check_len_bind : forall A B (d : @pdict ROps A) (k : unit -> res B) r,
  bind (@check_len ROps A d) k = Ok r <->
  exists v w, pd_values d = Some v /\ pd_weights d = Some w /\ length v = length w /\ k tt = Ok r.
Proof.
  intros A B d k r. unfold check_len. destruct (pd_values d) as [v|]; simpl.
  - destruct (pd_weights d) as [w|]; simpl.
    + match goal with |- context [Nat.eqb ?a ?b] => destruct (Nat.eqb_spec a b) as [E|N] end; simpl; split.
      * intros H. exists v, w. repeat (split; [solve [auto]|]). exact H.
      * intros (a & b & _ & _ & _ & H). auto.
      * discriminate.
      * intros (a & b & Ha & Hb & L & _). injection Ha. injection Hb. intros -> ->. contradiction.
    + split; [discriminate|]. intros (a & b & _ & Hb & _). discriminate.
  - split; [discriminate|]. intros (a & b & Ha & _). discriminate.
Qed.

Lemma check_msr_bind : forall B models (k : unit -> res B) r,
  bind (check_msr models) k = Ok r <-> (forall m, In m models -> m = "Peer" \/ m = "WC1994")%string /\ k tt = Ok r.
Proof.
  intros B models k r. unfold check_msr.
  assert (E : forallb (fun m => existsb (String.eqb m) SUPPORTED_MSR) models = true <->
    (forall m, In m models -> m = "Peer" \/ m = "WC1994")%string).
  { rewrite forallb_forall. split; intros H m I; specialize (H m I).
    - apply existsb_exists in H. destruct H as (x & [<-|[<-|[]]] & E); apply String.eqb_eq in E; auto.
    - apply existsb_exists. exists m. rewrite String.eqb_refl. simpl. intuition congruence. }
  destruct (forallb _ models); simpl.
  - split. intros H. split; auto. apply E. auto. intros [_ H]. auto.
  - split. discriminate. intros [H _]. apply E in H. discriminate.
Qed.

Lemma check_values_bind : forall B (s d : list R) (k : unit -> res B) r,
  bind (@check_values ROps s d) k = Ok r <->
  (forall v, In v s -> 0 < v) /\ (forall v, In v d -> 0 < v) /\ k tt = Ok r.
Proof.
  intros B s d k r. unfold check_values. rops.
  assert (E : forall l, forallb (fun v => Rltb 0 v) l = true <-> forall v, In v l -> 0 < v).
  { intros l. rewrite forallb_forall. split; intros H v I; apply Rltb_true; auto. }
  assert (Es := E s). assert (Ed := E d).
  destruct (forallb _ s); simpl.
  - destruct (forallb _ d); simpl.
    + split. intros H. split; [apply Es; auto|]. split; [apply Ed; auto|]. auto. intros (_ & _ & H). auto.
    + split. discriminate. intros (_ & H & _). apply Ed in H. discriminate.
  - split. discriminate. intros (H & _). apply Es in H. discriminate.
Qed.

Lemma reduce_add_R : forall l s, @reduce_add ROps l = Ok s <-> l <> [] /\ s = Rsum l.
Proof.
  intros [|x l] s; simpl.
  - split. discriminate. intros [H _]. contradiction.
  - assert (E := sumv_acc l x). rops. rewrite E. split.
    + intros H. injection H. intros <-. split; [discriminate|auto].
    + intros [_ ->]. auto.
Qed.

Lemma check_weights_bind : forall B (a b c : list R) (k : unit -> res B) r,
  bind (@check_weights ROps a b c) k = Ok r <->
  (a <> [] /\ Rsum a = 1) /\ (b <> [] /\ Rsum b = 1) /\ (c <> [] /\ Rsum c = 1) /\ k tt = Ok r.
Proof.
  intros B a b c k r. unfold check_weights.
  assert (RA := reduce_add_R a). assert (RB := reduce_add_R b). assert (RC := reduce_add_R c). rops.
  destruct (@reduce_add ROps a) as [s1|e1]; simpl.
  2:{ split. discriminate. intros ((N & _) & _). destruct (RA (Rsum a)) as [_ H]. discriminate H; auto. }
  destruct (@reduce_add ROps b) as [s2|e2]; simpl.
  2:{ split. discriminate. intros (_ & (N & _) & _). destruct (RB (Rsum b)) as [_ H]. discriminate H; auto. }
  destruct (@reduce_add ROps c) as [s3|e3]; simpl.
  2:{ split. discriminate. intros (_ & _ & (N & _) & _). destruct (RC (Rsum c)) as [_ H]. discriminate H; auto. }
  destruct (proj1 (RA s1) eq_refl) as [NA ->]. destruct (proj1 (RB s2) eq_refl) as [NB ->].
  destruct (proj1 (RC s3) eq_refl) as [NC ->]. clear RA RB RC.
  destruct (Reqb (Rsum a) 1) eqn:E1; [apply Reqb_true in E1|apply Reqb_false in E1]; simpl;
    [|split; [discriminate|intros ((_ & H) & _); contradiction]].
  destruct (Reqb (Rsum b) 1) eqn:E2; [apply Reqb_true in E2|apply Reqb_false in E2]; simpl;
    [|split; [discriminate|intros (_ & (_ & H) & _); contradiction]].
  destruct (Reqb (Rsum c) 1) eqn:E3; [apply Reqb_true in E3|apply Reqb_false in E3]; simpl;
    [|split; [discriminate|intros (_ & _ & (_ & H) & _); contradiction]].
  intuition auto.
Qed.

(** The lists of a parameter dictionary. *)
Definition has_lists {A} (d : @pdict ROps A) (v : list A) (w : list R) : Prop :=
  pd_values d = Some v /\ pd_weights d = Some w.

Lemma C56_proof : forall rid (msr : @pdict ROps string) (smod dlr : @pdict ROps R) r,
  @region_init ROps rid msr smod dlr = Ok r <->
  r = @mkRegion ROps rid msr smod dlr /\
  exists mv mw sv sw dv dw, has_lists msr mv mw /\ has_lists smod sv sw /\ has_lists dlr dv dw /\
    weighted mv mw /\ weighted sv sw /\ weighted dv dw /\
    (forall m, In m mv -> m = "Peer" \/ m = "WC1994")%string /\
    (forall v, In v sv -> 0 < v) /\ (forall v, In v dv -> 0 < v).
Proof.
  intros rid msr smod dlr r. unfold region_init, has_lists, weighted.
  split.
  - intros H. apply check_len_bind in H. destruct H as (mv & mw & M1 & M2 & M3 & H).
    apply check_len_bind in H. destruct H as (sv & sw & S1 & S2 & S3 & H).
    apply check_len_bind in H. destruct H as (dv & dw & D1 & D2 & D3 & H).
    rops. rewrite M1, S1, D1, M2, S2, D2 in H. cbn [lookup bind] in H.
    apply check_msr_bind in H. destruct H as (P1 & H).
    apply check_values_bind in H. destruct H as (P2 & P3 & H).
    apply check_weights_bind in H. destruct H as ((W1 & W2) & (W3 & W4) & (W5 & W6) & H).
    injection H. intros <-. split; auto. exists mv, mw, sv, sw, dv, dw.
    repeat (split; [solve [auto]|]); auto.
  - intros (-> & mv & mw & sv & sw & dv & dw & (M1 & M2) & (S1 & S2) & (D1 & D2) & (M3 & W1 & W2) & (S3 & W3 & W4) & (D3 & W5 & W6) & P1 & P2 & P3).
    apply check_len_bind. exists mv, mw. repeat (split; [solve [auto]|]).
    apply check_len_bind. exists sv, sw. repeat (split; [solve [auto]|]).
    apply check_len_bind. exists dv, dw. repeat (split; [solve [auto]|]).
    rops. rewrite M1, S1, D1, M2, S2, D2. cbn [lookup bind].
    apply check_msr_bind. split; auto. apply check_values_bind. split; auto. split; auto.
    apply check_weights_bind. auto.
Qed.

Lemma C56_accessors_proof : forall rid msr smod dlr r,
  @region_init ROps rid msr smod dlr = Ok r ->
  exists mu ratio, @shear_mod_first_value ROps r = Ok mu /\ 0 < mu /\
    @disp_length_ratio_first_value ROps r = Ok ratio /\ 0 < ratio /\
    (exists l, pd_values smod = Some (mu :: l)) /\ (exists l, pd_values dlr = Some (ratio :: l)).
Proof.
  intros rid msr smod dlr r H. apply C56_proof in H.
  destruct H as (-> & mv & mw & sv & sw & dv & dw & (M1 & M2) & (S1 & S2) & (D1 & D2) & (M3 & W1 & W2) & (S3 & W3 & W4) & (D3 & W5 & W6) & P1 & P2 & P3).
  destruct sv as [|mu sv]; [destruct sw; simpl in *; [contradiction|discriminate]|].
  destruct dv as [|ra dv]; [destruct dw; simpl in *; [contradiction|discriminate]|].
  exists mu, ra. unfold shear_mod_first_value, disp_length_ratio_first_value. cbn [rg_smod rg_dlr].
  rops. rewrite S1, D1. cbn [lookup bind].
  assert (X : forall (x : R) l, py_index (x :: l) 0 = Ok x) by (intros; reflexivity).
  split; [apply X|]. split; [apply P2; simpl; auto|]. split; [apply X|]. split; [apply P3; simpl; auto|]. eauto.
Qed.

(** ** Builder *)

(** The documented regions: name, identifier, shear modulus, displacement to length ratio. *)
Definition region_table : list (string * (string * R * R)) :=
  [("Active Shallow Crust", ("001", 30, 125 / 10000000));
   ("Subduction Interface", ("002", 49, 125 / 10000000));
   ("Subction Intraslab", ("003", 49, 125 / 10000000));
   ("Stable Continental", ("004", 29, 1 / 10000));
   ("Volcanic", ("005", 29, 125 / 10000000))]%string.

(** One value of weight one. *)
Definition one_value {A} (v : A) : @pdict ROps A := @mkDict ROps A (Some [v]) (Some [1]) false.

(** An argument supplied by the caller: not omitted and not an empty dictionary. *)
Definition supplied {A} (o : option (@pdict ROps A)) (d : @pdict ROps A) : Prop :=
  o = Some d /\ (pd_values d <> None \/ pd_weights d <> None \/ pd_extra d = true).

(** The dictionary used for an argument with a default. *)
Definition effective {A} (o : option (@pdict ROps A)) (dflt d : @pdict ROps A) : Prop :=
  supplied o d \/ (d = dflt /\ forall d', ~ supplied o d').

Lemma effective_or_default : forall A (o : option (@pdict ROps A)) dflt d,
  effective o dflt d <-> d = @or_default ROps A o dflt.
Proof.
  intros A o dflt d. unfold effective, supplied, or_default. destruct o as [x|].
  - unfold dict_truth. destruct x as [v w e]. cbn [pd_values pd_weights pd_extra].
    destruct v as [v|]; [|destruct w as [w|]; [|destruct e]].
    + split; [|intros ->; left; split; auto; left; discriminate].
      intros [[H _]|[-> H]]; [congruence|]. exfalso. eapply H. split. reflexivity. left. discriminate.
    + split; [|intros ->; left; split; auto; right; left; discriminate].
      intros [[H _]|[-> H]]; [congruence|]. exfalso. eapply H. split. reflexivity. right; left. discriminate.
    + split; [|intros ->; left; split; auto]. 
      intros [[H _]|[-> H]]; [congruence|]. exfalso. eapply H. split. reflexivity. right; right. auto.
    + split; [|intros ->; right; split; auto].
      * intros [[H K]|[-> H]]; auto. injection H. intros <-. cbn in K. intuition congruence.
      * intros d' [H K]. injection H. intros <-. cbn in K. intuition congruence.
  - split; [intros [[H _]|[-> _]]; congruence|]. intros ->. right. split; auto. intros d' [H _]. discriminate.
Qed.

Lemma single_one : forall A (v : A), @single ROps A v = one_value v.
Proof. reflexivity. Qed.

Lemma C58_known_proof : forall name rid mu ratio msr smod dlr msr' smod' dlr',
  In (name, (rid, mu, ratio)) region_table ->
  effective msr (one_value "WC1994"%string) msr' -> effective smod (one_value mu) smod' ->
  effective dlr (one_value ratio) dlr' ->
  @create_tect_region_by_name ROps name msr smod dlr
  = match @region_init ROps rid msr' smod' dlr' with Err KeyError => Err ValueError | r => r end.
Proof.
  intros name rid mu ratio msr smod dlr msr' smod' dlr' I E1 E2 E3.
  apply effective_or_default in E1, E2, E3. subst.
  unfold region_table in I. simpl in I.
  repeat (destruct I as [I|I]; [injection I; intros; subst; reflexivity|]). destruct I.
Qed.

Lemma C58_unknown_proof : forall (AR : Ops) name msr smod dlr, ~ In name (map fst region_table) ->
  create_tect_region_by_name name msr smod dlr = Err ValueError.
Proof.
  intros AR name msr smod dlr N. unfold create_tect_region_by_name, region_class.
  unfold region_table in N. simpl in N.
  repeat match goal with |- context [String.eqb ?a ?b] =>
    destruct (String.eqb_spec a b); [exfalso; subst; tauto|] end. reflexivity.
Qed.

Lemma C58_default_proof : forall name rid mu ratio,
  In (name, (rid, mu, ratio)) region_table ->
  exists r, @create_tect_region_by_name ROps name None None None = Ok r /\
    rg_id r = rid /\ rg_msr r = one_value "WC1994"%string /\
    @shear_mod_first_value ROps r = Ok mu /\ @disp_length_ratio_first_value ROps r = Ok ratio.
Proof.
  intros name rid mu ratio I.
  assert (P : 0 < mu /\ 0 < ratio).
  { unfold region_table in I. simpl in I. repeat (destruct I as [I|I]; [injection I; intros; subst; lra|]). destruct I. }
  exists (@mkRegion ROps rid (one_value "WC1994"%string) (one_value mu) (one_value ratio)).
  split; [|repeat split; reflexivity].
  etransitivity.
  { apply (C58_known_proof name rid mu ratio None None None (one_value "WC1994"%string) (one_value mu) (one_value ratio)); auto;
    right; split; auto; intros d' [H _]; discriminate. }
  assert (E : @region_init ROps rid (one_value "WC1994"%string) (one_value mu) (one_value ratio)
    = Ok (@mkRegion ROps rid (one_value "WC1994"%string) (one_value mu) (one_value ratio))).
  { apply C56_proof. split; auto. exists ["WC1994"%string], [1], [mu], [1], [ratio], [1].
    unfold has_lists, weighted. cbn [Rsum length].
    repeat match goal with |- _ /\ _ => split end; auto; try discriminate; try lra.
    - intros m [<-|[]]; auto.
    - intros v [<-|[]]; lra.
    - intros v [<-|[]]; lra. }
  rewrite E. reflexivity.
Qed.

(** ** Rates *)

Lemma rate_diffs_length : forall c : list R, length (@rate_diffs ROps c) = (length c - 2)%nat.
Proof.
  induction c as [|x c IH]; auto. destruct c as [|y [|z c]]; auto.
  change (@rate_diffs ROps (x :: y :: z :: c)) with ((x - y) :: @rate_diffs ROps (y :: z :: c)).
  simpl length in *. rewrite IH. lia.
Qed.

Lemma rate_diffs_nth : forall (c : list R) k r, nth_error (@rate_diffs ROps c) k = Some r ->
  exists x y, nth_error c k = Some x /\ nth_error c (k + 1) = Some y /\ r = x - y.
Proof.
  induction c as [|x c IH]; intros k r H; [destruct k; discriminate|].
  destruct c as [|y [|z c]]; [destruct k; discriminate|destruct k; discriminate|].
  change (@rate_diffs ROps (x :: y :: z :: c)) with ((x - y) :: @rate_diffs ROps (y :: z :: c)) in H.
  destruct k; simpl in H.
  - injection H. intros <-. exists x, y. auto.
  - destruct (IH k r H) as (a & b & H1 & H2 & H3). exists a, b. auto.
Qed.

Lemma rate_diffs_sum : forall (c : list R) x y, nth_error c 0 = Some x -> nth_error c (length c - 2) = Some y ->
  (2 <= length c)%nat -> Rsum (@rate_diffs ROps c) = x - y.
Proof.
  induction c as [|a c IH]; intros x y H1 H2 L; [simpl in L; lia|].
  destruct c as [|b [|d c]]; [simpl in L; lia| |].
  - simpl in *. injection H1. injection H2. intros <- <-. lra.
  - change (@rate_diffs ROps (a :: b :: d :: c)) with ((a - b) :: @rate_diffs ROps (b :: d :: c)). cbn [Rsum].
    rewrite (IH b y); [simpl in H1; injection H1; intros <-; lra|reflexivity| |simpl; lia].
    simpl length in *. replace (S (S (S (length c))) - 2)%nat with (S (length c)) in H2 by lia.
    replace (S (S (length c)) - 2)%nat with (length c) by lia. auto.
Qed.

Lemma exp_power : forall x y, exp (x * ln 10 * y) = Rpower 10 (x * y).
Proof. intros. unfold Rpower. f_equal. ring. Qed.

Lemma cumulative_value_al : forall b d slip beta mmax m, b <> 0 ->
  @cumulative_value ROps slip mmax m (b * ln 10) (d * ln 10) beta = anderson_luco b d slip beta mmax m.
Proof.
  intros b d slip beta mmax m Hb. unfold cumulative_value, anderson_luco. rops.
  assert (E1 := exp_power b (mmax - m)). assert (E2 := exp_power (- (d / 2)) mmax).
  replace (- (d * ln 10 / 2) * mmax) with (- (d / 2) * ln 10 * mmax) by field.
  rewrite E1, E2.
  assert (L : ln 10 <> 0). { assert (X := ln_10_lower). lra. }
  replace ((d * ln 10 - b * ln 10) / (b * ln 10)) with ((d - b) / b) by (field; auto). reflexivity.
Qed.

Lemma get_mfd_ok : forall (wc : R -> option R -> R) (slip asc : R) tr sf (b min w : R) (mm rake : option R) (c d mu ratio : R),
  0 < slip -> 0 <= asc < 1 ->
  @shear_mod_first_value ROps tr = Ok mu -> @disp_length_ratio_first_value ROps tr = Ok ratio ->
  let mmax := match mm with Some m => m | None => wc (@get_area ROps sf) rake end in
  @get_mfd ROps wc slip asc tr sf b min w mm rake (c, d)
  = Ok (@rate_diffs ROps (map (fun m => @cumulative_value ROps (slip * (1 - asc)) mmax m (b * ln 10) (d * ln 10)
          (moment_slip ratio mu (@get_width ROps sf) c)) (@mfd_mags ROps min mmax w))).
Proof.
  intros wc slip asc tr sf b min w mm rake c d mu ratio HS HA HM HR mmax.
  unfold get_mfd. rops.
  replace (Rltb 0 slip) with true by (symmetry; apply Rltb_true; auto).
  replace (Rleb 0 asc) with true by (symmetry; apply Rleb_true; lra).
  replace (Rltb asc 1) with true by (symmetry; apply Rltb_true; lra). cbn [negb andb].
  fold mmax. rewrite HR, HM. cbn [bind fst snd]. reflexivity.
Qed.

Lemma mfd_mags_len : forall min mmax w k, 0 < w ->
  (k < length (@mfd_mags ROps min mmax w) - 2)%nat <-> min + INR k * w < mmax.
Proof.
  intros min mmax w k Hw. unfold mfd_mags, lit. rewrite arange_length. rops.
  assert (X := arange_len_lt (min - w / 2) (mmax + 15 / 10 * w) w (k + 2) Hw).
  rewrite plus_INR in X. simpl (INR 2) in X. rops.
  match type of X with (_ < ?n)%nat <-> _ => set (len := n) in * end.
  split; intros H.
  - assert (Y : (k + 2 < len)%nat) by lia. apply X in Y. lra.
  - assert (Y : min - w / 2 + (INR k + (1 + 1)) * w < mmax + 15 / 10 * w) by lra. apply X in Y. lia.
Qed.

Lemma C53_proof : forall (wc : R -> option R -> R) (slip asc : R) tr sf (b min w : R) (mm rake : option R) (c d mu ratio : R),
  0 < slip -> 0 <= asc < 1 -> 0 < w -> b <> 0 ->
  @shear_mod_first_value ROps tr = Ok mu -> @disp_length_ratio_first_value ROps tr = Ok ratio ->
  let mmax := match mm with Some m => m | None => wc (@get_area ROps sf) rake end in
  let N := anderson_luco b d (slip * (1 - asc)) (moment_slip ratio mu (@get_width ROps sf) c) mmax in
  exists rates, @get_mfd ROps wc slip asc tr sf b min w mm rake (c, d) = Ok rates /\
    (forall k, (k < length rates)%nat <-> min + INR k * w < mmax) /\
    (forall k r, nth_error rates k = Some r ->
       r = N (min + (INR k - 1 / 2) * w) - N (min + (INR k + 1 / 2) * w)) /\
    Rsum rates = N (min - 1 / 2 * w) - N (min + (INR (length rates) - 1 / 2) * w).
Proof.
  intros wc slip asc tr sf b min w mm rake c d mu ratio HS HA HW HB HM HR mmax N.
  eexists. split. { apply (get_mfd_ok wc slip asc tr sf b min w mm rake c d mu ratio); auto. }
  fold mmax. assert (ME : exists mags : list R, mags = @mfd_mags ROps min mmax w) by eauto.
  destruct ME as [mags ME]. rops. rewrite <- ME.
  match goal with |- context [@rate_diffs ROps ?l] =>
    assert (CVE : exists cv : list R, cv = l) by eauto; destruct CVE as [cv CVE]; rewrite <- CVE end.
  assert (LC : length cv = length mags) by (rewrite CVE; apply map_length).
  assert (NC : forall k x, nth_error cv k = Some x -> x = N (min + (INR k - 1 / 2) * w)).
  { intros k x H. rewrite CVE, nth_error_map in H. destruct (nth_error mags k) as [m|] eqn:E; [|discriminate].
    rewrite ME in E. unfold mfd_mags in E. apply arange_nth_inv in E. destruct E as [E _]. cbn [option_map] in H.
    assert (SI : forall a b : R, Some a = Some b -> a = b) by congruence. apply SI in H. rewrite <- H.
    rewrite cumulative_value_al by auto. unfold N. f_equal. rewrite E. rops. lra. }
  split; [|split].
  - intros k. rewrite rate_diffs_length, LC, ME. apply mfd_mags_len; auto.
  - intros k r H. apply rate_diffs_nth in H. destruct H as (x & y & H1 & H2 & ->).
    apply NC in H1, H2. rewrite H1, H2, plus_INR. simpl (INR 1). f_equal. f_equal. lra.
  - rewrite rate_diffs_length. destruct (le_lt_dec 2 (length cv)) as [L|L].
    + destruct (nth_error cv 0) as [x|] eqn:E1; [|apply nth_error_None in E1; lia].
      destruct (nth_error cv (length cv - 2)) as [y|] eqn:E2; [|apply nth_error_None in E2; lia].
      rewrite (rate_diffs_sum cv x y E1 E2 L). apply NC in E1, E2. rewrite E1, E2. f_equal. simpl (INR 0). f_equal. lra.
    + replace (length cv - 2)%nat with 0%nat by lia. simpl (INR 0).
      destruct cv as [|x [|y cv']]; simpl in L; try lia; simpl; unfold Rminus;
        replace (min + (0 + - (1 / 2)) * w) with (min + - (1 / 2 * w)) by lra; lra.
Qed.

Lemma moment_slip_pos : forall ratio mu width c, 0 < ratio -> 0 < mu -> 0 < width -> 0 < moment_slip ratio mu width c.
Proof.
  intros. unfold moment_slip. apply sqrt_lt_R0. apply Rdiv_lt_0_compat.
  - apply Rmult_lt_0_compat; auto. apply Rpower_pos.
  - nra.
Qed.

Lemma C81_proof : forall (wc : R -> option R -> R) (slip asc b min w : R) (mm rake : option R) (c d : R) rid msr smod dlr trace upp low dip tr sf
  (rates : list R) r,
  0 < slip -> 0 <= asc < 1 -> 0 < w -> b <> 0 ->
  @region_init ROps rid msr smod dlr = Ok tr ->
  @simple_fault_init ROps trace upp low dip = Ok sf ->
  @get_mfd ROps wc slip asc tr sf b min w mm rake (c, d) = Ok rates -> In r rates ->
  (0 < r <-> b < d) /\ (r = 0 <-> b = d) /\ (r < 0 <-> d < b).
Proof.
  intros wc slip asc b min w mm rake c d rid msr smod dlr trace upp low dip tr sf rates r HS HA HW HB HT HF HG HI.
  destruct (C56_accessors_proof _ _ _ _ _ HT) as (mu & ratio & M1 & M2 & R1 & R2 & _).
  destruct (C55_geometry_proof _ _ _ _ _ HF) as (_ & _ & _ & WP & _).
  destruct (C53_proof wc slip asc tr sf b min w mm rake c d mu ratio HS HA HW HB M1 R1) as (rates' & E & _ & V & _).
  rewrite HG in E. injection E. intros <-. clear E. apply In_nth_error in HI. destruct HI as [k Hk].
  apply V in Hk. clear V. set (mmax := match mm with Some m => m | None => _ end) in *.
  assert (BP := moment_slip_pos ratio mu (@get_width ROps sf) c R2 M2 WP).
  set (beta := moment_slip ratio mu (@get_width ROps sf) c) in *.
  unfold anderson_luco in Hk.
  set (m := min + (INR k - 1 / 2) * w) in *.
  replace (min + (INR k + 1 / 2) * w) with (m + w) in Hk by (unfold m; lra).
  set (s := slip * (1 - asc) / 10 / beta) in *.
  assert (SP : 0 < s). { unfold s. apply Rdiv_lt_0_compat; auto. nra. }
  set (E := Rpower 10 (- (d / 2) * mmax)) in *. assert (EP : 0 < E) by apply Rpower_pos.
  set (P := Rpower 10 (b * (mmax - m))) in *. assert (PP : 0 < P) by apply Rpower_pos.
  assert (Q : Rpower 10 (b * (mmax - (m + w))) = P * Rpower 10 (- (b * w))).
  { unfold P. rewrite <- Rpower_plus. f_equal. ring. }
  rewrite Q in Hk. set (q := Rpower 10 (- (b * w))) in *.
  assert (G : 0 < (1 - q) / b).
  { destruct (Rtotal_order b 0) as [L|[L|L]]; [|contradiction|].
    - assert (1 < q). { unfold q. rewrite <- (Rpower_O 10) at 1 by lra. apply Rpower_lt; nra. }
      replace ((1 - q) / b) with ((q - 1) / (- b)) by (field; auto). apply Rdiv_lt_0_compat; lra.
    - assert (q < 1). { unfold q. rewrite <- (Rpower_O 10) by lra. apply Rpower_lt; nra. }
      apply Rdiv_lt_0_compat; lra. }
  assert (EQ : r = (d - b) * (s * E * P * ((1 - q) / b))) by (rewrite Hk; field; auto).
  assert (K : 0 < s * E * P * ((1 - q) / b)) by exact (Rmult_lt_0_compat _ _ (Rmult_lt_0_compat _ _ (Rmult_lt_0_compat _ _ SP EP) PP) G).
  set (K0 := s * E * P * ((1 - q) / b)) in *. rewrite EQ.
  split; [|split]; split; intros H; nra.
Qed.

Lemma C53_positive_proof : forall (wc : R -> option R -> R) (slip asc b min w : R) (mm rake : option R) (c d : R) rid msr smod dlr trace upp low dip tr sf
  (rates : list R),
  0 < slip -> 0 <= asc < 1 -> 0 < w -> 0 < b < d ->
  @region_init ROps rid msr smod dlr = Ok tr ->
  @simple_fault_init ROps trace upp low dip = Ok sf ->
  @get_mfd ROps wc slip asc tr sf b min w mm rake (c, d) = Ok rates -> forall r, In r rates -> 0 < r.
Proof.
  intros wc slip asc b min w mm rake c d rid msr smod dlr trace upp low dip tr sf rates HS HA HW HB HT HF HG r HI.
  destruct (C81_proof wc slip asc b min w mm rake c d rid msr smod dlr trace upp low dip tr sf rates r) as [X _]; auto; [lra|].
  apply X. lra.
Qed.

Lemma rate_diffs_scal : forall (f g : R -> R) k l, (forall m, f m = k * g m) ->
  @rate_diffs ROps (map f l) = map (fun r => k * r) (@rate_diffs ROps (map g l)).
Proof.
  intros f g k l H. induction l as [|m l IH]; [reflexivity|]. destruct l as [|m2 [|m3 l]]; [reflexivity|reflexivity|].
  change (@rate_diffs ROps (map f (m :: m2 :: m3 :: l))) with ((f m - f m2) :: @rate_diffs ROps (map f (m2 :: m3 :: l))).
  change (@rate_diffs ROps (map g (m :: m2 :: m3 :: l))) with ((g m - g m2) :: @rate_diffs ROps (map g (m2 :: m3 :: l))).
  rewrite IH. cbn [map]. f_equal. rewrite !H. ring.
Qed.

Lemma C53_slip_proof : forall (wc : R -> option R -> R) (slip asc slip' asc' : R) tr sf (b min w : R) (mm rake : option R) (c d mu ratio : R)
  (rates : list R),
  0 < slip -> 0 <= asc < 1 -> 0 < slip' -> 0 <= asc' < 1 -> b <> 0 ->
  @shear_mod_first_value ROps tr = Ok mu -> @disp_length_ratio_first_value ROps tr = Ok ratio ->
  @get_mfd ROps wc slip asc tr sf b min w mm rake (c, d) = Ok rates ->
  @get_mfd ROps wc slip' asc' tr sf b min w mm rake (c, d)
  = Ok (map (fun r => slip' * (1 - asc') / (slip * (1 - asc)) * r) rates).
Proof.
  intros wc slip asc slip' asc' tr sf b min w mm rake c d mu ratio rates HS HA HS' HA' HB HM HR H.
  rewrite (get_mfd_ok wc slip asc tr sf b min w mm rake c d mu ratio) in H by auto.
  rewrite (get_mfd_ok wc slip' asc' tr sf b min w mm rake c d mu ratio) by auto.
  injection H. intros <-. f_equal.
  set (k := slip' * (1 - asc') / (slip * (1 - asc))).
  generalize (@mfd_mags ROps min (match mm with Some m => m | None => wc (@get_area ROps sf) rake end) w).
  intros mags. set (mmax := match mm with Some m => m | None => _ end).
  set (beta := moment_slip ratio mu (@get_width ROps sf) c).
  assert (CV : forall m, @cumulative_value ROps (slip' * (1 - asc')) mmax m (b * ln 10) (d * ln 10) beta
    = k * @cumulative_value ROps (slip * (1 - asc)) mmax m (b * ln 10) (d * ln 10) beta).
  { intros m. rewrite !cumulative_value_al by auto. unfold anderson_luco, k, Rdiv.
    assert (NZ : slip * (1 - asc) <> 0) by nra.
    set (u := slip' * (1 - asc')). set (v := slip * (1 - asc)) in *.
    clearbody u v beta. generalize dependent beta. intros be. 
    assert (X : forall z : R, u * z = u * / v * (v * z)).
    { intros z. rewrite <- Rmult_assoc, (Rmult_assoc u (/ v) v), Rinv_l by auto. lra. }
    rewrite !(Rmult_assoc u), (X (/ 10 * / be)). rops. lra. }
  apply rate_diffs_scal. intros m. apply CV.
Qed.

Lemma C54_partial_proof : forall (wc : R -> option R -> R) (slip asc b min w : R) (mm rake : option R) (c d : R) rid msr smod dlr trace upp low dip tr sf
  (rates : list R),
  0 < slip -> 0 <= asc < 1 -> 0 < w -> 0 < b <= d ->
  @region_init ROps rid msr smod dlr = Ok tr ->
  @simple_fault_init ROps trace upp low dip = Ok sf ->
  @get_mfd ROps wc slip asc tr sf b min w mm rake (c, d) = Ok rates -> forall r, In r rates -> 0 <= r.
Proof.
  intros wc slip asc b min w mm rake c d rid msr smod dlr trace upp low dip tr sf rates HS HA HW HB HT HF HG r HI.
  destruct (C81_proof wc slip asc b min w mm rake c d rid msr smod dlr trace upp low dip tr sf rates r) as (X & Y & Z); auto; [lra|].
  destruct (Rtotal_order b d) as [L|[L|L]]; [left; apply X; auto|right; symmetry; apply Y; auto|lra].
Qed.

Lemma C54_refuted_proof : exists tr sf b rates,
  @create_tect_region_by_name ROps "Active Shallow Crust" None None None = Ok tr /\
  @simple_fault_init ROps [(0, 0); (1, 0)] 0 10 45 = Ok sf /\ 0 < b /\
  (forall wc rake, @get_mfd ROps wc 1 0 tr sf b 5 1 (Some 7) rake (@MOMENT_SCALING ROps) = Ok rates) /\
  rates <> [] /\ forall r, In r rates -> r < 0.
Proof.
  destruct (C58_default_proof "Active Shallow Crust" "001" 30 (125 / 10000000)) as (tr & E & _ & _ & M & R).
  { simpl. auto. }
  assert (F : @simple_fault_init ROps [(0, 0); (1, 0)] 0 10 45 = Ok (@mkFault ROps [(0, 0); (1, 0)] 0 10 45)).
  { apply C55_construct_proof. split; auto. split; [simpl; lia|]. split; [|lra].
    intros p [<-|[<-|[]]]; cbn [fst snd]; lra. }
  assert (TR : exists msr smod dlr, @region_init ROps "001" msr smod dlr = Ok tr).
  { unfold create_tect_region_by_name in E. cbn [region_class String.eqb Ascii.eqb Bool.eqb] in E.
    destruct (@region_init ROps "001" (@or_default ROps _ None DEFAULT_MSR) (@or_default ROps _ None (single (@ofZ ROps 30)))
      (@or_default ROps _ None DEFAULT_DLR)) as [r|[]] eqn:X; try discriminate.
    injection E. intros <-. eauto. }
  destruct TR as (msr & smod & dlr & TR).
  exists tr, (@mkFault ROps [(0, 0); (1, 0)] 0 10 45), 2.
  assert (SC : @MOMENT_SCALING ROps = (1605 / 100, 15 / 10)) by reflexivity.
  destruct (C53_proof (fun _ _ => 0) 1 0 tr (@mkFault ROps [(0, 0); (1, 0)] 0 10 45) 2 5 1 (Some 7) None (1605/100) (15/10) 30 (125/10000000))
    as (rates & G & L & _); auto; try lra.
  exists rates. split; auto. split; auto. split; [lra|]. split.
  { intros wc rake. rewrite SC. 
    rewrite (get_mfd_ok wc 1 0 tr (@mkFault ROps [(0, 0); (1, 0)] 0 10 45) 2 5 1 (Some 7) rake (1605/100) (15/10) 30 (125/10000000)) by (auto; lra).
    rewrite (get_mfd_ok (fun _ _ => 0) 1 0 tr (@mkFault ROps [(0, 0); (1, 0)] 0 10 45) 2 5 1 (Some 7) None (1605/100) (15/10) 30 (125/10000000)) in G by (auto; lra).
    exact G. }
  split.
  { intros ->. specialize (L 0%nat). simpl in L. destruct L as [_ L]. specialize (L ltac:(lra)). lia. }
  intros r I.
  destruct (C81_proof (fun _ _ => 0) 1 0 2 5 1 (Some 7) None (1605/100) (15/10) "001" msr smod dlr [(0, 0); (1, 0)] 0 10 45 tr (@mkFault ROps [(0, 0); (1, 0)] 0 10 45) rates r) as (_ & _ & X);
    try exact F; auto; try lra.
Qed.
