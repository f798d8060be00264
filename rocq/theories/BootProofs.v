(** Proof of C126: what cum_mo_uncertainty returns. *)
From Coq Require Import Arith Bool List Lia Reals Lra Permutation.
From Verif Require Import Base Ops BaseFacts RFacts MaxMag MomentProofs BootSpec.
Import ListNotations.
Local Open Scope R_scope.


Lemma map2_disturbed : forall mag sigma z, length sigma = length mag -> length z = length mag ->
  disturbed mag sigma z (map2 Rplus mag (map2 Rmult sigma z)).
Proof.
  unfold disturbed. induction mag as [|m mag IH]; intros [|s sigma] [|d z] L1 L2; try discriminate; simpl in *.
  - split; auto. intros i H. lia.
  - destruct (IH sigma z) as (A & B); try lia. split; [congruence|]. intros [|i] H; auto. apply B. lia.
Qed.

Lemma disturbed_fun : forall mag sigma z a b, disturbed mag sigma z a -> disturbed mag sigma z b -> a = b.
Proof.
  intros mag sigma z a b (A1 & A2) (B1 & B2). apply (nth_ext a b 0 0); [congruence|].
  intros i H. rewrite A2, B2 by congruence. reflexivity.
Qed.

Lemma mapM_Forall2 : forall A B (f : A -> res B) l r, mapM f l = Ok r <-> Forall2 (fun a b => f a = Ok b) l r.
Proof.
  intros A B f. induction l as [|a l IH]; intros r; split; intros H.
  - injection H as <-. constructor.
  - inversion H. reflexivity.
  - simpl in H. destruct (f a) eqn:E; simpl in H; [|discriminate]. destruct (mapM f l) eqn:M; simpl in H; [|discriminate].
    injection H as <-. constructor; auto. now apply IH.
  - inversion H as [|? b ? r' E T]; subst. simpl. rewrite E. simpl. apply IH in T. rewrite T. reflexivity.
Qed.

Lemma Forall2_impl_in : forall A B (P Q : A -> B -> Prop) l r, (forall a b, In a l -> P a b -> Q a b) -> Forall2 P l r -> Forall2 Q l r.
Proof.
  intros A B P Q l r H F. induction F; constructor.
  - apply H; simpl; auto.
  - apply IHF. intros. apply H; simpl; auto.
Qed.

Lemma ofnat_R : forall n, @ofnat ROps n = INR n.
Proof. intros n. rewrite INR_IZR_INZ. reflexivity. Qed.

Lemma mean_eq : forall l, @mean ROps l = Rsum l / INR (length l).
Proof. intros l. rewrite <- sumv_R, <- ofnat_R. reflexivity. Qed.

Lemma std_eq : forall l, @std1 ROps l = sqrt (Rsum (map (fun x => (x - @mean ROps l) * (x - @mean ROps l)) l) / (INR (length l) - 1)).
Proof. intros l. rewrite <- (sumv_R (map _ l)), <- ofnat_R. reflexivity. Qed.

Lemma mean_R : forall l, l <> [] -> mean_of l (@mean ROps l).
Proof.
  intros l N. unfold mean_of. rewrite mean_eq. change (total l) with (Rsum l).
  assert (P : 0 < INR (length l)) by (apply lt_0_INR; destruct l; [contradiction|simpl; lia]).
  unfold Rdiv. rewrite Rmult_assoc, Rinv_l, Rmult_1_r; [reflexivity|lra].
Qed.

Lemma std_R : forall l, (2 <= length l)%nat -> deviation_of l (@std1 ROps l).
Proof.
  intros l N. unfold deviation_of. rewrite std_eq.
  assert (P : 0 < INR (length l) - 1) by (assert (INR 2 <= INR (length l)) by (apply le_INR; lia); simpl in *; lra).
  split; [apply sqrt_pos|]. exists (@mean ROps l). split; [apply mean_R; destruct l; simpl in *; [lia|discriminate]|].
  rewrite minus_INR by lia. change total with Rsum. change (INR 1) with 1.
  set (q := Rsum (map _ l)).
  assert (0 <= q). { apply Rsum_nonneg. intros x I. apply in_map_iff in I. destruct I as (y & <- & _). apply Rle_0_sqr. }
  rewrite sqrt_sqrt. { unfold Rdiv. rewrite Rmult_assoc, Rinv_l, Rmult_1_r; [reflexivity|lra]. }
  apply Rmult_le_pos; auto. left. now apply Rinv_0_lt_compat.
Qed.

Lemma C126_proof : forall (year mag sigma : list R) (normals : list (list R)) m s,
  length sigma = length mag -> (forall z, In z normals -> length z = length mag) -> (2 <= length normals)%nat ->
  (@cum_mo_uncertainty ROps year mag sigma normals = Ok (m, s) <->
   exists es, Forall2 (fun z e => exists out, disturbed mag sigma z out /\ @cumulative_moment ROps year out = Ok e) normals es /\
     mean_of es m /\ deviation_of es s).
Proof.
  intros year mag sigma normals m s LS LZ LN. set (f := fun z : list R => @cumulative_moment ROps year (map2 Rplus mag (map2 Rmult sigma z))).
  change (@cum_mo_uncertainty ROps year mag sigma normals)
    with (bind (mapM f normals) (fun es => Ok (@mean ROps es, @std1 ROps es))).
  assert (FW : forall z e, In z normals -> f z = Ok e -> exists out, disturbed mag sigma z out /\ @cumulative_moment ROps year out = Ok e).
  { intros z e I E. eexists. split; [apply map2_disturbed; auto|exact E]. }
  assert (BW : forall z e, In z normals -> (exists out, disturbed mag sigma z out /\ @cumulative_moment ROps year out = Ok e) -> f z = Ok e).
  { intros z e I (out & D & E). rewrite (disturbed_fun _ _ _ _ _ D (map2_disturbed mag sigma z LS (LZ z I))) in E. exact E. }
  assert (UN : forall es : list R, (2 <= length es)%nat -> forall a b, mean_of es a -> mean_of es b -> a = b).
  { intros es L a b A B. unfold mean_of in *. apply Rmult_eq_reg_r with (INR (length es)); [congruence|]. apply not_0_INR. lia. }
  split.
  - intros H. destruct (mapM f normals) as [es|] eqn:E; simpl in H; [|discriminate]. injection H as <- <-.
    assert (L : @length R es = length normals) by exact (mapM_length _ _ _ _ _ E). apply mapM_Forall2 in E. exists es. split; [|split].
    + eapply Forall2_impl_in; [|exact E]. exact FW.
    + apply mean_R. destruct es; simpl in *; [lia|discriminate].
    + apply std_R. rewrite L. exact LN.
  - intros (es & H & M & (S0 & mu & M' & S)).
    assert (E : mapM f normals = Ok es). { apply mapM_Forall2. eapply Forall2_impl_in; [|exact H]. exact BW. }
    assert (L : @length R es = length normals) by exact (mapM_length _ _ _ _ _ E). rewrite E. cbn [bind].
    assert (L2 : (2 <= @length R es)%nat) by (rewrite L; exact LN).
    destruct (std_R es L2) as (S0' & mu2 & M2 & S2).
    assert (Q : mu2 = mu) by (apply (UN es); auto). subst mu2.
    assert (m = @mean ROps es) by (apply (UN es); auto; apply mean_R; destruct es; simpl in *; [lia|discriminate]).
    assert (s = @std1 ROps es). { apply Rsqr_inj; auto. unfold Rsqr. apply Rmult_eq_reg_r with (INR (@length R es - 1)); [exact (eq_trans S (eq_sym S2))|]. apply not_0_INR. lia. }
    subst. reflexivity.
Qed.
