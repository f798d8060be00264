(** Equality of tectonic regions on doubles (C125). *)
From Coq Require Import ZArith Bool String List Lia.
From Coq Require Import Floats.SpecFloat.
From Verif Require Import Base Ops BaseFacts FloatOps SimpleFault Tectonic FaultCalc RegionEq.
Import ListNotations.
Local Open Scope res_scope.

(** ** == of doubles *)
Lemma sfeqb_refl : forall x, x <> S754_nan -> SFeqb x x = true.
Proof.
  intros [s|s| |s m e] N; unfold SFeqb; cbn; auto; try (now destruct s); try contradiction.
  destruct s; rewrite Z.compare_refl, Pos.compare_cont_refl; reflexivity.
Qed.

Lemma sfeqb_cases : forall x y, SFeqb x y = true -> x = y \/ (exists a b, x = S754_zero a /\ y = S754_zero b).
Proof.
  intros [s|s| |s m e] [s'|s'| |s' m' e'] H; unfold SFeqb in H; cbn in H; try discriminate; eauto;
    try (destruct s; discriminate); try (destruct s'; discriminate).
  - destruct s, s'; try discriminate; auto.
  - left. change (Pos.compare_cont Eq m m') with (Pos.compare m m') in H.
    destruct s, s'; try discriminate; destruct (Z.compare_spec e e'); try discriminate; subst;
      destruct (Pos.compare_spec m m'); try discriminate; now subst.
Qed.

Lemma sfeqb_sym : forall x y, SFeqb x y = true -> SFeqb y x = true.
Proof.
  intros x y H. destruct (sfeqb_cases x y H) as [->|(a & b & -> & ->)]; auto.
Qed.

Lemma sfeqb_trans : forall x y z, SFeqb x y = true -> SFeqb y z = true -> SFeqb x z = true.
Proof.
  intros x y z H K. destruct (sfeqb_cases x y H) as [->|(a & b & -> & ->)]; auto.
Qed.

Section FL.
Variable lm : libm.
Local Instance AR : Ops := FOps lm.
Notation F := (@T AR).

(** ** == of lists and dictionaries *)
Lemma list_eqb_refl : forall A (eq : A -> A -> bool) l, (forall a, In a l -> eq a a = true) -> list_eqb eq l l = true.
Proof. induction l as [|a l IH]; intros H; [reflexivity|]. cbn [list_eqb]. rewrite H by (now left). apply IH. intros; apply H; now right. Qed.

Lemma list_eqb_sym : forall A (eq : A -> A -> bool), (forall a b, eq a b = true -> eq b a = true) ->
  forall l m, list_eqb eq l m = true -> list_eqb eq m l = true.
Proof.
  intros A eq S. induction l as [|a l IH]; intros [|b m] H; try discriminate; auto. cbn [list_eqb] in *.
  apply andb_true_iff in H. destruct H as (P & Q). rewrite (S a b P), (IH m Q). reflexivity.
Qed.

Lemma list_eqb_trans : forall A (eq : A -> A -> bool), (forall a b c, eq a b = true -> eq b c = true -> eq a c = true) ->
  forall l m n, list_eqb eq l m = true -> list_eqb eq m n = true -> list_eqb eq l n = true.
Proof.
  intros A eq TR. induction l as [|a l IH]; intros [|b m] [|c n] H K; try discriminate; auto. cbn [list_eqb] in *.
  apply andb_true_iff in H. destruct H as (P & Q). apply andb_true_iff in K. destruct K as (P' & Q').
  rewrite (TR a b c P P'), (IH m n Q Q'). reflexivity.
Qed.

Lemma dict_eqb_sym : forall A (eq : A -> A -> bool), (forall a b, eq a b = true -> eq b a = true) ->
  forall d e : pdict A, dict_eqb eq d e = true -> dict_eqb eq e d = true.
Proof.
  intros A eq S [v w x] [v' w' x']. unfold dict_eqb. cbn [pd_values pd_weights pd_extra]. rewrite !andb_true_iff. intros ((P & Q) & E).
  split; [split|].
  - destruct v, v'; try discriminate; auto. cbn [entry_eqb] in *. now apply list_eqb_sym.
  - destruct w, w'; try discriminate; auto. cbn [entry_eqb] in *. apply (list_eqb_sym _ _ sfeqb_sym). exact Q.
  - apply eqb_prop in E. subst. apply eqb_reflx.
Qed.

Lemma dict_eqb_trans : forall A (eq : A -> A -> bool), (forall a b c, eq a b = true -> eq b c = true -> eq a c = true) ->
  forall d e f : pdict A, dict_eqb eq d e = true -> dict_eqb eq e f = true -> dict_eqb eq d f = true.
Proof.
  intros A eq TR [v w x] [v' w' x'] [v2 w2 x2]. unfold dict_eqb. cbn [pd_values pd_weights pd_extra]. rewrite !andb_true_iff.
  intros ((P & Q) & E) ((P' & Q') & E'). split; [split|].
  - destruct v, v', v2; try discriminate; auto. cbn [entry_eqb] in *. eapply list_eqb_trans; eauto.
  - destruct w, w', w2; try discriminate; auto. cbn [entry_eqb] in *. exact (list_eqb_trans _ _ sfeqb_trans _ _ _ Q Q').
  - apply eqb_prop in E, E'. subst. apply eqb_reflx.
Qed.

(** ** What the constructor accepts *)
Lemma add_nan_l : forall l : list F, fold_left add l (S754_nan : F) = S754_nan.
Proof. induction l as [|a l IH]; [reflexivity|]. cbn [fold_left]. exact IH. Qed.

Lemma add_nan_in : forall (l : list F) a, In S754_nan (a :: l) -> fold_left add l a = S754_nan.
Proof.
  induction l as [|b l IH]; intros a I.
  - destruct I as [->|[]]. reflexivity.
  - cbn [fold_left]. destruct I as [->|[->|I]].
    + apply (add_nan_l (b :: l)).
    + apply IH. left. change (SFadd prec64 emax64 a S754_nan = S754_nan). destruct a as [[]|[]| |]; reflexivity.
    + apply IH. now right.
Qed.

Lemma weights_ok : forall ws (s : F), reduce_add ws = Ok s -> eqb s (ofZ 1%Z) = true -> forall w, In w ws -> eqb w w = true.
Proof.
  intros [|a l] s H E w I; [discriminate|]. apply sfeqb_refl. intros ->.
  apply add_nan_in in I. cbn [reduce_add] in H. assert (Q : fold_left add l a = s) by congruence. rewrite <- Q, I in E. discriminate.
Qed.

Lemma positive_not_nan : forall v : F, ltb (ofZ 0%Z) v = true -> eqb v v = true.
Proof. intros v H. apply sfeqb_refl. intros ->. discriminate. Qed.

Lemma positive_not_zero : forall (v : F) b, v = S754_zero b -> ltb (ofZ 0%Z) v = true -> False.
Proof. intros v b -> H. destruct b; discriminate. Qed.

(** The parts of a constructed region. *)
Definition built (r : region AR) : Prop := exists rid msr smod dlr, region_init rid msr smod dlr = Ok r.

Lemma built_parts : forall r, built r -> exists models mw sv sw dv dw,
  rg_msr r = mkDict (Some models) (Some mw) (pd_extra (rg_msr r)) /\
  rg_smod r = mkDict (Some sv) (Some sw) (pd_extra (rg_smod r)) /\
  rg_dlr r = mkDict (Some dv) (Some dw) (pd_extra (rg_dlr r)) /\
  (forall v, In v sv -> ltb (ofZ 0%Z) v = true) /\ (forall v, In v dv -> ltb (ofZ 0%Z) v = true) /\
  (forall w, In w mw \/ In w sw \/ In w dw -> eqb w w = true).
Proof.
  intros r (rid & [mv mw mx] & [sv sw sx] & [dv dw dx] & H). unfold region_init, check_len in H. cbn [pd_values pd_weights pd_extra] in H.
  destruct mv as [mv|]; [|discriminate]. destruct mw as [mw|]; [|discriminate]. cbn [lookup bind] in H.
  destruct (Nat.eqb _ _); [|discriminate]. cbn [bind] in H.
  destruct sv as [sv|]; [|discriminate]. destruct sw as [sw|]; [|discriminate]. cbn [lookup bind] in H.
  destruct (Nat.eqb _ _); [|discriminate]. cbn [bind] in H.
  destruct dv as [dv|]; [|discriminate]. destruct dw as [dw|]; [|discriminate]. cbn [lookup bind] in H.
  destruct (Nat.eqb _ _); [|discriminate]. cbn [bind] in H.
  destruct (check_msr mv); [|discriminate]. cbn [bind] in H.
  unfold check_values in H. destruct (forallb _ sv) eqn:SV; [|discriminate]. destruct (forallb _ dv) eqn:DV; [|discriminate]. cbn [bind] in H.
  unfold check_weights in H.
  destruct (reduce_add mw) as [s1|] eqn:R1; [|discriminate]. destruct (reduce_add sw) as [s2|] eqn:R2; [|discriminate].
  destruct (reduce_add dw) as [s3|] eqn:R3; [|discriminate]. cbn [bind] in H.
  destruct (eqb s1 (ofZ 1%Z)) eqn:E1; [|discriminate]. destruct (eqb s2 (ofZ 1%Z)) eqn:E2; [|discriminate]. destruct (eqb s3 (ofZ 1%Z)) eqn:E3; [|discriminate].
  cbn [bind negb] in H. assert (Q : r = mkRegion rid (mkDict (Some mv) (Some mw) mx) (mkDict (Some sv) (Some sw) sx) (mkDict (Some dv) (Some dw) dx)) by congruence.
  subst r. exists mv, mw, sv, sw, dv, dw. cbn [rg_msr rg_smod rg_dlr pd_extra]. do 3 (split; [reflexivity|]).
  rewrite forallb_forall in SV, DV. split; [exact SV|]. split; [exact DV|].
  intros w [I|[I|I]]; [apply (weights_ok mw s1)|apply (weights_ok sw s2)|apply (weights_ok dw s3)]; auto.
Qed.

Lemma region_refl : forall r, built r -> region_eqb r r = true.
Proof.
  intros r B. destruct (built_parts r B) as (mo & mw & sv & sw & dv & dw & E1 & E2 & E3 & PS & PD & W).
  unfold region_eqb. rewrite String.eqb_refl, E1, E2, E3. unfold dict_eqb. cbn [pd_values pd_weights pd_extra entry_eqb andb].
  rewrite !eqb_reflx, !andb_true_r.
  rewrite !list_eqb_refl; auto; intros; auto using String.eqb_refl, positive_not_nan.
Qed.

Lemma region_sym : forall r s, region_eqb r s = true -> region_eqb s r = true.
Proof.
  intros r s. unfold region_eqb. rewrite !andb_true_iff. intros (((A & B) & C) & D). repeat split.
  - rewrite String.eqb_sym. exact A.
  - apply dict_eqb_sym; auto. intros a b H. now rewrite String.eqb_sym.
  - exact (dict_eqb_sym _ _ sfeqb_sym _ _ C).
  - exact (dict_eqb_sym _ _ sfeqb_sym _ _ D).
Qed.

Lemma region_trans : forall r s t, region_eqb r s = true -> region_eqb s t = true -> region_eqb r t = true.
Proof.
  intros r s t. unfold region_eqb. rewrite !andb_true_iff. intros (((A & B) & C) & D) (((A' & B') & C') & D'). repeat split.
  - apply String.eqb_eq in A, A'. rewrite A, A'. apply String.eqb_refl.
  - refine (dict_eqb_trans _ _ _ _ _ _ B B'). intros a b c P Q. apply String.eqb_eq in P, Q. subst. apply String.eqb_refl.
  - exact (dict_eqb_trans _ _ sfeqb_trans _ _ _ C C').
  - exact (dict_eqb_trans _ _ sfeqb_trans _ _ _ D D').
Qed.

Lemma positive_eq : forall v w : F, ltb (ofZ 0%Z) v = true -> eqb v w = true -> v = w.
Proof. intros v w P E. destruct (sfeqb_cases v w E) as [H|(a & b & H & _)]; auto. destruct (positive_not_zero _ _ H P). Qed.

Lemma first_eq : forall (l m : list F) w w' x x', (forall v, In v l -> ltb (ofZ 0%Z) v = true) ->
  dict_eqb eqb (mkDict (Some l) w x) (mkDict (Some m) w' x') = true -> l = m.
Proof.
  intros l m w w' x x' P H. unfold dict_eqb in H. apply andb_true_iff in H. destruct H as (H & _). apply andb_true_iff in H.
  destruct H as (H & _). cbn [pd_values entry_eqb] in H. revert m H P. induction l as [|a l IH]; intros [|b m] H P; try discriminate; auto.
  cbn [list_eqb] in H. apply andb_true_iff in H. destruct H as (A & B).
  f_equal; [apply positive_eq; auto; apply P; now left|]. apply IH; auto. intros; apply P; now right.
Qed.

(** ** Equal regions give the same numbers *)
Lemma region_same : forall r s, built r -> built s -> region_eqb r s = true ->
  rg_id r = rg_id s /\ pd_values (rg_msr r) = pd_values (rg_msr s) /\
  pd_values (rg_smod r) = pd_values (rg_smod s) /\ pd_values (rg_dlr r) = pd_values (rg_dlr s).
Proof.
  intros r s BR BS H. destruct (built_parts r BR) as (mo & mw & sv & sw & dv & dw & E1 & E2 & E3 & PS & PD & _).
  destruct (built_parts s BS) as (mo' & mw' & sv' & sw' & dv' & dw' & E1' & E2' & E3' & _).
  unfold region_eqb in H. rewrite !andb_true_iff in H. destruct H as (((A & B) & C) & D).
  apply String.eqb_eq in A. rewrite E2, E2' in C. rewrite E3, E3' in D. rewrite E1, E1' in B.
  split; auto. split; [|split].
  - rewrite E1, E1'. cbn [pd_values]. f_equal. unfold dict_eqb in B. rewrite !andb_true_iff in B. destruct B as ((B & _) & _).
    cbn [pd_values entry_eqb] in B. clear - B. revert mo' B. induction mo as [|a l IH]; intros [|b m] H; try discriminate; auto.
    cbn [list_eqb] in H. apply andb_true_iff in H. destruct H as (P & Q). apply String.eqb_eq in P. subst. f_equal. auto.
  - rewrite E2, E2'. cbn [pd_values]. f_equal. exact (first_eq _ _ _ _ _ _ PS C).
  - rewrite E3, E3'. cbn [pd_values]. f_equal. exact (first_eq _ _ _ _ _ _ PD D).
Qed.

Lemma region_mfd : forall r s, built r -> built s -> region_eqb r s = true ->
  forall wc slip asc sf b mn w mx rake sc, get_mfd wc slip asc r sf b mn w mx rake sc = get_mfd wc slip asc s sf b mn w mx rake sc.
Proof.
  intros r s BR BS H wc slip asc sf b mn w mx rake sc. destruct (region_same r s BR BS H) as (_ & _ & A & B).
  unfold get_mfd, disp_length_ratio_first_value, shear_mod_first_value. rewrite A, B. reflexivity.
Qed.

Lemma init_fields : forall rid msr smod dlr r, region_init rid msr smod dlr = Ok r -> r = mkRegion rid msr smod dlr.
Proof.
  intros rid msr smod dlr r. unfold region_init.
  repeat match goal with |- context [bind ?x _] => destruct x; cbn [bind]; [|discriminate] end. congruence.
Qed.

Lemma C125_same_proof : forall rid msr smod dlr rid' msr' smod' dlr' r s,
  region_init rid msr smod dlr = Ok r -> region_init rid' msr' smod' dlr' = Ok s -> region_eqb r s = true ->
  rid = rid' /\ pd_values msr = pd_values msr' /\ pd_values smod = pd_values smod' /\ pd_values dlr = pd_values dlr' /\
  forall wc slip asc sf b mn w mx rake sc,
    get_mfd wc slip asc r sf b mn w mx rake sc = get_mfd wc slip asc s sf b mn w mx rake sc.
Proof.
  intros rid msr smod dlr rid' msr' smod' dlr' r s R S E.
  assert (BR : built r) by (now exists rid, msr, smod, dlr). assert (BS : built s) by (now exists rid', msr', smod', dlr').
  assert (M := region_mfd r s BR BS E). destruct (region_same r s BR BS E) as (A & B & C & D).
  apply init_fields in R, S. subst r s. auto.
Qed.
End FL.
