(** The magnitude bins of width 0.1 in binary64, for magnitudes in tenths up to 10 (C122). *)
From Coq Require Import ZArith Arith Bool List Lia Reals Lra.
From Coq Require Import Floats.SpecFloat.
From Flocq Require Import Core.
From Verif Require Import Base Ops BaseFacts FloatOps Recurrence RFacts RecurrenceProofs FReal FInt FNear TenthSpec.
Import ListNotations.

Definition zrange (lo hi : Z) : list Z := map (fun i => (lo + Z.of_nat i)%Z) (seq 0 (Z.to_nat (hi - lo + 1))).

Lemma in_zrange : forall lo hi z, (lo <= z <= hi)%Z -> In z (zrange lo hi).
Proof.
  intros lo hi z H. unfold zrange. apply in_map_iff. exists (Z.to_nat (z - lo)). split; [lia|]. apply in_seq. lia.
Qed.

Section FL.
Variable lm : libm.
Local Instance AR : Ops := FOps lm.
Notation F := (@T AR).
Notation t := (F_tenth : Z -> F).

(** The lower edge of bin k of the bins that start at lo/10. *)
Definition edge (lo : Z) (k : nat) : F := arange_at (t lo) (t 1%Z) k.

(** The bin of magnitude z/10: its own, or the one below. *)
Definition jbin (lo z : Z) : nat :=
  let k := Z.to_nat (z - lo) in if leb (edge lo k) (t z) then k else (k - 1)%nat.

(** ** Where the edges are, up to a millionth *)
Lemma tenth_near : forall z, (-1000 <= z <= 1000)%Z -> near (t z) (IZR z / 10) nano.
Proof.
  intros z H. assert (B : (IZR (-1000) <= IZR z <= IZR 1000)%R) by (split; apply IZR_le; lia).
  apply (near_div_exact (F_ofZ z) (F_ofZ 10) (IZR z) (IZR 10)); [apply near_ofZ; lia|apply near_ofZ; lia|lra|lra].
Qed.

Lemma edge_near : forall lo k, (0 <= lo <= 100)%Z -> (k <= 110)%nat -> near (edge lo k) (IZR (lo + Z.of_nat k) / 10) (/ 1000000)%R.
Proof.
  intros lo k L K. assert (TL := tenth_near lo ltac:(lia)). assert (T1 := tenth_near 1 ltac:(lia)).
  assert (B : (IZR 0 <= IZR lo <= IZR 100)%R) by (split; apply IZR_le; lia).
  assert (KB : (IZR 0 <= IZR (Z.of_nat k) <= IZR 110)%R) by (split; apply IZR_le; lia).
  assert (A1 := near_add _ _ _ _ _ _ TL T1 ltac:(lra) ltac:(lra)).
  unfold edge. destruct k as [|[|k]].
  - eapply near_weaken; [eapply near_eq; [exact TL|]|lra]. f_equal. f_equal. lia.
  - eapply near_weaken; [eapply near_eq; [exact A1|]|lra]. rewrite plus_IZR. change (IZR (Z.of_nat 1)) with 1%R. lra.
  - assert (D := near_sub _ _ _ _ _ _ A1 TL ltac:(lra) ltac:(lra)).
    assert (M := near_mul _ _ _ _ _ 110 (near_ofZ (Z.of_nat (S (S k))) ltac:(lia)) D ltac:(lra) ltac:(lra) ltac:(lra) ltac:(lra)).
    assert (E := near_add _ _ _ _ _ _ TL M ltac:(lra) ltac:(lra)).
    eapply near_weaken; [eapply near_eq; [exact E|]|lra]. rewrite plus_IZR. lra.
Qed.

(** From 4.0 on, the edge of a magnitude is not above it. *)
Definition own_edges (lo : Z) : bool :=
  let tl := t lo in let up := add tl (t 1%Z) in let d := sub up tl in
  leb tl tl && leb up (t (lo + 1)%Z) && forallb (fun z => leb (add tl (mul (ofZ (z - lo)) d)) (t z)) (zrange lo 100%Z).
Lemma check_own : forallb own_edges (zrange 40%Z 100%Z) = true.
Proof. vm_cast_no_check (@eq_refl bool true). Qed.

Lemma own_edge : forall lo z, (40 <= lo <= z)%Z -> (z <= 100)%Z -> leb (edge lo (Z.to_nat (z - lo))) (t z) = true.
Proof.
  intros lo z H H'. pose proof check_own as C. rewrite forallb_forall in C. specialize (C lo (in_zrange 40 100 lo ltac:(lia))).
  unfold own_edges in C. cbv zeta in C. apply andb_true_iff in C. destruct C as (C & C3). apply andb_true_iff in C. destruct C as (C1 & C2).
  rewrite forallb_forall in C3. specialize (C3 z (in_zrange lo 100 z ltac:(lia))). cbv beta in C3.
  destruct (Z.to_nat (z - lo)) as [|[|k]] eqn:E.
  - assert (z = lo) by lia. subst z. exact C1.
  - assert (z = lo + 1)%Z by lia. subst z. exact C2.
  - assert (Q : Z.of_nat (S (S k)) = (z - lo)%Z) by lia. change (leb (add (t lo) (mul (ofZ (Z.of_nat (S (S k)))) (sub (add (t lo) (t 1%Z)) (t lo)))) (t z) = true).
    rewrite Q. exact C3.
Qed.

Definition same_float (x y : spec_float) : bool :=
  match x, y with
  | S754_zero a, S754_zero b => Bool.eqb a b
  | S754_finite a m e, S754_finite b n f => Bool.eqb a b && Pos.eqb m n && Z.eqb e f
  | _, _ => false
  end.
Lemma same_float_eq : forall x y, same_float x y = true -> x = y.
Proof.
  intros [a|a| |a m e] [b|b| |b n f]; cbn; try discriminate.
  - intros H. apply eqb_prop in H. now subst.
  - rewrite !andb_true_iff. intros ((A & B) & C). apply eqb_prop in A. apply Pos.eqb_eq in B. apply Z.eqb_eq in C. now subst.
Qed.

Lemma check_tenths : forallb (fun z =>
  same_float (div (floorv (mul (ofZ 10%Z) (t z))) (ofZ 10%Z)) (t z) &&
  same_float (div (ceilv (mul (ofZ 10%Z) (t z))) (ofZ 10%Z)) (t z)) (zrange 0%Z 100%Z) = true.
Proof. vm_cast_no_check (@eq_refl bool true). Qed.

Lemma edge_leb : forall lo z k, (0 <= lo <= z)%Z -> (z <= 100)%Z -> (k < 104)%nat ->
  leb (edge lo k) (t z) = Nat.leb k (jbin lo z) /\ ltb (t z) (edge lo k) = Nat.ltb (jbin lo z) k /\
  ((jbin lo z < k)%nat -> leb (t z) (edge lo k) = true) /\ ((40 <= lo)%Z -> jbin lo z = Z.to_nat (z - lo)).
Proof.
  intros lo z k H1 H2 K. assert (EN := edge_near lo k ltac:(lia) ltac:(lia)). assert (TN := tenth_near z ltac:(lia)).
  assert (JC : (leb (edge lo (Z.to_nat (z - lo))) (t z) = true /\ jbin lo z = Z.to_nat (z - lo)) \/
               (leb (edge lo (Z.to_nat (z - lo))) (t z) = false /\ jbin lo z = (Z.to_nat (z - lo) - 1)%nat)).
  { unfold jbin. destruct (leb _ _); auto. }
  assert (FE := proj1 EN). assert (FT := proj1 TN).
  assert (OWN : (40 <= lo)%Z -> jbin lo z = Z.to_nat (z - lo)).
  { intros L. assert (C := own_edge lo z ltac:(lia) H2). destruct JC as [(_ & J)|(J & _)]; auto. congruence. }
  destruct (Z.lt_trichotomy (lo + Z.of_nat k) z) as [L|[L|L]].
  - assert (G : (IZR (lo + Z.of_nat k + 1) <= IZR z)%R) by (apply IZR_le; lia). rewrite (plus_IZR (lo + Z.of_nat k) 1) in G.
    assert (X1 : leb (edge lo k) (t z) = true) by (refine (near_leb _ _ _ _ _ _ EN TN _); lra).
    assert (X2 : ltb (t z) (edge lo k) = false) by (refine (near_nltb _ _ _ _ _ _ TN EN _); lra).
    assert (KJ : (k <= jbin lo z)%nat) by (destruct JC as [(_ & J)|(_ & J)]; lia).
    rewrite X1, X2. split; [symmetry; now apply Nat.leb_le|]. split; [symmetry; now apply Nat.ltb_ge|]. split; [lia|exact OWN].
  - assert (KE : k = Z.to_nat (z - lo)) by lia. rewrite <- KE in JC.
    destruct JC as [(X & J)|(X & J)].
    + rewrite X, J. split; [symmetry; apply Nat.leb_refl|]. split; [|split; [lia|intros _; exact KE]].
      rewrite Nat.ltb_irrefl. assert (X' := X). change (SFleb (edge lo k) (t z) = true) in X'. change (SFltb (t z) (edge lo k) = false).
      rewrite (leb_real _ _ FE FT) in X'. rewrite (ltb_real _ _ FT FE). apply Rlt_bool_false. destruct (Rle_bool_spec (val (edge lo k)) (val (t z))); auto. discriminate.
    + assert (X' := X). change (SFleb (edge lo k) (t z) = false) in X'. rewrite (leb_real _ _ FE FT) in X'.
      destruct (Rle_bool_spec (val (edge lo k)) (val (t z))) as [Q|Q]; [discriminate|].
      destruct k as [|k].
      { exfalso. assert (EZ : z = lo) by lia. rewrite EZ in Q. exact (Rlt_irrefl _ Q). }
      rewrite X. split; [symmetry; apply Nat.leb_gt; lia|]. split; [|split; [|exact OWN]].
      * transitivity true; [|symmetry; apply Nat.ltb_lt; lia]. change (SFltb (t z) (edge lo (S k)) = true). rewrite (ltb_real _ _ FT FE). now apply Rlt_bool_true.
      * intros _. change (SFleb (t z) (edge lo (S k)) = true). rewrite (leb_real _ _ FT FE). apply Rle_bool_true. lra.
  - assert (G : (IZR (z + 1) <= IZR (lo + Z.of_nat k))%R) by (apply IZR_le; lia). rewrite (plus_IZR z 1) in G.
    assert (X1 : leb (edge lo k) (t z) = false) by (refine (near_nleb _ _ _ _ _ _ EN TN _); lra).
    assert (X2 : ltb (t z) (edge lo k) = true) by (refine (near_ltb _ _ _ _ _ _ TN EN _); lra).
    assert (KJ : (jbin lo z < k)%nat) by (destruct JC as [(_ & J)|(_ & J)]; lia).
    rewrite X1, X2. split; [symmetry; now apply Nat.leb_gt|]. split; [symmetry; now apply Nat.ltb_lt|]. split; [|exact OWN].
    intros _. refine (near_leb _ _ _ _ _ _ TN EN _); lra.
Qed.

Lemma jbin_near : forall lo z, jbin lo z = Z.to_nat (z - lo) \/ jbin lo z = (Z.to_nat (z - lo) - 1)%nat.
Proof. intros. unfold jbin. destruct (leb _ _); auto. Qed.

Lemma tenth_ltb : forall z z', (0 <= z <= 100)%Z -> (0 <= z' <= 100)%Z -> ltb (t z) (t z') = Z.ltb z z'.
Proof.
  intros z z' H H'. assert (N := tenth_near z ltac:(lia)). assert (N' := tenth_near z' ltac:(lia)).
  destruct (Z.ltb_spec z z') as [L|L].
  - assert (G : (IZR (z + 1) <= IZR z')%R) by (apply IZR_le; lia). rewrite plus_IZR in G. refine (near_ltb _ _ _ _ _ _ N N' _). lra.
  - destruct (Z.eq_dec z z') as [->|D].
    + change (SFltb (t z') (t z') = false). rewrite (ltb_real _ _ (proj1 N) (proj1 N)). apply Rlt_bool_false. lra.
    + assert (G : (IZR (z' + 1) <= IZR z)%R) by (apply IZR_le; lia). rewrite plus_IZR in G. refine (near_nltb _ _ _ _ _ _ N N' _). lra.
Qed.

Lemma tenth_kept : forall z, (0 <= z <= 100)%Z ->
  div (floorv (mul (ofZ 10%Z) (t z))) (ofZ 10%Z) = t z /\ div (ceilv (mul (ofZ 10%Z) (t z))) (ofZ 10%Z) = t z.
Proof.
  intros z H. pose proof check_tenths as C. rewrite forallb_forall in C.
  specialize (C z (in_zrange 0 100 z H)). apply andb_true_iff in C. destruct C as (A & B). split; apply same_float_eq; auto.
Qed.

Lemma range_len : forall lo hi, (0 <= lo <= hi)%Z -> (hi <= 100)%Z ->
  (Z.to_nat (hi - lo) + 2 <= arange_len (t lo) (add (t hi) (mul (ofZ 2%Z) (t 1%Z))) (t 1%Z) <= 104)%nat.
Proof.
  intros lo hi H H'. unfold arange_len. assert (TL := tenth_near lo ltac:(lia)). assert (TH := tenth_near hi ltac:(lia)).
  assert (T1 := tenth_near 1 ltac:(lia)).
  assert (B : (IZR 0 <= IZR lo <= IZR hi)%R) by (split; apply IZR_le; lia). assert (B2 : (IZR hi <= IZR 100)%R) by (apply IZR_le; lia).
  assert (M := near_mul _ _ _ _ _ 2 (near_ofZ 2 ltac:(lia)) T1 ltac:(lra) ltac:(lra) ltac:(lra) ltac:(lra)).
  assert (A := near_add _ _ _ _ _ _ TH M ltac:(lra) ltac:(lra)).
  assert (S := near_sub _ _ _ _ _ _ A TL ltac:(lra) ltac:(lra)).
  assert (D := near_div_tenth _ _ _ _ S (near_weaken _ _ _ (2 * nano) T1 ltac:(lra)) ltac:(lra) ltac:(lra)).
  change (@div AR) with (SFdiv prec64 emax64). change (@sub AR) with (SFsub prec64 emax64).
  change (@add AR) with (SFadd prec64 emax64). change (@mul AR) with (SFmul prec64 emax64).
  change (@toZ AR) with F_toZ. change (@ceilv AR) with F_ceil. change (@ofZ AR) with F_ofZ.
  set (q := SFdiv _ _ _ _) in *. destruct D as (FQ & VQ).
  assert (E : (IZR (hi - lo) = IZR hi - IZR lo)%R) by apply minus_IZR.
  destruct (Rle_lt_dec (val q) (IZR (hi - lo + 1 + 1))) as [C|C].
  - rewrite (ceil_real q (hi - lo + 1) FQ ltac:(lia)) by (rewrite !plus_IZR in *; rewrite E in *; lra). lia.
  - rewrite (ceil_real q (hi - lo + 2) FQ ltac:(lia)) by (rewrite !plus_IZR in *; rewrite E in *; lra). lia.
Qed.

(** ** Smallest and largest magnitude *)
Lemma minv_tenths : forall zs, zs <> [] -> (forall z, In z zs -> (0 <= z <= 100)%Z) ->
  exists lo, smallest lo zs /\ minv (map t zs) = Ok (t lo).
Proof.
  intros [|a l] N H; [contradiction|]. clear N. cbn [map minv].
  revert a H. induction l as [|b l IH]; intros a H.
  - exists a. split; [|reflexivity]. split; [now left|]. intros x [<-|[]]. lia.
  - cbn [map fold_left]. assert (E : min2 (t a) (t b) = t (Z.min a b)).
    { unfold min2. rewrite tenth_ltb by (apply H; simpl; auto). destruct (Z.ltb_spec b a); f_equal; lia. }
    rewrite E. destruct (IH (Z.min a b)) as (lo & (I & L) & Q).
    { intros z [<-|I]; [|apply H; simpl; auto]. assert (A := H a (or_introl eq_refl)). assert (B := H b (or_intror (or_introl eq_refl))). lia. }
    exists lo. split; auto. split.
    + destruct I as [I|I]; [|simpl; auto]. destruct (Z.min_spec a b) as [(_ & M)|(_ & M)]; rewrite M in I; simpl; auto.
    + intros x [<-|[<-|X]]; [assert (lo <= Z.min a b)%Z by (apply L; now left); lia|assert (lo <= Z.min a b)%Z by (apply L; now left); lia|].
      apply L. now right.
Qed.

Lemma maxv_tenths : forall zs, zs <> [] -> (forall z, In z zs -> (0 <= z <= 100)%Z) ->
  exists hi, In hi zs /\ (forall x, In x zs -> (x <= hi)%Z) /\ maxv (map t zs) = Ok (t hi).
Proof.
  intros [|a l] N H; [contradiction|]. clear N. cbn [map maxv].
  revert a H. induction l as [|b l IH]; intros a H.
  - exists a. split; [now left|]. split; [|reflexivity]. intros x [<-|[]]. lia.
  - cbn [map fold_left]. assert (E : max2 (t a) (t b) = t (Z.max a b)).
    { unfold max2. rewrite tenth_ltb by (apply H; simpl; auto). destruct (Z.ltb_spec a b); f_equal; lia. }
    rewrite E. destruct (IH (Z.max a b)) as (hi & I & L & Q).
    { intros z [<-|I]; [|apply H; simpl; auto]. assert (A := H a (or_introl eq_refl)). assert (B := H b (or_intror (or_introl eq_refl))). lia. }
    exists hi. split; [|split; auto].
    + destruct I as [I|I]; [|simpl; auto]. destruct (Z.max_spec a b) as [(_ & M)|(_ & M)]; rewrite M in I; simpl; auto.
    + intros x [<-|[<-|X]]; [assert (Z.max a b <= hi)%Z by (apply L; now left); lia|assert (Z.max a b <= hi)%Z by (apply L; now left); lia|].
      apply L. now right.
Qed.

Lemma range_tenths : forall zs, zs <> [] -> (forall z, In z zs -> (0 <= z <= 100)%Z) ->
  exists lo n, smallest lo zs /\ (forall z, In z zs -> (jbin lo z + 2 <= n)%nat) /\ (n <= 104)%nat /\
    rec_mag_range (map t zs) (t 1%Z) = Ok (map (edge lo) (seq 0 n)).
Proof.
  intros zs N H. destruct (minv_tenths zs N H) as (lo & (LI & LL) & ML). destruct (maxv_tenths zs N H) as (hi & HI & HL & MH).
  assert (A := H lo LI). assert (B := H hi HI). assert (C := LL hi HI).
  exists lo, (arange_len (t lo) (add (t hi) (mul (ofZ 2%Z) (t 1%Z))) (t 1%Z)).
  destruct (range_len lo hi) as (D1 & D2); try lia.
  split; [split; auto|]. split.
  { intros z I. assert (X := LL z I). assert (Y := HL z I). destruct (jbin_near lo z) as [E|E]; rewrite E; lia. }
  split; auto. unfold rec_mag_range. rewrite !map_map.
  assert (E1 : map (fun x => div (ceilv (mul (ofZ 10%Z) (t x))) (ofZ 10%Z)) zs = map t zs)
    by (apply map_ext_in; intros z I; apply tenth_kept, H; auto).
  assert (E2 : map (fun x => div (floorv (mul (ofZ 10%Z) (t x))) (ofZ 10%Z)) zs = map t zs)
    by (apply map_ext_in; intros z I; apply tenth_kept, H; auto).
  rewrite E1, E2, MH. cbn [bind]. rewrite ML. reflexivity.
Qed.

(** An event is in the bin jbin and in no other. *)
Lemma in_bin_edges : forall lo n z k, (0 <= lo <= z)%Z -> (z <= 100)%Z -> (n <= 104)%nat -> (jbin lo z + 2 <= n)%nat -> (k + 1 < n)%nat ->
  in_bin (map (edge lo) (seq 0 n)) k (t z) = Nat.eqb k (jbin lo z).
Proof.
  intros lo n z k A B C D K. unfold in_bin. rewrite map_length, seq_length.
  assert (NT : forall i, (i < n)%nat -> nth i (map (edge lo) (seq 0 n)) (ofZ 0%Z) = edge lo i).
  { intros i I. apply nth_error_nth. rewrite nth_error_map, nth_error_seq by auto. reflexivity. }
  rewrite !NT by lia.
  destruct (edge_leb lo z k A B ltac:(lia)) as (E1 & _ & _ & _).
  destruct (edge_leb lo z (k + 1) A B ltac:(lia)) as (_ & E2 & E3 & _). rewrite E1, E2.
  destruct (Nat.eqb_spec (k + 2) n) as [Q|Q].
  - rewrite E3 by lia. rewrite andb_true_r. destruct (Nat.leb_spec k (jbin lo z)); destruct (Nat.eqb_spec k (jbin lo z)); auto; lia.
  - destruct (Nat.leb_spec k (jbin lo z)); destruct (Nat.ltb_spec (jbin lo z) (k + 1)); destruct (Nat.eqb_spec k (jbin lo z)); auto; lia.
Qed.

Lemma sum_cons : forall x l, list_sum (x :: l) = (x + list_sum l)%nat.
Proof. reflexivity. Qed.
Lemma no_match : forall A (f : A -> bool) l, (forall a, In a l -> f a = false) -> filter f l = [].
Proof. intros A f l. induction l as [|a l IH]; intros H; [reflexivity|]. simpl. rewrite H by (now left). apply IH. intros; apply H; now right. Qed.

Lemma sum_of_bins : forall (j : Z -> nat) n zs, (forall z, In z zs -> (j z < n)%nat) ->
  list_sum (map (fun k => count (fun z => Nat.eqb k (j z)) zs) (seq 0 n)) = length zs.
Proof.
  intros j n zs. induction zs as [|z zs IH]; intros H.
  - cbn. induction (seq 0 n); auto.
  - assert (E : forall l, list_sum (map (fun k => count (fun z0 => Nat.eqb k (j z0)) (z :: zs)) l)
      = (count (fun k => Nat.eqb k (j z)) l + list_sum (map (fun k => count (fun z0 => Nat.eqb k (j z0)) zs) l))%nat).
    { induction l as [|k l IL]; [reflexivity|]. cbn [map]. rewrite !sum_cons, IL. unfold count. cbn [filter].
      destruct (Nat.eqb k (j z)); cbn [length]; lia. }
    rewrite E, IH by (intros; apply H; now right). cbn [length].
    assert (O : count (fun k => Nat.eqb k (j z)) (seq 0 n) = 1%nat); [|lia].
    assert (J := H z (or_introl eq_refl)).
    replace n with (j z + (1 + (n - j z - 1)))%nat by lia. rewrite !seq_app. unfold count. rewrite !filter_app, !app_length.
    cbn [seq filter]. rewrite Nat.eqb_refl. cbn [length].
    rewrite !no_match; [reflexivity| |]; intros x X; apply in_seq in X; apply Nat.eqb_neq; lia.
Qed.

Lemma C122_proof : forall zs (year : list F), zs <> [] -> (forall z, In z zs -> (0 <= z <= 100)%Z) -> year <> [] ->
  exists lo tab, smallest lo zs /\ recurrence_table (map t zs) (t 1%Z) year = Ok tab /\
    (forall k row, nth_error tab k = Some row ->
       exists n, rc_n row = ofnat n /\
         (n <= how_many (lo + Z.of_nat k) zs + how_many (lo + Z.of_nat k + 1) zs)%nat /\
         ((40 <= lo)%Z -> n = how_many (lo + Z.of_nat k) zs)) /\
    (exists row, nth_error tab 0 = Some row /\ rc_cum row = ofnat (length zs)).
Proof.
  intros zs year N H Y. destruct (range_tenths zs N H) as (lo & n & S & J & NN & E).
  assert (MY : exists a b, maxv year = Ok a /\ minv year = Ok b) by (destruct year; [contradiction|do 2 eexists; split; reflexivity]).
  destruct MY as (ymax & ymin & MX & MN). unfold recurrence_table. rewrite MX, MN. cbn [bind]. rewrite E. cbn [bind].
  eexists lo, _. split; [exact S|]. split; [reflexivity|].
  assert (LO : (0 <= lo)%Z) by (destruct S as (I & _); apply H in I; lia).
  assert (N2 : (2 <= n)%nat) by (destruct zs as [|z zs]; [contradiction|]; specialize (J z (or_introl eq_refl)); lia).
  assert (HK : forall k, (k + 1 < n)%nat -> nth_error (histogram (map t zs) (map (edge lo) (seq 0 n))) k
               = Some (count (fun z => Nat.eqb k (jbin lo z)) zs)).
  { intros k K. unfold histogram. rewrite nth_error_map, map_length, seq_length, nth_error_seq by lia. cbn [option_map]. f_equal.
    rewrite map_map, count_true_count. unfold count. f_equal. apply filter_ext_in. intros z I.
    apply in_bin_edges; auto; destruct S as (_ & L); specialize (L z I); specialize (H z I); try lia. }
  assert (LH : length (histogram (map t zs) (map (edge lo) (seq 0 n))) = (n - 1)%nat)
    by (unfold histogram; rewrite !map_length, !seq_length; reflexivity).
  assert (COUNTS : forall k, (k + 1 < n)%nat ->
    (count (fun z => Nat.eqb k (jbin lo z)) zs <= how_many (lo + Z.of_nat k) zs + how_many (lo + Z.of_nat k + 1) zs)%nat /\
    ((40 <= lo)%Z -> count (fun z => Nat.eqb k (jbin lo z)) zs = how_many (lo + Z.of_nat k) zs)).
  { intros k K. split.
    - clear - S J. destruct S as (_ & L). unfold count, how_many. induction zs as [|z zs IH]; [simpl; lia|]. cbn [filter].
      assert (IH' := IH (fun x X => L x (or_intror X)) (fun x X => J x (or_intror X))). clear IH.
      assert (LZ := L z (or_introl eq_refl)).
      destruct (Nat.eqb_spec k (jbin lo z)) as [Q|Q];
        [|destruct (Z.eqb (lo + Z.of_nat k) z); destruct (Z.eqb (lo + Z.of_nat k + 1) z); cbn [length]; lia].
      assert (X : (lo + Z.of_nat k =? z)%Z = true \/ (lo + Z.of_nat k + 1 =? z)%Z = true).
      { rewrite !Z.eqb_eq. destruct (jbin_near lo z) as [W|W]; rewrite W in Q; lia. }
      destruct X as [X|X]; rewrite X; [destruct (Z.eqb (lo + Z.of_nat k + 1) z)|destruct (Z.eqb (lo + Z.of_nat k) z)]; cbn [length]; lia.
    - intros L4. unfold count, how_many. f_equal. apply filter_ext_in. intros z I. destruct S as (_ & L). specialize (L z I). specialize (H z I).
      destruct (edge_leb lo z 0 ltac:(lia) ltac:(lia) ltac:(lia)) as (_ & _ & _ & Q). rewrite Q by auto.
      destruct (Nat.eqb_spec k (Z.to_nat (z - lo))); destruct (Z.eqb_spec (lo + Z.of_nat k) z); auto; lia. }
  split.
  - intros k row R. apply nth_error_map2_inv in R. destruct R as (m & nc & A & B & ->).
    assert (K : (k + 1 < n)%nat).
    { apply nth_error_lt in B. rewrite combine_length, length_suffix_sums, LH in B. lia. }
    cbn [rc_n]. exists (fst nc). split; [reflexivity|].
    assert (Q : nth_error (histogram (map t zs) (map (edge lo) (seq 0 n))) k = Some (fst nc)).
    { clear - B. revert B. generalize (suffix_sums (histogram (map t zs) (map (edge lo) (seq 0 n)))) as s.
      generalize (histogram (map t zs) (map (edge lo) (seq 0 n))) as h. intros h. revert k. induction h as [|x h IH]; intros [|k] [|y s] B; try discriminate; simpl in *; auto.
      - now inversion B.
      - eapply IH; eauto. }
    rewrite HK in Q by auto. injection Q as Q. rewrite <- Q. apply COUNTS; auto.
  - assert (L0 : exists m, nth_error (map (fun m => add m (div (t 1%Z) (ofZ 2%Z))) (removelast (map (edge lo) (seq 0 n)))) 0 = Some m).
    { destruct n as [|[|n]]; try lia. cbn [seq map removelast nth_error]. eauto. }
    destruct L0 as (m & M0).
    set (h := histogram (map t zs) (map (edge lo) (seq 0 n))) in *.
    assert (H0 := HK 0%nat ltac:(lia)). fold h in H0.
    assert (S0 := nth_error_suffix_sums h 0 ltac:(lia)).
    assert (C0 := nth_error_combine _ _ _ _ _ _ _ H0 S0).
    eexists. split. { erewrite nth_error_map2; [|exact M0|exact C0]. reflexivity. }
    cbn [rc_cum snd skipn]. f_equal.
    assert (HH : h = map (fun k => count (fun z => Nat.eqb k (jbin lo z)) zs) (seq 0 (n - 1))).
    { apply list_ext. now rewrite map_length, seq_length. intros k a b A B. assert (K : (k < n - 1)%nat) by (apply nth_error_lt in A; lia).
      rewrite HK in A by lia. rewrite nth_error_map, nth_error_seq in B by auto. cbn in B. congruence. }
    rewrite HH. apply sum_of_bins. intros z I. specialize (J z I). lia.
Qed.
End FL.
