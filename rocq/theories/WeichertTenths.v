(** weichert_prep in binary64 on whole years and magnitudes in tenths from 4.0 to 10.0 (C123). *)
From Coq Require Import ZArith Arith Bool List Lia Reals Lra.
From Coq Require Import Floats.SpecFloat.
From Flocq Require Import Core.
From Verif Require Import Base Ops BaseFacts FloatOps Recurrence RFacts RecurrenceProofs WeichertProofs FReal FInt FNear
  TenthSpec TenthBins WeichertBins.
Import ListNotations.

Section FL.
Variable lm : libm.
Local Instance AR : Ops := FOps lm.
Notation F := (@T AR).
Notation t := (F_tenth : Z -> F).
Notation yv := (F_ofZ : Z -> F).
Notation edge := (TenthBins.edge lm).
Notation jbin := (TenthBins.jbin lm).

(** ** Smallest and largest of a list whose order is that of whole numbers *)
Lemma minv_ints : forall (v : Z -> F) (P : Z -> Prop), (forall a b, P a -> P b -> ltb (v a) (v b) = Z.ltb a b) ->
  forall zs, zs <> [] -> (forall z, In z zs -> P z) -> exists lo, smallest lo zs /\ minv (map v zs) = Ok (v lo).
Proof.
  intros v P HV [|a l] N H; [contradiction|]. clear N. cbn [map minv].
  revert a H. induction l as [|b l IH]; intros a H.
  - exists a. split; [|reflexivity]. split; [now left|]. intros x [<-|[]]. lia.
  - cbn [map fold_left]. assert (E : min2 (v a) (v b) = v (Z.min a b)).
    { unfold min2. rewrite HV by (apply H; simpl; auto). destruct (Z.ltb_spec b a); f_equal; lia. }
    rewrite E. destruct (IH (Z.min a b)) as (lo & (I & L) & Q).
    { intros z [<-|I]; [|apply H; simpl; auto]. destruct (Z.min_spec a b) as [(_ & ->)|(_ & ->)]; apply H; simpl; auto. }
    exists lo. split; auto. split.
    + destruct I as [I|I]; [|simpl; auto]. destruct (Z.min_spec a b) as [(_ & M)|(_ & M)]; rewrite M in I; simpl; auto.
    + intros x [<-|[<-|X]]; [assert (lo <= Z.min a b)%Z by (apply L; now left); lia|assert (lo <= Z.min a b)%Z by (apply L; now left); lia|].
      apply L. now right.
Qed.

Lemma maxv_ints : forall (v : Z -> F) (P : Z -> Prop), (forall a b, P a -> P b -> ltb (v a) (v b) = Z.ltb a b) ->
  forall zs, zs <> [] -> (forall z, In z zs -> P z) ->
  exists hi, In hi zs /\ (forall x, In x zs -> (x <= hi)%Z) /\ maxv (map v zs) = Ok (v hi).
Proof.
  intros v P HV [|a l] N H; [contradiction|]. clear N. cbn [map maxv].
  revert a H. induction l as [|b l IH]; intros a H.
  - exists a. split; [now left|]. split; [|reflexivity]. intros x [<-|[]]. lia.
  - cbn [map fold_left]. assert (E : max2 (v a) (v b) = v (Z.max a b)).
    { unfold max2. rewrite HV by (apply H; simpl; auto). destruct (Z.ltb_spec a b); f_equal; lia. }
    rewrite E. destruct (IH (Z.max a b)) as (hi & I & L & Q).
    { intros z [<-|I]; [|apply H; simpl; auto]. destruct (Z.max_spec a b) as [(_ & ->)|(_ & ->)]; apply H; simpl; auto. }
    exists hi. split; [|split; auto].
    + destruct I as [I|I]; [|simpl; auto]. destruct (Z.max_spec a b) as [(_ & M)|(_ & M)]; rewrite M in I; simpl; auto.
    + intros x [<-|[<-|X]]; [assert (Z.max a b <= hi)%Z by (apply L; now left); lia|assert (Z.max a b <= hi)%Z by (apply L; now left); lia|].
      apply L. now right.
Qed.

(** ** The time grid: whole years *)
Definition yr_ok (y : Z) : Prop := (Z.abs y <= 1000000)%Z.

Lemma yr_half : forall y, yr_ok y -> half_is (yv y) (2 * y).
Proof. intros y H. apply half_ofZ. unfold yr_ok in H. lia. Qed.

Lemma yr_ltb : forall a b, yr_ok a -> yr_ok b -> ltb (yv a) (yv b) = Z.ltb a b.
Proof.
  intros a b A B. etransitivity; [exact (half_ltb _ _ _ _ (yr_half a A) (yr_half b B))|].
  destruct (Z.ltb_spec a b); destruct (Z.ltb_spec (2 * a) (2 * b)); auto; lia.
Qed.

Lemma grid_year : forall lo i, yr_ok lo -> (Z.of_nat i <= 4000000)%Z -> half_is (arange_at (yv lo) (yv 1%Z) i) (2 * (lo + Z.of_nat i)).
Proof.
  intros lo i H I. assert (L := yr_half lo H). unfold yr_ok in H. assert (O := half_ofZ 1 ltac:(lia)).
  assert (S1 := half_add _ _ _ _ L O ltac:(lia)). destruct i as [|[|i]].
  - replace (2 * (lo + Z.of_nat 0))%Z with (2 * lo)%Z by lia. exact L.
  - replace (2 * (lo + Z.of_nat 1))%Z with (2 * lo + 2 * 1)%Z by lia. exact S1.
  - assert (D := half_sub _ _ _ _ S1 L ltac:(lia)).
    assert (N := half_ofZ (Z.of_nat (S (S i))) ltac:(lia)).
    assert (M := half_mul _ _ _ _ N D ltac:(lia)).
    replace (2 * (lo + Z.of_nat (S (S i))))%Z with (2 * lo + Z.of_nat (S (S i)) * (2 * lo + 2 * 1 - 2 * lo))%Z by lia.
    exact (half_add _ _ _ _ L M ltac:(lia)).
Qed.

Lemma grid_years : forall lo hi, yr_ok lo -> yr_ok hi -> (lo <= hi)%Z ->
  arange_len (yv lo) (add (yv hi) (mul (lit 15 10) (yv 1%Z))) (yv 1%Z) = Z.to_nat (hi - lo + 2).
Proof.
  intros lo hi L H LE. unfold arange_len. f_equal.
  assert (A := yr_half lo L). assert (B := yr_half hi H). unfold yr_ok in L, H. assert (O := half_ofZ 1 ltac:(lia)).
  assert (M := half_mul_r _ _ 1 3 half_fifteen O ltac:(lia)).
  assert (U := half_add _ _ _ _ B M ltac:(lia)).
  assert (D := half_sub _ _ _ _ U A ltac:(lia)).
  assert (Q := half_div1 _ _ D ltac:(lia)).
  etransitivity; [exact (half_ceil _ _ Q ltac:(lia) ltac:(lia))|].
  symmetry. apply Z.div_unique with 0%Z; lia.
Qed.

(** A year is in the bin of its own and in no other. *)
Lemma in_bin_years : forall lo hi y a, yr_ok lo -> yr_ok hi -> yr_ok y -> (lo <= y <= hi)%Z -> (a + 1 < Z.to_nat (hi - lo + 2))%nat ->
  in_bin (map (arange_at (yv lo) (yv 1%Z)) (seq 0 (Z.to_nat (hi - lo + 2)))) a (yv y) = Nat.eqb a (Z.to_nat (y - lo)).
Proof.
  intros lo hi y a L H Y B K. unfold in_bin. rewrite map_length, seq_length. set (n := Z.to_nat (hi - lo + 2)) in *.
  assert (NT : forall i, (i < n)%nat -> nth i (map (arange_at (yv lo) (yv 1%Z)) (seq 0 n)) (ofZ 0%Z) = arange_at (yv lo) (yv 1%Z) i).
  { intros i I. apply nth_error_nth. rewrite nth_error_map, nth_error_seq by auto. reflexivity. }
  rewrite !NT by lia.
  assert (NB : (Z.of_nat n <= 4000000)%Z) by (unfold yr_ok in *; lia).
  assert (G1 := grid_year lo a L ltac:(lia)). assert (G2 := grid_year lo (a + 1) L ltac:(lia)). assert (YH := yr_half y Y).
  assert (E1 : leb (arange_at (yv lo) (yv 1%Z) a) (yv y) = Z.leb (2 * (lo + Z.of_nat a)) (2 * y)) by exact (half_leb _ _ _ _ G1 YH).
  assert (E2 : leb (yv y) (arange_at (yv lo) (yv 1%Z) (a + 1)) = Z.leb (2 * y) (2 * (lo + Z.of_nat (a + 1)))) by exact (half_leb _ _ _ _ YH G2).
  assert (E3 : ltb (yv y) (arange_at (yv lo) (yv 1%Z) (a + 1)) = Z.ltb (2 * y) (2 * (lo + Z.of_nat (a + 1)))) by exact (half_ltb _ _ _ _ YH G2).
  rewrite E1, E2, E3.
  destruct (Nat.eqb_spec (a + 2) n) as [Q|Q]; destruct (Nat.eqb_spec a (Z.to_nat (y - lo))); 
    destruct (Z.leb_spec (2 * (lo + Z.of_nat a)) (2 * y)); destruct (Z.leb_spec (2 * y) (2 * (lo + Z.of_nat (a + 1))));
    destruct (Z.ltb_spec (2 * y) (2 * (lo + Z.of_nat (a + 1)))); auto; lia.
Qed.

Lemma year_below : forall lo n cy a x, yr_ok lo -> yr_ok cy -> (Z.of_nat n <= 4000000)%Z ->
  nth_error (map (arange_at (yv lo) (yv 1%Z)) (seq 0 n)) a = Some x -> ltb x (yv cy) = Nat.ltb a (Z.to_nat (cy - lo)).
Proof.
  intros lo n cy a x L C N H. assert (A := nth_error_lt _ _ _ _ H). rewrite map_length, seq_length in A.
  rewrite nth_error_map, nth_error_seq in H by auto. cbn [option_map Nat.add] in H. injection H as <-.
  etransitivity; [exact (half_ltb _ _ _ _ (grid_year lo a L ltac:(lia)) (yr_half cy C))|].
  destruct (Z.ltb_spec (2 * (lo + Z.of_nat a)) (2 * cy)); destruct (Nat.ltb_spec a (Z.to_nat (cy - lo))); auto; lia.
Qed.

(** ** The magnitude grid *)
Definition mag_stop (hi : Z) : F := add (t hi) (mul (lit 15 10) (t 1%Z)).

(** The number of edges below a completeness magnitude of cz/10. *)
Definition below (lo cz : Z) : nat :=
  let k := Z.to_nat (cz - lo) in if ltb (edge lo k) (t cz) then (k + 1)%nat else k.

Lemma check_rounds : forallb (fun z => same_float (round1 (t z)) (t z)) (zrange 0%Z 100%Z) = true.
Proof. vm_cast_no_check (@eq_refl bool true). Qed.

Lemma fifteen_near : near (lit 15 10 : F) (3 / 2) 0.
Proof. destruct half_fifteen as (A & B). split; [exact A|]. change (lit 15 10) with (SFdiv prec64 emax64 (F_ofZ 15) (F_ofZ 10)).
  rewrite B. lra.
Qed.

Lemma mag_len : forall lo hi, (40 <= lo <= hi)%Z -> (hi <= 100)%Z ->
  (Z.to_nat (hi - lo) + 2 <= arange_len (t lo) (mag_stop hi) (t 1%Z) <= 64)%nat.
Proof.
  intros lo hi H H'. unfold arange_len, mag_stop. assert (TL := tenth_near lm lo ltac:(lia)). assert (TH := tenth_near lm hi ltac:(lia)).
  assert (T1 := tenth_near lm 1 ltac:(lia)).
  assert (B : (IZR 0 <= IZR lo <= IZR hi)%R) by (split; apply IZR_le; lia). assert (B2 : (IZR hi <= IZR 100)%R) by (apply IZR_le; lia).
  assert (M := near_mul _ _ _ _ _ 2 fifteen_near T1 ltac:(lra) ltac:(lra) ltac:(lra) ltac:(lra)).
  assert (A := near_add _ _ _ _ _ _ TH M ltac:(lra) ltac:(lra)).
  assert (S := near_sub _ _ _ _ _ _ A TL ltac:(lra) ltac:(lra)).
  assert (D := near_div_tenth _ _ _ _ S (near_weaken _ _ _ (2 * nano) T1 ltac:(lra)) ltac:(lra) ltac:(lra)).
  change (@div AR) with (SFdiv prec64 emax64). change (@sub AR) with (SFsub prec64 emax64).
  change (@add AR) with (SFadd prec64 emax64). change (@mul AR) with (SFmul prec64 emax64).
  change (@toZ AR) with F_toZ. change (@ceilv AR) with F_ceil.
  set (q := SFdiv _ _ _ _) in *. destruct D as (FQ & VQ).
  assert (E : (IZR (hi - lo) = IZR hi - IZR lo)%R) by apply minus_IZR.
  rewrite (ceil_real q (hi - lo + 1) FQ ltac:(lia)) by (rewrite !plus_IZR in *; rewrite E in *; lra). lia.
Qed.

Lemma mag_below : forall lo cz k, (40 <= lo <= 100)%Z -> (0 <= cz <= 100)%Z -> (k < 64)%nat ->
  ltb (edge lo k) (F_half_below cz : F) = Nat.ltb k (Z.to_nat (cz - lo)) /\ ltb (edge lo k) (t cz) = Nat.ltb k (below lo cz).
Proof.
  intros lo cz k H1 H2 K. assert (EN := edge_near lm lo k ltac:(lia) ltac:(lia)). assert (TN := tenth_near lm cz ltac:(lia)).
  assert (CB : (IZR 0 <= IZR cz <= IZR 100)%R) by (split; apply IZR_le; lia).
  assert (HN : near (F_half_below cz) ((10 * IZR cz - 5) / 100) nano).
  { apply (near_div_exact (F_ofZ (10 * cz - 5)) (F_ofZ 100) (10 * IZR cz - 5) (IZR 100)); [|apply near_ofZ; lia|lra|lra].
    eapply near_eq; [apply near_ofZ; lia|]. rewrite minus_IZR, mult_IZR. reflexivity. }
  assert (BC : below lo cz = Z.to_nat (cz - lo) \/ below lo cz = (Z.to_nat (cz - lo) + 1)%nat).
  { unfold below. destruct (ltb _ _); auto. }
  assert (BE : k = Z.to_nat (cz - lo) -> ltb (edge lo k) (t cz) = Nat.ltb k (below lo cz)).
  { intros ->. unfold below. destruct (ltb _ _); symmetry; [apply Nat.ltb_lt; lia|apply Nat.ltb_irrefl]. }
  destruct (Z.lt_ge_cases (lo + Z.of_nat k) cz) as [L|L].
  - assert (G : (IZR (lo + Z.of_nat k + 1) <= IZR cz)%R) by (apply IZR_le; lia). rewrite (plus_IZR (lo + Z.of_nat k) 1) in G. split.
    + transitivity true; [refine (near_ltb _ _ _ _ _ _ EN HN _); lra|symmetry; apply Nat.ltb_lt; lia].
    + transitivity true; [refine (near_ltb _ _ _ _ _ _ EN TN _); lra|symmetry; apply Nat.ltb_lt; lia].
  - assert (G : (IZR cz <= IZR (lo + Z.of_nat k))%R) by (apply IZR_le; lia). split.
    + transitivity false; [refine (near_nltb _ _ _ _ _ _ EN HN _); lra|symmetry; apply Nat.ltb_ge; lia].
    + destruct (Nat.eq_dec k (Z.to_nat (cz - lo))) as [Q|Q]; [auto|].
      assert (G' : (IZR (cz + 1) <= IZR (lo + Z.of_nat k))%R) by (apply IZR_le; lia). rewrite plus_IZR in G'.
      transitivity false; [refine (near_nltb _ _ _ _ _ _ EN TN _); lra|symmetry; apply Nat.ltb_ge; lia].
Qed.

Lemma round1_kept : forall z, (0 <= z <= 100)%Z -> round1 (t z) = t z.
Proof.
  intros z H. pose proof check_rounds as C. rewrite forallb_forall in C. apply same_float_eq. exact (C z (in_zrange 0 100 z H)).
Qed.

(** ** The counts *)
Lemma tper_ok : forall (ymax : F) table mg, table <> [] -> exists v, weichert_tper ymax table mg = Ok v.
Proof.
  intros ymax table mg N. unfold weichert_tper.
  destruct (last_opt (nonzero _)) as [k|] eqn:E.
  - apply last_nonzero_max in E. destruct E as (E & _). apply nth_error_map_inv in E. destruct E as (r & E & _). rewrite E. eauto.
  - destruct (last_opt table) as [r|] eqn:L; eauto. apply last_opt_none in L. contradiction.
Qed.

Section Rows.
Variables (rowm : Z -> F) (th : Z -> Z -> nat).
Hypothesis th_ok : forall lo cz k, (40 <= lo <= 100)%Z -> (0 <= cz <= 100)%Z -> (k < 64)%nat ->
  ltb (edge lo k) (rowm cz) = Nat.ltb k (th lo cz).

Lemma prep_counts : forall (evs rows : list (Z * Z)), evs <> [] -> rows <> [] ->
  (forall e, In e evs -> yr_ok (fst e) /\ (40 <= snd e <= 100)%Z) ->
  (forall r, In r rows -> yr_ok (fst r) /\ (0 <= snd r <= 100)%Z) ->
  exists ylo lo n cent tper nobs, smallest ylo (map fst evs) /\ smallest lo (map snd evs) /\
    weichert_prep (map (fun e => yv (fst e)) evs) (map (fun e => t (snd e)) evs)
      (map (fun r => (yv (fst r), rowm (snd r))) rows) (t 1%Z) (yv 1%Z) = Ok (cent, tper, nobs) /\
    (forall e, In e evs -> (Z.to_nat (snd e - lo) < n)%nat) /\
    nobs = map (fun i => count (fun e => Nat.eqb i (Z.to_nat (snd e - lo)) &&
             negb (existsb (fun r => Nat.ltb (Z.to_nat (fst e - ylo)) (Z.to_nat (fst r - ylo)) && Nat.ltb i (th lo (snd r))) rows)) evs)
           (seq 0 n).
Proof.
  intros evs rows NE NR HE HR.
  assert (NY : map fst evs <> []) by (destruct evs; [contradiction|discriminate]).
  assert (NZ : map snd evs <> []) by (destruct evs; [contradiction|discriminate]).
  assert (HY : forall z, In z (map fst evs) -> yr_ok z) by (intros z I; apply in_map_iff in I; destruct I as (e & <- & I); now apply HE).
  assert (HZ : forall z, In z (map snd evs) -> (40 <= z <= 100)%Z) by (intros z I; apply in_map_iff in I; destruct I as (e & <- & I); now apply HE).
  destruct (minv_ints yv yr_ok yr_ltb _ NY HY) as (ylo & (YI & YL) & YM).
  destruct (maxv_ints yv yr_ok yr_ltb _ NY HY) as (yhi & YI' & YH & YX).
  assert (TL : forall a b, (40 <= a <= 100)%Z -> (40 <= b <= 100)%Z -> ltb (t a) (t b) = Z.ltb a b) by (intros; apply tenth_ltb; lia).
  destruct (minv_ints t _ TL _ NZ HZ) as (lo & (MI & ML) & MM).
  destruct (maxv_ints t _ TL _ NZ HZ) as (hi & MI' & MH & MX).
  assert (B1 := HZ lo MI). assert (B2 := HZ hi MI'). assert (B3 := ML hi MI').
  destruct (mag_len lo hi ltac:(lia) ltac:(lia)) as (L1 & L2).
  set (mlen := arange_len (t lo) (mag_stop hi) (t 1%Z)) in *.
  unfold weichert_prep.
  assert (EY : map (fun e => yv (fst e)) evs = map yv (map fst evs)) by (now rewrite map_map).
  assert (ET : map (fun e => t (snd e)) evs = map t (map snd evs)) by (now rewrite map_map).
  assert (ER : map round1 (map (fun e => t (snd e)) evs) = map t (map snd evs)).
  { rewrite !map_map. apply map_ext_in. intros e I. apply round1_kept. specialize (HE e I). lia. }
  rewrite ER, EY, YM, YX. cbn [bind]. rewrite MM, MX. cbn [bind].
  set (ti := arange (yv ylo) (add (yv yhi) (mul (lit 15 10) (yv 1%Z))) (yv 1%Z)).
  set (mi := arange (t lo) (add (t hi) (mul (lit 15 10) (t 1%Z))) (t 1%Z)).
  assert (BY1 := HY _ YI). assert (BY2 := HY _ YI'). assert (BY3 := YL _ YI').
  assert (TI : ti = map (arange_at (yv ylo) (yv 1%Z)) (seq 0 (Z.to_nat (yhi - ylo + 2)))).
  { unfold ti, arange. rewrite grid_years by auto. reflexivity. }
  assert (MI2 : mi = map (edge lo) (seq 0 mlen)) by reflexivity.
  assert (LTI : length ti = Z.to_nat (yhi - ylo + 2)) by (rewrite TI, map_length, seq_length; reflexivity).
  assert (LMI : length mi = mlen) by (rewrite MI2, map_length, seq_length; reflexivity).
  rewrite LMI.
  destruct (mapM_ok _ _ (fun i => weichert_tper (yv yhi) (map (fun r => (yv (fst r), rowm (snd r))) rows) (nth i mi (ofZ 0%Z))) (seq 0 (mlen - 1))) as (tper & EP).
  { intros i _. apply tper_ok. destruct rows; [contradiction|discriminate]. }
  rewrite EP. cbn [bind].
  exists ylo, lo, (mlen - 1)%nat. do 3 eexists. split; [split; auto|]. split; [split; auto|]. split; [reflexivity|]. split.
  { intros e I. assert (X := in_map snd _ _ I). assert (Y := ML _ X). assert (W := MH _ X). lia. }
  apply map_ext_in. intros i I. apply in_seq in I.
  rewrite <- EY, <- ET.
  apply (weichert_counts_gen ti mi (Z * Z) (fun r => (yv (fst r), rowm (snd r))) (fun r => Z.to_nat (fst r - ylo)) (fun r => th lo (snd r))
    (Z * Z) (fun e => yv (fst e)) (fun e => t (snd e)) (fun e => Z.to_nat (fst e - ylo)) (fun e => Z.to_nat (snd e - lo))).
  - intros e Ie. assert (X := in_map fst _ _ Ie). assert (Y1 := YL _ X). assert (Y2 := YH _ X).
    assert (X2 := in_map snd _ _ Ie). assert (Z1 := ML _ X2). assert (Z2 := MH _ X2). destruct (HE e Ie) as (HE1 & HE2).
    rewrite LTI, LMI. split; [lia|]. split.
    + intros a A. rewrite TI. apply in_bin_years; auto.
    + intros b B. rewrite MI2.
      destruct (edge_leb lm lo (snd e) 0 ltac:(lia) ltac:(lia) ltac:(lia)) as (_ & _ & _ & JB).
      rewrite <- JB by lia. apply in_bin_edges; try lia.
  - intros r Ir. destruct (HR r Ir) as (R1 & R2). cbn [fst snd]. split.
    + intros a x A. rewrite TI in A. refine (year_below _ _ _ _ _ BY1 R1 _ A). unfold yr_ok in *. lia.
    + intros b x B. rewrite MI2 in B. assert (BL := nth_error_lt _ _ _ _ B). rewrite map_length, seq_length in BL.
      rewrite nth_error_map, nth_error_seq in B by auto. cbn [option_map Nat.add] in B. injection B as <-. apply th_ok; lia.
  - lia.
Qed.
End Rows.

Lemma sum_counts : forall A (j : A -> nat) (p : A -> bool) n l, (forall a, In a l -> (j a < n)%nat) ->
  list_sum (map (fun k => count (fun a => Nat.eqb k (j a) && p a) l) (seq 0 n)) = count p l.
Proof.
  intros A j p n l H. rewrite list_sum_nsum, nsum_count_swap. apply nsum_indicator. intros a I. specialize (H a I).
  replace n with (j a + S (n - j a - 1))%nat by lia. rewrite seq_app, count_app. cbn [seq Nat.add]. rewrite count_cons, Nat.eqb_refl. cbn [andb].
  rewrite !count_none; [destruct (p a); auto| |]; intros k K; apply in_seq in K; rewrite (proj2 (Nat.eqb_neq k (j a))) by lia; reflexivity.
Qed.

Lemma count_le : forall A (p q : A -> bool) l, (forall a, In a l -> p a = true -> q a = true) -> (count p l <= count q l)%nat.
Proof.
  intros A p q l. induction l as [|a l IH]; intros H; [reflexivity|]. rewrite !count_cons. assert (IL := IH (fun b I => H b (or_intror I))).
  assert (HA := H a (or_introl eq_refl)). destruct (p a); [rewrite HA by reflexivity|destruct (q a)]; lia.
Qed.

Lemma negb_existsb : forall A (p : A -> bool) l, negb (existsb p l) = forallb (fun a => negb (p a)) l.
Proof. induction l as [|a l IH]; [reflexivity|]. cbn [existsb forallb]. now rewrite negb_orb, IH. Qed.

Lemma forallb_ext_in : forall A (p q : A -> bool) l, (forall a, In a l -> p a = q a) -> forallb p l = forallb q l.
Proof. intros A p q l. induction l as [|a l IH]; intros H; [reflexivity|]. cbn [forallb]. rewrite H by (now left). rewrite IH; auto. intros; apply H; now right. Qed.

Lemma C123_half_proof : forall (evs rows : list (Z * Z)), evs <> [] -> rows <> [] ->
  (forall e, In e evs -> (Z.abs (fst e) <= 1000000)%Z /\ (40 <= snd e <= 100)%Z) ->
  (forall r, In r rows -> (Z.abs (fst r) <= 1000000)%Z /\ (0 <= snd r <= 100)%Z) ->
  exists lo cent tper nobs, smallest lo (map snd evs) /\
    weichert_prep (map (fun e => yv (fst e)) evs) (map (fun e => t (snd e)) evs)
      (map (fun r => (yv (fst r), F_half_below (snd r) : F)) rows) (t 1%Z) (yv 1%Z) = Ok (cent, tper, nobs) /\
    (forall i n, nth_error nobs i = Some n -> n = covered_at covers rows (lo + Z.of_nat i) evs) /\
    list_sum nobs = covered covers rows evs.
Proof.
  intros evs rows NE NR HE HR.
  destruct (prep_counts (fun z => F_half_below z) (fun lo cz => Z.to_nat (cz - lo)) (fun lo cz k A B K => proj1 (mag_below lo cz k A B K))
    evs rows NE NR HE HR) as (ylo & lo & n & cent & tper & nobs & SY & SM & E & J & EN).
  exists lo, cent, tper, nobs. split; [exact SM|]. split; [exact E|]. clear E.
  assert (EQ : forall i e, In e evs -> (Nat.eqb i (Z.to_nat (snd e - lo)) &&
     negb (existsb (fun r => Nat.ltb (Z.to_nat (fst e - ylo)) (Z.to_nat (fst r - ylo)) && Nat.ltb i (Z.to_nat (snd r - lo))) rows))
     = (Nat.eqb i (Z.to_nat (snd e - lo)) && forallb (fun r => covers r e) rows)).
  { intros i e I. destruct (Nat.eqb_spec i (Z.to_nat (snd e - lo))) as [->|N]; [|reflexivity]. cbn [andb]. rewrite negb_existsb.
    assert (A := proj2 SY _ (in_map fst _ _ I)). assert (B := proj2 SM _ (in_map snd _ _ I)).
    apply forallb_ext_in. intros r _. unfold covers.
    destruct (Nat.ltb_spec (Z.to_nat (fst e - ylo)) (Z.to_nat (fst r - ylo))); destruct (Nat.ltb_spec (Z.to_nat (snd e - lo)) (Z.to_nat (snd r - lo)));
      destruct (Z.leb_spec (fst r) (fst e)); destruct (Z.leb_spec (snd r) (snd e)); cbn; auto; lia. }
  split.
  - intros i x H. rewrite EN in H. assert (L := nth_error_lt _ _ _ _ H). rewrite map_length, seq_length in L.
    rewrite nth_error_map, nth_error_seq in H by auto. cbn [option_map Nat.add] in H. injection H as <-.
    rewrite (count_ext _ _ _ _ (EQ i)). unfold covered_at. apply (count_ext _ _ (fun e => Z.eqb (lo + Z.of_nat i) (snd e) && forallb (fun r => covers r e) rows)).
    intros e I. assert (B := proj2 SM _ (in_map snd _ _ I)). f_equal.
    destruct (Nat.eqb_spec i (Z.to_nat (snd e - lo))); destruct (Z.eqb_spec (lo + Z.of_nat i) (snd e)); auto; lia.
  - rewrite EN. rewrite (map_ext _ (fun i => count (fun e => Nat.eqb i (Z.to_nat (snd e - lo)) && forallb (fun r => covers r e) rows) evs))
      by (intros i; apply count_ext, EQ).
    apply (sum_counts _ (fun e => Z.to_nat (snd e - lo)) (fun e => forallb (fun r => covers r e) rows)). exact J.
Qed.

Lemma below_cases : forall lo cz, (40 <= lo <= 100)%Z -> (0 <= cz <= 100)%Z ->
  (Z.to_nat (cz - lo) <= below lo cz)%nat /\ (forall i, (i < below lo cz)%nat -> (lo + Z.of_nat i <= cz)%Z).
Proof.
  intros lo cz L C. unfold below. destruct (ltb (edge lo (Z.to_nat (cz - lo))) (t cz)) eqn:E.
  - split; [lia|]. intros i I. destruct (Z.le_gt_cases lo cz) as [G|G]; [lia|]. exfalso.
    replace (Z.to_nat (cz - lo)) with 0%nat in E by lia. cbn [TenthBins.edge arange_at] in E. change (ltb (t lo) (t cz) = true) in E.
    assert (X := tenth_ltb lm lo cz ltac:(lia) C). assert (X2 := eq_trans (eq_sym X) E). apply Z.ltb_lt in X2. lia.
  - split; [lia|]. intros i I. lia.
Qed.

Lemma C123_tenths_proof : forall (evs rows : list (Z * Z)), evs <> [] -> rows <> [] ->
  (forall e, In e evs -> (Z.abs (fst e) <= 1000000)%Z /\ (40 <= snd e <= 100)%Z) ->
  (forall r, In r rows -> (Z.abs (fst r) <= 1000000)%Z /\ (0 <= snd r <= 100)%Z) ->
  exists lo cent tper nobs, smallest lo (map snd evs) /\
    weichert_prep (map (fun e => yv (fst e)) evs) (map (fun e => t (snd e)) evs)
      (map (fun r => (yv (fst r), t (snd r))) rows) (t 1%Z) (yv 1%Z) = Ok (cent, tper, nobs) /\
    (forall i n, nth_error nobs i = Some n ->
       (covered_at covers_above rows (lo + Z.of_nat i) evs <= n <= covered_at covers rows (lo + Z.of_nat i) evs)%nat) /\
    (covered covers_above rows evs <= list_sum nobs <= covered covers rows evs)%nat.
Proof.
  intros evs rows NE NR HE HR.
  destruct (prep_counts t below (fun lo cz k A B K => proj2 (mag_below lo cz k A B K))
    evs rows NE NR HE HR) as (ylo & lo & n & cent & tper & nobs & SY & SM & E & J & EN).
  exists lo, cent, tper, nobs. split; [exact SM|]. split; [exact E|]. clear E.
  assert (BL : (40 <= lo <= 100)%Z) by (destruct SM as (I & _); apply in_map_iff in I; destruct I as (e & <- & I); now apply HE).
  set (kept := fun i (e : Z * Z) => negb (existsb (fun r => Nat.ltb (Z.to_nat (fst e - ylo)) (Z.to_nat (fst r - ylo)) && Nat.ltb i (below lo (snd r))) rows)).
  assert (EQ : forall i e, In e evs -> i = Z.to_nat (snd e - lo) ->
     (forallb (fun r => covers_above r e) rows = true -> kept i e = true) /\ (kept i e = true -> forallb (fun r => covers r e) rows = true)).
  { intros i e I ->. unfold kept. rewrite negb_existsb, !forallb_forall.
    assert (A := proj2 SY _ (in_map fst _ _ I)). assert (B := proj2 SM _ (in_map snd _ _ I)).
    split; intros H r Ir; specialize (H r Ir); destruct (HR r Ir) as (_ & RZ); destruct (below_cases lo (snd r) BL RZ) as (B1 & B2).
    - unfold covers_above in H. apply negb_true_iff, andb_false_iff. apply orb_true_iff in H. destruct H as [H|H].
      + left. apply Z.leb_le in H. apply Nat.ltb_ge. lia.
      + right. apply Z.ltb_lt in H. apply Nat.ltb_ge. apply Nat.nlt_ge. intros Q. apply B2 in Q. lia.
    - unfold covers. apply negb_true_iff, andb_false_iff in H. apply orb_true_iff. destruct H as [H|H]; apply Nat.ltb_ge in H.
      + left. apply Z.leb_le. lia.
      + right. apply Z.leb_le. lia. }
  assert (ZE : forall i e, In e evs -> Z.eqb (lo + Z.of_nat i) (snd e) = Nat.eqb i (Z.to_nat (snd e - lo))).
  { intros i e I. assert (B := proj2 SM _ (in_map snd _ _ I)).
    destruct (Nat.eqb_spec i (Z.to_nat (snd e - lo))); destruct (Z.eqb_spec (lo + Z.of_nat i) (snd e)); auto; lia. }
  assert (EI : forall i, (covered_at covers_above rows (lo + Z.of_nat i) evs <= count (fun e => Nat.eqb i (Z.to_nat (snd e - lo)) && kept i e) evs
      <= covered_at covers rows (lo + Z.of_nat i) evs)%nat).
  { intros i. split.
    - apply (count_le _ (fun e => Z.eqb (lo + Z.of_nat i) (snd e) && forallb (fun r => covers_above r e) rows)). intros e I. rewrite ZE by auto.
      rewrite !andb_true_iff. intros (P & Q). split; auto. apply Nat.eqb_eq in P. now apply (EQ i e I P).
    - apply (count_le _ _ (fun e => Z.eqb (lo + Z.of_nat i) (snd e) && forallb (fun r => covers r e) rows)). intros e I. rewrite ZE by auto.
      rewrite !andb_true_iff. intros (P & Q). split; auto. apply Nat.eqb_eq in P. now apply (EQ i e I P). }
  assert (ENK : nobs = map (fun i => count (fun e => Nat.eqb i (Z.to_nat (snd e - lo)) && kept i e) evs) (seq 0 n)) by exact EN. clear EN.
  split.
  - intros i x H. rewrite ENK in H. assert (L := nth_error_lt _ _ _ _ H). rewrite map_length, seq_length in L.
    rewrite nth_error_map, nth_error_seq in H by auto. cbn [option_map Nat.add] in H. injection H as <-. apply EI.
  - assert (SC : forall cov, covered cov rows evs = list_sum (map (fun i => covered_at cov rows (lo + Z.of_nat i) evs) (seq 0 n))).
    { intros cov. transitivity (list_sum (map (fun i => count (fun e => Nat.eqb i (Z.to_nat (snd e - lo)) && forallb (fun r => cov r e) rows) evs) (seq 0 n))).
      - symmetry. apply (sum_counts _ (fun e => Z.to_nat (snd e - lo)) (fun e => forallb (fun r => cov r e) rows)). exact J.
      - f_equal. apply map_ext. intros i. symmetry.
        apply (count_ext _ (fun e => Z.eqb (lo + Z.of_nat i) (snd e) && forallb (fun r => cov r e) rows)). intros e I. now rewrite ZE. }
    rewrite !SC, ENK. clear - EI. split; induction (seq 0 n) as [|k l IL]; cbn [map list_sum fold_right]; auto;
      apply Nat.add_le_mono; auto; apply EI.
Qed.
End FL.
