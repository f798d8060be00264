(** The round trips of C11 and C61 for CPython's float(), repr() and str(). *)
From Coq Require Import ZArith Bool Ascii String List Lia Reals Lra.
From Coq Require Import Floats.SpecFloat.
From Flocq Require Import Core IEEE754.BinarySingleNaN.
From Verif Require Import Base Ops FloatOps PyStr Csv EqCatalog PyStrProofs CsvProofs EqCatSpec EqCatRow EqCatFile EqCatRound EqCatWitness.
From Verif Require Import SourceModel Nrml NrmlSpec NrmlRead NrmlRound PyFloat PyFloatProofs NrmlFinal PyDecimal PyNearest PyRound FloatSpec.
From Coq Require Import List.
Import ListNotations.

(** ** repr() in catalogue files *)

Lemma py_repr_no_nul : forall x, ~ In chr_nul (py_repr x).
Proof.
  intros x H. destruct (py_repr_visible x) as (_ & F). rewrite Forall_forall in F. specialize (F _ H). unfold visible in F. change (nat_of_ascii chr_nul) with 0%nat in F. lia.
Qed.

Lemma py_num_read : forall s x, py_float s = Some x -> py_float (py_repr x) = Some x /\ ~ In chr_nul (py_repr x).
Proof. intros s x H. split; [apply py_repr_read; eapply py_float_valid; eauto|apply py_repr_no_nul]. Qed.

Lemma py_num_zero : forall lm, py_float (py_repr (@ofZ (FOps lm) 0)) = Some (@ofZ (FOps lm) 0) /\ ~ In chr_nul (py_repr (@ofZ (FOps lm) 0)).
Proof. intros lm. split; [vm_compute; reflexivity|apply py_repr_no_nul]. Qed.

Lemma C11_cpython_proof : forall lm now content es sel, @read_eq_catalog (FOps lm) py_float now cpython_order content = Ok es ->
  incl sel es -> Forall ellipse_consistent sel ->
  exists out, @write_rows (FOps lm) py_repr sel = Ok out /\ @read_eq_catalog (FOps lm) py_float now cpython_order out = Ok sel.
Proof.
  intros lm now content es sel. apply (@C11_proof (FOps lm) py_float py_repr now cpython_order cpython_rearranges).
  - exact py_num_read.
  - apply py_num_zero.
  - reflexivity.
Qed.

(** ** str() in source models *)

Lemma twelve_digits_decimal : forall x, twelve_digits x -> exists neg M E, (0 <= M < 10 ^ 12)%Z /\ (-300 <= E <= 290)%Z /\ x = F_decimal neg M E.
Proof.
  intros x [(s & ->)|(V & FI & M & E & (NZ & MB & EB) & RX)].
  { exists s, 0%Z, 0%Z. split; [lia|]. split; [lia|]. reflexivity. }
  set (neg := (M <? 0)%Z). exists neg, (Z.abs M), E. split; [lia|]. split; auto.
  assert (VU : (IZR (Z.abs M) * bpow ten E < bpow ten 305)%R).
  { apply Rlt_le_trans with (bpow ten 12 * bpow ten E)%R.
    - apply Rmult_lt_compat_r; [apply bpow_gt_0|]. rewrite <- IZR_pow10 by lia. apply IZR_lt. lia.
    - rewrite <- bpow_plus. apply bpow_le. lia. }
  destruct (decimal_finite neg (Z.abs M) E ltac:(lia) ltac:(lia) VU ltac:(lia)) as (m & e & -> & VD & EX & _).
  assert (RX' : SF2R radix2 x = SF2R radix2 (S754_finite neg m e)).
  { rewrite RX. unfold nearest64. change powers_of_ten with ten. cbn [SF2R]. unfold neg in *. destruct (Z.ltb_spec M 0) as [L|L].
    - cbn [cond_Zopp]. rewrite F2R_Zopp, EX, Z.abs_neq, opp_IZR by lia. rewrite <- round_NE_opp. f_equal. ring.
    - cbn [cond_Zopp]. rewrite EX, Z.abs_eq by lia. reflexivity. }
  destruct x as [s|s| |s m' e']; try discriminate FI.
  - exfalso. cbn [SF2R] in RX'. assert (P : (0 < F2R (Float radix2 (Zpos m) e))%R) by (apply F2R_gt_0; reflexivity).
    destruct neg; cbn [cond_Zopp] in RX'; [rewrite F2R_Zopp in RX'|]; lra.
  - pose proof (B2R_inj prec64 emax64 (B754_finite s m' e' V) (B754_finite neg m e VD) eq_refl eq_refl RX') as H.
    apply (f_equal B2SF) in H. exact H.
Qed.

Lemma py_str_keeps : forall x, twelve_digits x -> py_float (py_str x) = Some x.
Proof. intros x H. destruct (twelve_digits_decimal x H) as (neg & M & E & A & B & ->). now apply py_str_read. Qed.

Lemma C61_twelve_proof : forall lm xml_ok indent, accepts_printable xml_ok -> forall s0 ss,
  Forall (writable (AR := FOps lm) xml_ok) (s0 :: ss) ->
  (forall s x, In s (s0 :: ss) -> In x (source_numbers s) -> twelve_digits x) ->
  exists d ss', write_doc (AR := FOps lm) py_str xml_ok (s0 :: ss) = Ok d /\
    read_doc (AR := FOps lm) py_float (reparsed indent 0 d) = (ss', None) /\
    Forall2 (fun s s' => source_shape s' = source_shape s /\ source_numbers s' = source_numbers s) (s0 :: ss) ss'.
Proof.
  intros lm xml_ok indent AP s0 ss W TD.
  destruct (C61_partial_proof (AR := FOps lm) py_float py_str xml_ok indent AP py_str_word s0 ss W) as (d & ss' & H1 & H2 & H3).
  { intros s x I1 I2. exists x. apply py_str_keeps. eauto. }
  exists d, ss'. split; auto. split; auto.
  clear H1 H2 W. revert TD H3. generalize (s0 :: ss). intros l TD H3. induction H3 as [|s s' l l' (A & B) _ IH]; constructor.
  - split; auto. assert (TS : forall x, In x (source_numbers s) -> twelve_digits x) by (intros x I; apply (TD s x); [now left|auto]).
    clear - B TS. induction B as [|x y u w E _ IH]; auto. f_equal.
    + rewrite (py_str_keeps x) in E by (apply TS; now left). injection E as E. auto.
    + apply IH. intros z I. apply TS. now right.
  - apply IH. intros s2 x I. apply TD. now right.
Qed.

(** Decimal literals of at most twelve digits. *)
Lemma literal_twelve : forall neg M E, (0 <= M < 10 ^ 12)%Z -> (-300 <= E <= 290)%Z -> twelve_digits (F_decimal neg M E).
Proof.
  intros neg M E MB EB. destruct (Z.eq_dec M 0) as [->|NM]; [left; now exists neg|right].
  assert (VU : (IZR M * bpow ten E < bpow ten 305)%R).
  { apply Rlt_le_trans with (bpow ten 12 * bpow ten E)%R.
    - apply Rmult_lt_compat_r; [apply bpow_gt_0|]. rewrite <- IZR_pow10 by lia. apply IZR_lt. lia.
    - rewrite <- bpow_plus. apply bpow_le. lia. }
  destruct (decimal_finite neg M E ltac:(lia) ltac:(lia) VU ltac:(lia)) as (m & e & -> & VD & EX & _).
  split; auto. split; auto. exists (if neg then - M else M)%Z, E. split; [destruct neg; lia|].
  unfold nearest64. change powers_of_ten with ten. cbn [SF2R]. destruct neg; cbn [cond_Zopp].
  - rewrite F2R_Zopp, EX, opp_IZR. rewrite <- round_NE_opp. f_equal. ring.
  - exact EX.
Qed.

Lemma is_literal : forall x neg M E, same_float (Some (F_decimal neg M E)) x = true -> (0 <= M < 10 ^ 12)%Z -> (-300 <= E <= 290)%Z -> twelve_digits x.
Proof. intros x neg M E H A B. apply same_float_eq in H. injection H as <-. now apply literal_twelve. Qed.

Lemma C59_cpython_proof : forall lm xml_ok indent, accepts_printable xml_ok -> forall s0 ss,
  Forall (writable (AR := FOps lm) xml_ok) (s0 :: ss) ->
  (forall s, In s (s0 :: ss) -> as_nrml_id s = as_nrml_id s0 /\ as_sm_id s = as_sm_id s0) ->
  (forall s x, In s (s0 :: ss) -> In x (source_numbers s) -> twelve_digits x) ->
  exists d ss', write_doc (AR := FOps lm) py_str xml_ok (s0 :: ss) = Ok d /\
    read_doc (AR := FOps lm) py_float (reparsed indent 0 d) = (ss', None) /\
    map eq_part ss' = map eq_part (s0 :: ss).
Proof.
  intros lm xml_ok indent AP s0 ss W ID TD. apply (C59_proof (AR := FOps lm) py_float py_str xml_ok indent AP py_str_word s0 ss W ID).
  intros s x A B. apply py_str_keeps. eauto.
Qed.
