(** CPython's float() and str() against xs:double. *)
From Coq Require Import ZArith Bool Ascii String List Lia.
From Coq Require Import Floats.SpecFloat.
From Verif Require Import Base Ops FloatOps PyStr PyStrProofs PyFloat PyFloatProofs PyDecimal NrmlSpec NrmlSchema.
Import ListNotations.
Local Open Scope Z_scope.

Lemma dec_digit : forall s, decimal_digits s <-> Forall digit s.
Proof.
  intros s. split; apply Forall_impl; intros c; unfold digit; lia.
Qed.

(** ** Reading *)

Definition xchar (c : ascii) : Prop := plain_char c \/ c = "E"%char.

Lemma digits_x : forall s, Forall digit s -> Forall xchar s.
Proof. intros s. apply Forall_impl. intros c D. left. now left. Qed.
Lemma x_lit : forall c, In c ["."; "e"; "+"; "-"; "E"]%char -> xchar c.
Proof. intros c I. unfold xchar, plain_char. repeat (destruct I as [<-|I]; [tauto|]). destruct I. Qed.
Lemma sign_x : forall g, sign g -> Forall xchar g.
Proof. intros g [->|[->| ->]]; [constructor|constructor; [apply x_lit; cbn; tauto|constructor]|constructor; [apply x_lit; cbn; tauto|constructor]]. Qed.
Lemma decimal_x : forall m, unsigned_decimal m -> Forall xchar m.
Proof.
  intros m [a N A|a b A B N]; [now apply digits_x, dec_digit|].
  apply Forall_app. split; [now apply digits_x, dec_digit|]. constructor; [apply x_lit; cbn; tauto|now apply digits_x, dec_digit].
Qed.

Lemma decimal_head : forall m, unsigned_decimal m -> exists c r, m = c :: r /\ (digit c \/ c = "."%char).
Proof.
  intros m [a N A|a b A B N]; apply dec_digit in A.
  - destruct a as [|c a]; [contradiction|]. exists c, a. split; auto. left. now inversion A.
  - destruct a as [|c a]; [exists "."%char, b; auto|]. exists c, (a ++ "."%char :: b). split; auto. left. now inversion A.
Qed.

Lemma decimal_mantissa : forall m, unsigned_decimal m -> (exists p, mantissa m = Some p) /\ free_of "e"%char m.
Proof.
  intros m [a N A|a b A B N]; apply dec_digit in A.
  - split; [rewrite mantissa_int by auto; eauto|apply free_digits; auto; apply e_no_digit].
  - apply dec_digit in B. split; [|now apply mantissa_free]. destruct a as [|c a]; [|rewrite mantissa_dot by (auto; discriminate); eauto].
    unfold mantissa. rewrite (split_on_app "."%char [] b) by (intros []).
    rewrite split_on_free by (apply free_digits; auto; apply dot_no_digit).
    destruct b as [|d b]; [destruct N; contradiction|]. unfold digits0. rewrite digits_some by auto. eauto.
Qed.

Lemma head_plain : forall c r, digit c \/ c = "."%char -> signed (c :: r) = (false, c :: r) /\
  text_eqb (c :: r) (t "nan") = false /\ text_eqb (c :: r) (t "inf") = false /\ text_eqb (c :: r) (t "infinity") = false.
Proof.
  intros c r [D| ->]; [|repeat split; reflexivity]. split; [now apply digit_first|]. now apply not_word.
Qed.

Lemma sign_signed : forall g m, sign g -> unsigned_decimal m -> forall r, exists neg, signed (g ++ m ++ r) = (neg, m ++ r).
Proof.
  intros g m G M r. destruct (decimal_head m M) as (c & m' & -> & C).
  destruct G as [->|[->| ->]]; [|exists false; reflexivity|exists true; reflexivity].
  exists false. cbn [app]. now apply head_plain.
Qed.

Lemma lower_x : forall c, plain_char c -> lower c = c. Proof. intros c P. now apply lower_plain. Qed.
Lemma map_lower : forall s, Forall plain_char s -> map lower s = s.
Proof. intros s F. induction F as [|c s C _ IH]; auto. cbn [map]. now rewrite IH, lower_x. Qed.

Lemma sign_plain : forall g, sign g -> Forall plain_char g.
Proof. intros g [->|[->| ->]]; [constructor|constructor; [unfold plain_char; tauto|constructor]|constructor; [unfold plain_char; tauto|constructor]]. Qed.
Lemma decimal_plain : forall m, unsigned_decimal m -> Forall plain_char m.
Proof.
  intros m [a N A|a b A B N]; [now apply digits_plain, dec_digit|].
  apply Forall_app. split; [now apply digits_plain, dec_digit|]. constructor; [right; tauto|now apply digits_plain, dec_digit].
Qed.

Lemma xchar_space : forall c, xchar c -> is_space c = false.
Proof. intros c [P| ->]; [now apply lower_plain|reflexivity]. Qed.

Lemma double_chars : forall w, xs_double w -> Forall xchar w \/ In w [t "INF"; t "-INF"; t "NaN"].
Proof.
  intros w [g m G M|g m c h e G M C H N E|s I]; [left|left|now right].
  - apply Forall_app. split; [now apply sign_x|now apply decimal_x].
  - apply dec_digit in E. apply Forall_app. split; [now apply sign_x|]. apply Forall_app. split; [now apply decimal_x|].
    constructor; [apply x_lit; destruct C as [->| ->]; cbn; tauto|]. apply Forall_app. split; [now apply sign_x|now apply digits_x].
Qed.

Lemma chars_trimmed : forall w, Forall (fun c => is_space c = false) w -> trimmed w.
Proof.
  intros w F. split.
  - intros c r ->. now inversion F.
  - intros c r ->. apply Forall_app in F. destruct F as (_ & F). now inversion F.
Qed.

Lemma double_visible : forall w, xs_double w -> Forall (fun c => is_space c = false) w.
Proof.
  intros w D. destruct (double_chars w D) as [F|I]; [revert F; apply Forall_impl, xchar_space|].
  repeat (destruct I as [<-|I]; [repeat constructor|]). destruct I.
Qed.

Theorem py_float_doubles : forall w, xs_double w -> exists v, py_float w = Some v.
Proof.
  intros w D. rewrite py_float_read. rewrite strip_self by (apply chars_trimmed, double_visible; auto).
  destruct D as [g m G M|g m c h e G M C H N E|s I].
  - destruct (sign_signed g m G M []) as (neg & S). rewrite app_nil_r in S.
    rewrite map_app, !map_lower by auto using sign_plain, decimal_plain. rewrite S. unfold read_unsigned.
    destruct (decimal_mantissa m M) as ((p & P) & FE). destruct (decimal_head m M) as (c & m' & Em & Hc).
    assert (W := head_plain c m' Hc). rewrite <- Em in W. destruct W as (_ & -> & -> & ->). cbn [orb].
    rewrite split_on_free by auto. rewrite P. cbn [option_map]. eauto.
  - assert (L : map lower (g ++ m ++ c :: h ++ e) = g ++ m ++ "e"%char :: h ++ e).
    { assert (HE : decimal_digits e) by auto. apply dec_digit in HE. rewrite map_app, map_app. cbn [map]. rewrite map_app.
      rewrite (map_lower g), (map_lower m), (map_lower h), (map_lower e) by auto using sign_plain, decimal_plain, digits_plain.
      do 2 f_equal. destruct C as [->| ->]; reflexivity. }
    rewrite L. destruct (sign_signed g m G M ("e"%char :: h ++ e)) as (neg & S). rewrite S. unfold read_unsigned.
    destruct (decimal_mantissa m M) as ((p & P) & FE). destruct (decimal_head m M) as (c0 & m' & Em & Hc).
    assert (W := head_plain c0 (m' ++ "e"%char :: h ++ e) Hc). rewrite app_comm_cons, <- Em in W.
    destruct W as (_ & -> & -> & ->). cbn [orb]. rewrite split_on_app by auto.
    apply dec_digit in E. assert (FH : free_of "e"%char (h ++ e)).
    { intros I. apply in_app_or in I. destruct I as [I|I].
      - destruct H as [->|[->| ->]]; cbn in I; intuition discriminate.
      - exact (free_digits _ _ E e_no_digit I). }
    rewrite (split_on_free _ _ FH). rewrite P.
    assert (SH : exists xn, signed (h ++ e) = (xn, e)).
    { destruct H as [->|[->| ->]]; [|exists false; reflexivity|exists true; reflexivity]. exists false. cbn [app].
      destruct e as [|d e]; [contradiction|]. apply digit_first. now inversion E. }
    destruct SH as (xn & ->). destruct e as [|d e]; [contradiction|]. rewrite digits_some by auto. eauto.
  - repeat (destruct I as [<-|I]; [eexists; reflexivity|]). destruct I.
Qed.

(** float() reads every xs:double, whatever blanks surround it. *)
Theorem py_reads_doubles : forall lm, @reads_doubles (FOps lm) py_float.
Proof.
  intros lm b w b' B B' D. split; [exact (py_float_doubles w D)|].
  rewrite !py_float_read. rewrite strip_pad by (auto; apply chars_trimmed, double_visible; auto).
  rewrite strip_self by (apply chars_trimmed, double_visible; auto). reflexivity.
Qed.

(** ** Printing *)

Lemma strip_zeros_digits : forall s, Forall digit s -> Forall digit (strip_zeros s).
Proof.
  intros s F. apply Forall_forall. intros c I. unfold strip_zeros in I. apply in_rev in I. apply drop_zeros_in in I.
  rewrite <- in_rev in I. rewrite Forall_forall in F. auto.
Qed.

Lemma print_nonneg : forall z, 0 <= z -> Forall digit (print_int z) /\ print_int z <> [].
Proof.
  intros z P. destruct (Z.eq_dec z 0) as [->|N].
  - split; [repeat constructor; cbn; lia|discriminate].
  - destruct (print_lead z) as (c & s & E & _); [lia|]. split; [apply print_digits; lia|]. rewrite E. discriminate.
Qed.

Lemma layout_double : forall lim d k, 0 <= d -> forall g, sign g -> xs_double (g ++ layout lim d k).
Proof.
  intros lim d k P g G. unfold layout. destruct (print_nonneg d P) as (PD & _). apply strip_zeros_digits in PD.
  set (ds := match strip_zeros (print_int d) with [] => t "0" | x => x end).
  assert (DS : Forall digit ds /\ ds <> []).
  { unfold ds. destruct (strip_zeros (print_int d)); [|split; [auto|discriminate]]. split; [repeat constructor; cbn; lia|discriminate]. }
  clearbody ds. clear PD. destruct DS as (DS & NE). set (l := Z.of_nat (length ds)).
  assert (FZ : forall k, Forall digit (zeros k)) by (intros; apply digits_zeros).
  destruct ((-4 <=? k) && (k <? lim))%bool.
  - destruct (Z.ltb_spec k 0) as [K|K].
    + apply xd_plain; auto. change (t "0." ++ zeros (- k - 1) ++ ds) with (t "0" ++ "."%char :: zeros (- k - 1) ++ ds).
      apply ud_point; [repeat constructor; cbn; lia|apply dec_digit, Forall_app; auto|left; discriminate].
    + destruct (Z.leb_spec l (k + 1)) as [Q|Q].
      * apply xd_plain; auto. replace (ds ++ zeros (k + 1 - l) ++ t ".0") with ((ds ++ zeros (k + 1 - l)) ++ "."%char :: t "0") by (now rewrite <- app_assoc).
        apply ud_point; [apply dec_digit, Forall_app; auto|repeat constructor; cbn; lia|right; discriminate].
      * apply xd_plain; auto. change (t "." ++ skipn (Z.to_nat (k + 1)) ds) with ("."%char :: skipn (Z.to_nat (k + 1)) ds).
        rewrite <- (firstn_skipn (Z.to_nat (k + 1)) ds) in DS. apply Forall_app in DS. destruct DS as (D1 & D2).
        apply ud_point; [now apply dec_digit|now apply dec_digit|left].
        destruct ds as [|c ds]; [contradiction|]. replace (Z.to_nat (k + 1)) with (S (Z.to_nat k)) by lia. discriminate.
  - destruct ds as [|c r]; [contradiction|].
    assert (X : Forall digit (pad_left "0"%char 2 (print_int (Z.abs k))) /\ pad_left "0"%char 2 (print_int (Z.abs k)) <> []).
    { destruct (print_nonneg (Z.abs k)) as (A & B); [lia|]. unfold pad_left. split; [apply Forall_app; split; auto; apply digits_zeros|].
      intros Z. apply app_eq_nil in Z. tauto. }
    destruct X as (X1 & X2). set (x := pad_left "0"%char 2 (print_int (Z.abs k))) in *. clearbody x.
    set (mt := c :: match r with [] => [] | _ :: _ => "."%char :: r end).
    assert (EQ : c :: (match r with [] => [] | _ :: _ => "."%char :: r end) ++ t "e" ++ (if k <? 0 then t "-" else t "+") ++ x =
      mt ++ "e"%char :: (if k <? 0 then t "-" else t "+") ++ x) by (unfold mt; destruct r; reflexivity).
    rewrite EQ. apply xd_exp; auto.
    + unfold mt. inversion DS as [|? ? DC DR]; subst. destruct r as [|c' r].
      * apply ud_int; [discriminate|now apply dec_digit].
      * apply (ud_point [c] (c' :: r)); [apply dec_digit; auto|now apply dec_digit|left; discriminate].
    + unfold sign. destruct (k <? 0); auto.
Qed.

Lemma sig_nonneg : forall n m e, 0 <= n -> 0 <= fst (sig_digits n m e).
Proof.
  intros n m e N. unfold sig_digits. cbn zeta.
  set (num := if 0 <=? e then Z.pos m * 2 ^ e else Z.pos m). set (den := if 0 <=? e then 1 else 2 ^ (- e)).
  assert (P1 : 0 <= num). { unfold num. destruct (Z.leb_spec 0 e); [|lia]. apply Z.mul_nonneg_nonneg; [lia|apply Z.pow_nonneg; lia]. }
  assert (P2 : 0 < den). { unfold den. destruct (Z.leb_spec 0 e); [lia|]. apply Z.pow_pos_nonneg; lia. }
  assert (DV : forall a b, 0 <= a -> 0 < b -> 0 <= div_even a b).
  { intros a b A B. unfold div_even. assert (0 <= a / b) by (apply Z.div_pos; lia). destruct (2 * (a mod b) ?= b); try lia.
    destruct (Z.even (a / b)); lia. }
  set (k := log10_up _ _ num den). clearbody k num den.
  match goal with |- context [if ?x =? _ then _ else _] => set (d := x) end.
  assert (D : 0 <= d).
  { unfold d. destruct (Z.leb_spec 0 (n - 1 - k)).
    - apply DV; auto. apply Z.mul_nonneg_nonneg; auto. apply Z.pow_nonneg; lia.
    - apply DV; auto. apply Z.mul_pos_pos; auto. apply Z.pow_pos_nonneg; lia. }
  clearbody d. destruct (d =? 10 ^ n); cbn [fst]; auto. apply Z.pow_nonneg. lia.
Qed.

Definition finite (x : spec_float) : Prop := match x with S754_zero _ | S754_finite _ _ _ => True | _ => False end.

(** str(x) is an xs:double exactly when x is finite. *)
Theorem py_str_double : forall x, xs_double (py_str x) <-> finite x.
Proof.
  intros x. split.
  - assert (B : forall s, In s [t "inf"; t "-inf"; t "nan"] -> ~ xs_double s).
    { intros s I D. destruct (double_chars s D) as [F|J].
      - rewrite Forall_forall in F. assert (N : xchar "n"%char) by (apply F; repeat (destruct I as [<-|I]; [cbn; tauto|]); destruct I).
        destruct N as [[N|N]|N]; [unfold digit in N; cbn in N; lia| |discriminate]. intuition discriminate.
      - repeat (destruct I as [<-|I]; [cbn in J; intuition discriminate|]). destruct I. }
    destruct x as [s|s| |s m e]; cbn [finite]; auto.
    + intros D. apply (B (py_str (S754_infinity s))); auto. destruct s; cbn; tauto.
    + intros D. apply (B (py_str S754_nan)); auto. cbn. tauto.
  - destruct x as [s|s| |s m e]; cbn [finite]; try contradiction; intros _.
    + assert (Z : xs_double (t "0.0") /\ xs_double (t "-0.0")).
      { assert (U : unsigned_decimal (t "0.0")).
        { apply (ud_point (t "0") (t "0")); [repeat constructor; cbn; lia|repeat constructor; cbn; lia|left; discriminate]. }
        split; [apply (xd_plain [] (t "0.0")); auto; now left|apply (xd_plain (t "-") (t "0.0")); auto; right; now right]. }
      unfold py_str, format_g. destruct s; tauto.
    + unfold py_str, format_g. assert (S := sig_nonneg 12 m e). destruct (sig_digits 12 m e) as (d, k). cbn [fst] in S.
      apply layout_double; [lia|]. unfold sign. destruct s; auto.
Qed.
