(** The texts printed by str() and repr() of a float, read by float(): which decimal number they
    stand for. *)
From Coq Require Import ZArith Bool Ascii String List Lia Decimal DecimalFacts DecimalPos DecimalZ DecimalString.
From Coq Require Import Floats.SpecFloat.
From Verif Require Import Base Ops FloatOps PyStr PyStrProofs PyFloat.
From Coq Require Import List.
Import ListNotations.
Local Open Scope Z_scope.

(** ** Digits *)

Lemma decimal_from : forall s z, fold_left (fun n c => 10 * n + (Z.of_nat (nat_of_ascii c) - 48)) s z =
  z * 10 ^ Z.of_nat (length s) + decimal_value s.
Proof.
  unfold decimal_value. induction s as [|c s IH]; intros z; [cbn; lia|].
  cbn [fold_left length]. rewrite IH. rewrite (IH (10 * 0 + _)). rewrite Nat2Z.inj_succ, Z.pow_succ_r by lia. lia.
Qed.

Lemma decimal_app : forall a b, decimal_value (a ++ b) = decimal_value a * 10 ^ Z.of_nat (length b) + decimal_value b.
Proof. intros a b. unfold decimal_value at 1. rewrite fold_left_app. apply decimal_from. Qed.

Lemma decimal_bounds : forall s, Forall digit s -> 0 <= decimal_value s < 10 ^ Z.of_nat (length s).
Proof.
  induction s as [|c s IH] using rev_ind; intros F; [cbn; lia|].
  apply Forall_app in F. destruct F as (F & D). inversion D as [|? ? D1 _]; subst. specialize (IH F). unfold digit in D1.
  rewrite decimal_app, app_length. cbn [length]. replace (Z.of_nat (length s + 1)) with (Z.succ (Z.of_nat (length s))) by lia.
  rewrite Z.pow_succ_r by lia. change (Z.of_nat 1) with 1.
  replace (decimal_value [c]) with (Z.of_nat (nat_of_ascii c) - 48) by (unfold decimal_value; cbn [fold_left]; lia).
  assert (X : Z.of_nat (nat_of_ascii c) - 48 <= 9) by lia. assert (Y : 0 <= Z.of_nat (nat_of_ascii c) - 48) by lia. lia.
Qed.

Lemma decimal_zeros : forall k, decimal_value (repeat "0"%char k) = 0.
Proof. intros k. unfold decimal_value. induction k as [|k IH]; cbn; auto. Qed.

Lemma digits_zeros : forall k, Forall digit (repeat "0"%char k).
Proof. intros k. apply Forall_forall. intros c I. apply repeat_spec in I. subst. unfold digit. cbn. lia. Qed.

Lemma print_pos : forall z, 0 < z -> exists u, Z.to_int z = Pos u /\ print_int z = print_uint u.
Proof. intros [|p|p] H; try lia. unfold print_int. cbn [Z.to_int]. eauto. Qed.

Lemma print_digits : forall z, 0 < z -> Forall digit (print_int z) /\ decimal_value (print_int z) = z.
Proof.
  intros z H. destruct (print_pos z H) as (u & U & ->). 
  assert (F : Forall digit (print_uint u)) by (apply Forall_forall; intros c; apply print_uint_digits). split; auto.
  pose proof (digits_value_all _ F) as A. rewrite print_uint_value in A. injection A as <-.
  pose proof (of_to z) as B. rewrite U in B. exact B.
Qed.

Lemma print_lead : forall z, 0 < z -> exists c s, print_int z = c :: s /\ 1 <= Z.of_nat (nat_of_ascii c) - 48.
Proof.
  intros z H. destruct (print_pos z H) as (u & U & ->). 
  pose proof (to_of (Z.to_int z)) as N. rewrite of_to in N. rewrite U in N. cbn [norm] in N. injection N as N.
  unfold unorm in N. destruct (nzhead u) as [|v|v|v|v|v|v|v|v|v|v] eqn:E; subst u;
    try (eexists; eexists; split; [reflexivity|vm_compute; discriminate]).
  - exfalso. assert (z = 0); [|lia]. pose proof (of_to z) as B. rewrite U in B. cbn in B. lia.
  - exfalso. eapply nzhead_nonzero. exact E.
Qed.

Lemma print_length : forall n d, 10 ^ (n - 1) <= d < 10 ^ n -> 0 < n -> Z.of_nat (length (print_int d)) = n.
Proof.
  intros n d (L & U) P. assert (D : 0 < d) by (pose proof (Z.pow_pos_nonneg 10 (n - 1) ltac:(lia) ltac:(lia)); lia).
  destruct (print_digits d D) as (F & V). destruct (print_lead d D) as (c & s & E & C).
  pose proof (decimal_bounds _ F) as B. rewrite V in B.
  assert (n - 1 < Z.of_nat (length (print_int d))) by (apply (Z.pow_lt_mono_r_iff 10); lia).
  rewrite E in *. pose proof (Forall_inv_tail F) as F'. pose proof (decimal_bounds s F') as B'.
  assert (X : d = (Z.of_nat (nat_of_ascii c) - 48) * 10 ^ Z.of_nat (length s) + decimal_value s).
  { rewrite <- V. unfold decimal_value at 1. cbn [fold_left]. rewrite decimal_from. f_equal. }
  assert (Y : 10 ^ Z.of_nat (length s) <= d) by nia.
  assert (Z.of_nat (length s) < n) by (apply (Z.pow_lt_mono_r_iff 10); lia).
  cbn [length] in *. lia.
Qed.

Lemma drop_zeros_split : forall s, exists j, s = repeat "0"%char j ++ drop_zeros s.
Proof.
  induction s as [|c s (j & IH)]; [exists 0%nat; reflexivity|]. cbn [drop_zeros]. destruct (Ascii.eqb_spec c "0"%char) as [->|N].
  - exists (S j). cbn. now rewrite <- IH.
  - exists 0%nat. reflexivity.
Qed.

Lemma rev_repeat : forall {A} (a : A) j, rev (repeat a j) = repeat a j.
Proof.
  intros A a. induction j as [|j IH]; auto. cbn [repeat rev]. rewrite IH. clear IH. induction j as [|j IH]; auto. cbn. now rewrite IH.
Qed.

Lemma strip_zeros_split : forall s, exists j, s = strip_zeros s ++ repeat "0"%char j.
Proof.
  intros s. unfold strip_zeros. destruct (drop_zeros_split (rev s)) as (j & E). exists j.
  rewrite <- (rev_involutive s) at 1. rewrite E at 1. rewrite rev_app_distr, rev_repeat. reflexivity.
Qed.

(** The digits kept, their number, and the value. *)
Lemma kept_digits : forall n d, 10 ^ (n - 1) <= d < 10 ^ n -> 0 < n ->
  exists ds, match strip_zeros (print_int d) with [] => t "0" | x => x end = ds /\
    Forall digit ds /\ ds <> [] /\ Z.of_nat (length ds) <= n /\ 0 < decimal_value ds /\
    d = decimal_value ds * 10 ^ (n - Z.of_nat (length ds)).
Proof.
  intros n d R P. assert (D : 0 < d) by (pose proof (Z.pow_pos_nonneg 10 (n - 1) ltac:(lia) ltac:(lia)); lia).
  pose proof (print_length n d R P) as L. destruct (print_digits d D) as (F & V).
  destruct (strip_zeros_split (print_int d)) as (j & E). set (ds := strip_zeros (print_int d)) in *.
  assert (NE : ds <> []).
  { intros X. rewrite X in E. cbn [app] in E. rewrite E, decimal_zeros in V. lia. }
  exists ds. split; [destruct ds; [contradiction|reflexivity]|].
  rewrite E in F, V, L. apply Forall_app in F. destruct F as (F & _). rewrite app_length, repeat_length in L.
  rewrite decimal_app, decimal_zeros, repeat_length, Z.add_0_r in V.
  split; [auto|]. split; [auto|]. split; [lia|]. split.
  - pose proof (decimal_bounds _ F). destruct (Z.eq_dec (decimal_value ds) 0); [|lia]. rewrite e in V. lia.
  - rewrite <- V. f_equal. f_equal. lia.
Qed.

(** ** Reading *)

(** float(s) once the blanks, the case and the sign are dealt with. *)
Definition read_unsigned (neg : bool) (b : text) : option spec_float :=
  if text_eqb b (t "nan") then Some S754_nan
  else if (text_eqb b (t "inf") || text_eqb b (t "infinity"))%bool then Some (S754_infinity neg)
  else match split_on "e"%char b with
       | [a] => option_map (fun p => F_decimal neg (fst p) (- snd p)) (mantissa a)
       | [a; x] =>
           let '(xneg, xd) := signed x in
           match mantissa a, xd, digits_value xd with
           | Some p, _ :: _, Some xv => Some (F_decimal neg (fst p) ((if xneg then - xv else xv) - snd p))
           | _, _, _ => None
           end
       | _ => None
       end.

Lemma py_float_read : forall s, py_float s = let '(neg, b) := signed (map lower (strip s)) in read_unsigned neg b.
Proof. reflexivity. Qed.

Definition plain_char (c : ascii) : Prop := digit c \/ c = "."%char \/ c = "e"%char \/ c = "+"%char \/ c = "-"%char.

Lemma lower_plain : forall c, plain_char c -> lower c = c /\ is_space c = false.
Proof.
  intros c [D|[->|[->|[->| ->]]]]; try (split; reflexivity).
  apply digit_cases in D. repeat (destruct D as [<-|D]; [split; reflexivity|]). destruct D.
Qed.

Lemma lower_plains : forall s, Forall plain_char s -> map lower (strip s) = s.
Proof.
  intros s F. assert (S1 : strip s = s).
  { apply strip_self. split.
    - intros c r ->. inversion F; subst. now apply lower_plain.
    - intros c r ->. apply Forall_app in F. destruct F as (_ & F). inversion F; subst. now apply lower_plain. }
  rewrite S1. clear S1. induction F as [|c s C F IH]; auto. cbn [map]. rewrite IH. f_equal. now apply lower_plain.
Qed.

Lemma digit_first : forall c s, digit c -> signed (c :: s) = (false, c :: s).
Proof.
  intros c s D. apply digit_cases in D. repeat (destruct D as [<-|D]; [reflexivity|]). destruct D.
Qed.

Lemma not_word : forall c s, digit c -> text_eqb (c :: s) (t "nan") = false /\ text_eqb (c :: s) (t "inf") = false /\ text_eqb (c :: s) (t "infinity") = false.
Proof.
  intros c s D. apply digit_cases in D. repeat (destruct D as [<-|D]; [repeat split; reflexivity|]). destruct D.
Qed.

Lemma digits_plain : forall s, Forall digit s -> Forall plain_char s.
Proof. intros s F. eapply Forall_impl; [|exact F]. intros c D. now left. Qed.

Lemma free_digits : forall c s, Forall digit s -> ~ digit c -> free_of c s.
Proof. intros c s F N I. rewrite Forall_forall in F. exact (N (F c I)). Qed.

Lemma dot_no_digit : ~ digit "."%char. Proof. unfold digit. cbn. lia. Qed.
Lemma e_no_digit : ~ digit "e"%char. Proof. unfold digit. cbn. lia. Qed.

Lemma digits_some : forall s, Forall digit s -> digits_value s = Some (decimal_value s).
Proof. exact digits_value_all. Qed.

Lemma mantissa_int : forall a, Forall digit a -> a <> [] -> mantissa a = Some (decimal_value a, 0).
Proof.
  intros a F N. unfold mantissa. rewrite split_on_free by (apply free_digits; auto; apply dot_no_digit).
  destruct a; [contradiction|]. now rewrite digits_some.
Qed.

Lemma mantissa_dot : forall a b, Forall digit a -> Forall digit b -> a <> [] ->
  mantissa (a ++ "."%char :: b) = Some (decimal_value (a ++ b), Z.of_nat (length b)).
Proof.
  intros a b FA FB N. unfold mantissa. rewrite split_on_app by (apply free_digits; auto; apply dot_no_digit).
  rewrite split_on_free by (apply free_digits; auto; apply dot_no_digit).
  destruct a as [|c a]; [contradiction|]. unfold digits0 at 1. rewrite digits_some by auto.
  assert (D : digits0 b = Some (decimal_value b)) by (destruct b; [reflexivity|now apply digits_some]).
  rewrite D. now rewrite decimal_app.
Qed.

Lemma mantissa_free : forall a b, Forall digit a -> Forall digit b -> free_of "e"%char (a ++ "."%char :: b).
Proof.
  intros a b FA FB I. apply in_app_or in I. destruct I as [I|[I|I]]; [|discriminate|].
  - exact (free_digits _ _ FA e_no_digit I).
  - exact (free_digits _ _ FB e_no_digit I).
Qed.

(** What [layout] prints. *)
Theorem layout_read : forall lim n d k, 10 ^ (n - 1) <= d < 10 ^ n -> 0 < n ->
  exists M E, 0 < M /\
    (forall neg, py_float ((if neg : bool then t "-" else []) ++ layout lim d k) = Some (F_decimal neg M E)) /\
    (exists x y, 0 <= x /\ 0 <= y /\ M * 10 ^ x = d * 10 ^ y /\ E - x = k + 1 - n - y) /\
    Z.min (k + 1 - n) (-1) <= E <= Z.max 0 k.
Proof.
  intros lim n d k R P. destruct (kept_digits n d R P) as (ds & ED & F & NE & LN & V & ->).
  set (D := decimal_value ds) in *. unfold layout. rewrite ED. clear ED R.
  set (l := Z.of_nat (length ds)) in *. assert (L1 : 1 <= l) by (unfold l; destruct ds; [contradiction|cbn [length]; lia]).
  (* enough to read an unsigned text starting with a digit *)
  assert (RED : forall b c r M E, b = c :: r -> digit c -> Forall plain_char b -> (forall neg, read_unsigned neg b = Some (F_decimal neg M E)) ->
    forall neg : bool, py_float ((if neg then t "-" else []) ++ b) = Some (F_decimal neg M E)).
  { intros b c r M E -> DC PB RU neg. rewrite py_float_read. rewrite lower_plains.
    - destruct neg; cbn [app].
      + cbn [t list_ascii_of_string app signed Ascii.eqb Bool.eqb]. apply RU.
      + rewrite digit_first by auto. apply RU.
    - apply Forall_app. split; auto. destruct neg; constructor; [|constructor]. right. tauto. }
  assert (FZ : forall k, Forall digit (zeros k)) by (intros; apply digits_zeros).
  assert (LZ : forall k, 0 <= k -> Z.of_nat (length (zeros k)) = k) by (intros q Q; unfold zeros; rewrite repeat_length; lia).
  assert (ZV : forall k, decimal_value (zeros k) = 0) by (intros; apply decimal_zeros).
  assert (FIX : forall a b, Forall digit a -> Forall digit b -> a <> [] ->
     (exists c r, a ++ "."%char :: b = c :: r /\ digit c) /\ Forall plain_char (a ++ "."%char :: b) /\
     forall neg, read_unsigned neg (a ++ "."%char :: b) = Some (F_decimal neg (decimal_value (a ++ b)) (- Z.of_nat (length b)))).
  { intros a b FA FB NA. destruct a as [|c a]; [contradiction|]. inversion FA as [|? ? DC FA']; subst. split; [cbn [app]; eauto|].
    split.
    - apply Forall_app. split; [now apply digits_plain|]. constructor; [right; tauto|now apply digits_plain].
    - intros neg. unfold read_unsigned. destruct (not_word c (a ++ "."%char :: b) DC) as (N1 & N2 & N3). cbn [app] in *. rewrite N1, N2, N3. cbn [orb].
      change (c :: a ++ "."%char :: b) with ((c :: a) ++ "."%char :: b). rewrite split_on_free by (apply mantissa_free; auto).
      rewrite mantissa_dot by (auto; discriminate). reflexivity. }
  destruct ((-4 <=? k) && (k <? lim))%bool.
  - destruct (Z.ltb_spec k 0) as [K|K].
    + (* 0.000ds *)
      destruct (FIX (t "0") (zeros (- k - 1) ++ ds)) as ((c & r & E1 & DC) & PC & RU).
      { constructor; [unfold digit; cbn; lia|constructor]. } { apply Forall_app; auto. } { discriminate. }
      exists D, (k + 1 - l). split; auto. split.
      { replace (t "0." ++ zeros (- k - 1) ++ ds) with (t "0" ++ "."%char :: zeros (- k - 1) ++ ds) by reflexivity.
        eapply RED; eauto. intros neg. rewrite RU. f_equal. f_equal.
        - rewrite app_assoc. rewrite decimal_app. replace (t "0" ++ zeros (- k - 1)) with (repeat "0"%char (S (Z.to_nat (- k - 1)))) by reflexivity.
          rewrite decimal_zeros. unfold D. lia.
        - rewrite app_length, Nat2Z.inj_add, LZ by lia. unfold l. lia. }
      split; [|lia]. exists (n - l), 0. split; [lia|]. split; [lia|]. split; [|lia]. rewrite Z.pow_0_r. lia.
    + destruct (Z.leb_spec l (k + 1)) as [Q|Q].
      * destruct (FIX (ds ++ zeros (k + 1 - l)) (t "0")) as ((c & r & E1 & DC) & PC & RU).
        { apply Forall_app; auto. } { constructor; [unfold digit; cbn; lia|constructor]. } { destruct ds; [contradiction|discriminate]. }
        exists (D * 10 ^ (k + 1 - l) * 10), (-1). assert (0 < 10 ^ (k + 1 - l)) by (apply Z.pow_pos_nonneg; lia). split; [nia|]. split.
        { replace (ds ++ zeros (k + 1 - l) ++ t ".0") with ((ds ++ zeros (k + 1 - l)) ++ "."%char :: t "0") by (now rewrite <- app_assoc).
          eapply RED; eauto. intros neg. rewrite RU. f_equal. f_equal. rewrite !decimal_app. rewrite ZV.
          change (decimal_value (t "0")) with 0. change (Z.of_nat (length (t "0"))) with 1. rewrite LZ by lia. unfold D. lia. }
        split; [|lia]. exists (n - l), (k + 2 - l). split; [lia|]. split; [lia|]. split; [|lia].
        replace (k + 2 - l) with (Z.succ (k + 1 - l)) by lia. rewrite Z.pow_succ_r by lia. lia.
      * set (q := Z.to_nat (k + 1)). assert (QL : (q < length ds)%nat) by lia.
        pose proof (firstn_skipn q ds) as FS. assert (FF := F). rewrite <- FS in FF. apply Forall_app in FF. destruct FF as (F1 & F2).
        destruct (FIX (firstn q ds) (skipn q ds)) as ((c & r & E1 & DC) & PC & RU); auto.
        { intros X. apply (f_equal (@length ascii)) in X. rewrite firstn_length in X. cbn in X. lia. }
        rewrite FS in RU. exists D, (k + 1 - l). split; auto. split.
        { change (t "." ++ skipn q ds) with ("."%char :: skipn q ds). eapply RED; eauto. intros neg. rewrite RU. f_equal. f_equal.
          rewrite skipn_length. unfold l. lia. }
        split; [|lia]. exists (n - l), 0. split; [lia|]. split; [lia|]. split; [|lia]. rewrite Z.pow_0_r. lia.
  - (* scientific *)
    destruct ds as [|c r]; [contradiction|]. pose proof F as FF. pose proof (Forall_inv FF) as DC. pose proof (Forall_inv_tail FF) as FR.
    set (x := pad_left "0"%char 2 (print_int (Z.abs k))).
    assert (PX : Forall digit x /\ x <> [] /\ decimal_value x = Z.abs k).
    { assert (Y : Forall digit (print_int (Z.abs k)) /\ decimal_value (print_int (Z.abs k)) = Z.abs k).
      { destruct (Z.eq_dec (Z.abs k) 0) as [->|N]; [split; [constructor; [unfold digit; cbn; lia|constructor]|reflexivity]|]. apply print_digits. lia. }
      destruct Y as (Y1 & Y2). unfold x, pad_left. split; [apply Forall_app; split; auto; apply digits_zeros|]. split.
      - intros Z. apply app_eq_nil in Z. destruct Z as (Z1 & Z2). rewrite Z2 in Z1. discriminate.
      - rewrite decimal_app, decimal_zeros. lia. }
    destruct PX as (X1 & X2 & X3).
    set (sg := if k <? 0 then t "-" else t "+").
    set (mt := c :: match r with [] => [] | _ :: _ => "."%char :: r end).
    assert (EM : mantissa mt = Some (D, l - 1) /\ free_of "e"%char mt /\ Forall plain_char mt).
    { unfold mt, D, l. destruct r as [|c' r'].
      - split; [now apply mantissa_int|]. split; [apply free_digits; auto; apply e_no_digit|now apply digits_plain].
      - split; [change (c :: "."%char :: c' :: r') with ([c] ++ "."%char :: c' :: r'); rewrite mantissa_dot; auto; [|discriminate];
                f_equal; f_equal; cbn [length]; lia|].
        split; [apply (mantissa_free [c] (c' :: r')); auto|]. constructor; [now left|]. constructor; [right; tauto|now apply digits_plain]. }
    destruct EM as (M1 & M2 & M3).
    exists D, (k + 1 - l). split; auto. split.
    { assert (EQ : c :: (match r with [] => [] | _ :: _ => "."%char :: r end) ++ t "e" ++ sg ++ x = mt ++ "e"%char :: (sg ++ x)) by (unfold mt; destruct r; reflexivity).
      intros neg. transitivity (py_float ((if neg then t "-" else []) ++ mt ++ "e"%char :: (sg ++ x))); [rewrite <- EQ; reflexivity|].
      apply (RED (mt ++ "e"%char :: (sg ++ x)) c (tl mt ++ "e"%char :: (sg ++ x)) D (k + 1 - l)); auto.
      - apply Forall_app. split; auto. constructor; [right; tauto|]. apply Forall_app. split; [|now apply digits_plain].
        unfold sg. destruct (k <? 0); constructor; auto; right; tauto.
      - clear neg. intros neg. unfold read_unsigned.
        destruct (not_word c (tl mt ++ "e"%char :: (sg ++ x)) DC) as (N1 & N2 & N3).
        change (c :: tl mt ++ "e"%char :: (sg ++ x)) with (mt ++ "e"%char :: (sg ++ x)) in N1, N2, N3. rewrite N1, N2, N3. cbn [orb].
        rewrite split_on_app by auto.
        assert (FE : free_of "e"%char (sg ++ x)).
        { intros I. apply in_app_or in I. destruct I as [I|I]; [unfold sg in I; destruct (k <? 0); destruct I as [I|[]]; discriminate|].
          exact (free_digits _ _ X1 e_no_digit I). }
        rewrite (split_on_free _ _ FE). rewrite M1.
        assert (SX : signed (sg ++ x) = (k <? 0, x)) by (unfold sg; destruct (k <? 0); reflexivity).
        rewrite SX. destruct x as [|cx rx] eqn:XX; [contradiction|]. rewrite <- XX in *. rewrite (digits_some x X1), X3. cbn [fst snd].
        f_equal. f_equal. destruct (Z.ltb_spec k 0); lia. }
    split; [|lia]. exists (n - l), 0. split; [lia|]. split; [lia|]. split; [|lia]. rewrite Z.pow_0_r. lia.
Qed.
