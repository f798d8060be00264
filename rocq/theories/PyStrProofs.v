(** Facts about strip, split, join and decimal integers. *)
From Coq Require Import ZArith Bool Ascii String Decimal DecimalString DecimalZ List Lia.
From Verif Require Import Base PyStr.
Import ListNotations.

Definition blank_text (s : text) : Prop := Forall (fun c => is_space c = true) s.

Lemma lstrip_blank : forall a s, blank_text a -> lstrip (a ++ s) = lstrip s.
Proof. induction a as [|c a IH]; intros s H; simpl; auto. inversion H; subst. rewrite H2. auto. Qed.

Lemma lstrip_split : forall s, exists a, blank_text a /\ s = a ++ lstrip s /\
  (forall c r, lstrip s = c :: r -> is_space c = false).
Proof.
  induction s as [|c s (a & B & E & F)]; simpl.
  - exists []. split; [constructor|]. split; auto. discriminate.
  - destruct (is_space c) eqn:Hc.
    + exists (c :: a). split; [constructor; auto|]. split; auto. simpl. congruence.
    + exists []. split; [constructor|]. split; auto. intros x r H. inversion H. now subst.
Qed.

Lemma blank_rev : forall a, blank_text a -> blank_text (rev a).
Proof. intros a H. apply Forall_rev. exact H. Qed.

(** No blank at either end. *)
Definition trimmed (n : text) : Prop :=
  (forall c r, n = c :: r -> is_space c = false) /\ (forall c r, n = r ++ [c] -> is_space c = false).

Lemma lstrip_trimmed : forall n, (forall c r, n = c :: r -> is_space c = false) -> lstrip n = n.
Proof. intros [|c r] H; simpl; auto. now rewrite (H c r eq_refl). Qed.

Lemma strip_pad : forall a n b, blank_text a -> blank_text b -> trimmed n -> strip (a ++ n ++ b) = n.
Proof.
  intros a n b A B (F & L). unfold strip. rewrite lstrip_blank by auto.
  destruct n as [|c r].
  - simpl. destruct (lstrip_split b) as (b' & B' & E & X). 
    assert (lstrip b = []). { rewrite <- (app_nil_r b). rewrite lstrip_blank; auto. }
    rewrite H. reflexivity.
  - assert (E : lstrip ((c :: r) ++ b) = (c :: r) ++ b) by (simpl; now rewrite (F c r eq_refl)).
    rewrite E. rewrite rev_app_distr. rewrite lstrip_blank by (now apply blank_rev).
    rewrite lstrip_trimmed; [apply rev_involutive|].
    intros x q H. apply (L x (rev q)). rewrite <- (rev_involutive (c :: r)), H. reflexivity.
Qed.

Lemma strip_spec : forall s, exists a b, blank_text a /\ blank_text b /\ s = a ++ strip s ++ b /\ trimmed (strip s).
Proof.
  intros s. unfold strip. destruct (lstrip_split s) as (a & A & E & F).
  destruct (lstrip_split (rev (lstrip s))) as (b & B & E2 & F2).
  exists a, (rev b). split; auto. split; [now apply blank_rev|]. split.
  - rewrite E at 1. f_equal. rewrite <- rev_app_distr, <- E2. now rewrite rev_involutive.
  - split.
    + intros c r H. assert (X : lstrip s = rev (lstrip (rev (lstrip s))) ++ rev b).
      { rewrite <- rev_app_distr, <- E2. now rewrite rev_involutive. }
      rewrite H in X. simpl in X. eapply F. exact X.
    + intros c r H. apply (F2 c (rev r)). rewrite <- (rev_involutive (lstrip (rev (lstrip s)))), H.
      rewrite rev_app_distr. reflexivity.
Qed.

Lemma strip_iff : forall s n, trimmed n ->
  (strip s = n <-> exists a b, blank_text a /\ blank_text b /\ s = a ++ n ++ b).
Proof.
  intros s n H. split.
  - intros <-. destruct (strip_spec s) as (a & b & A & B & E & _). eauto.
  - intros (a & b & A & B & ->). now apply strip_pad.
Qed.

Definition free_of (c : ascii) (s : text) : Prop := ~ In c s.

Lemma split_on_ne : forall sep s, split_on sep s <> [].
Proof.
  induction s as [|c s IH]; simpl; [discriminate|]. destruct (Ascii.eqb c sep); [discriminate|].
  destruct (split_on sep s); [contradiction|discriminate].
Qed.

Lemma split_on_join : forall sep s, join [sep] (split_on sep s) = s /\ Forall (free_of sep) (split_on sep s).
Proof.
  induction s as [|c s (IH & F)]; simpl.
  - split; auto. constructor; [intros []|constructor].
  - destruct (Ascii.eqb c sep) eqn:E.
    + apply Ascii.eqb_eq in E. subst. split.
      * assert (N := split_on_ne sep s). destruct (split_on sep s) eqn:Q; [contradiction|]. simpl in *. now rewrite IH.
      * constructor; auto. intros [].
    + assert (N := split_on_ne sep s). destruct (split_on sep s) as [|p ps]; [contradiction|].
      inversion F as [|? ? F1 F2]; subst. split.
      * destruct ps; simpl in *; congruence.
      * constructor; auto. intros [H|H]; [subst; rewrite Ascii.eqb_refl in E; discriminate|contradiction].
Qed.

Lemma split_on_free : forall sep p, free_of sep p -> split_on sep p = [p].
Proof.
  induction p as [|c p IH]; intros H; simpl; auto.
  destruct (Ascii.eqb c sep) eqn:E.
  - apply Ascii.eqb_eq in E. subst. elim H. now left.
  - rewrite IH; auto. intros X. apply H. now right.
Qed.

Lemma split_on_app : forall sep p s, free_of sep p -> split_on sep (p ++ sep :: s) = p :: split_on sep s.
Proof.
  induction p as [|c p IH]; intros s H; simpl.
  - now rewrite Ascii.eqb_refl.
  - destruct (Ascii.eqb c sep) eqn:E.
    + apply Ascii.eqb_eq in E. subst. elim H. now left.
    + rewrite IH; auto. intros X. apply H. now right.
Qed.

Lemma join_split : forall sep ps, ps <> [] -> Forall (free_of sep) ps -> split_on sep (join [sep] ps) = ps.
Proof.
  induction ps as [|p ps IH]; intros N F; [congruence|]. inversion F; subst. destruct ps as [|q ps].
  - simpl. now apply split_on_free.
  - change (join [sep] (p :: q :: ps)) with (p ++ sep :: join [sep] (q :: ps)).
    rewrite split_on_app by auto. f_equal. apply IH; auto. discriminate.
Qed.

Lemma text_eqb_eq : forall a b, text_eqb a b = true <-> a = b.
Proof.
  induction a as [|x a IH]; intros [|y b]; simpl; split; intros H; try discriminate; auto.
  - apply andb_true_iff in H. destruct H as [H1 H2]. apply Ascii.eqb_eq in H1. apply IH in H2. congruence.
  - inversion H; subst. rewrite Ascii.eqb_refl. now apply IH.
Qed.

(** ** Decimal integers *)
Lemma print_uint_value : forall u, digits_value (print_uint u) = Some (Z.of_uint u).
Proof.
  intros. unfold digits_value, print_uint. rewrite string_of_list_ascii_of_string, NilEmpty.usu. reflexivity.
Qed.

Lemma print_uint_digits : forall u c, In c (print_uint u) -> (48 <= nat_of_ascii c <= 57)%nat.
Proof.
  intros u c. unfold print_uint. induction u; simpl; intros H; try (destruct H as [<-|H]; [vm_compute; lia|auto]).
  destruct H.
Qed.

Lemma digit_not_space : forall c, (48 <= nat_of_ascii c <= 57)%nat -> is_space c = false.
Proof.
  intros c H. unfold is_space. rewrite orb_false_iff, andb_false_iff.
  split; [right; apply Nat.leb_gt; lia|apply Nat.eqb_neq; lia].
Qed.

Lemma to_int_pos_ne : forall z u, Z.to_int z = Pos u -> u <> Nil.
Proof.
  intros z u H E. subst. destruct z; simpl in H; try discriminate.
  assert (X : Pos.to_uint p = Nil) by congruence.
  assert (Y := DecimalPos.Unsigned.to_uint_nonnil p). contradiction.
Qed.
Lemma to_int_neg_ne : forall z u, Z.to_int z = Neg u -> u <> Nil.
Proof.
  intros z u H E. subst. destruct z; simpl in H; try discriminate.
  assert (X : Pos.to_uint p = Nil) by congruence.
  assert (Y := DecimalPos.Unsigned.to_uint_nonnil p). contradiction.
Qed.

Lemma print_uint_ne : forall u, u <> Nil -> print_uint u <> [].
Proof. intros u H. destruct u; simpl; try discriminate. congruence. Qed.

Lemma digits_trimmed : forall s, (forall c, In c s -> (48 <= nat_of_ascii c <= 57)%nat) -> trimmed s.
Proof.
  intros s H. split.
  - intros c r ->. apply digit_not_space. apply H. now left.
  - intros c r ->. apply digit_not_space. apply H. apply in_or_app. right. now left.
Qed.

Lemma strip_self : forall n, trimmed n -> strip n = n.
Proof.
  intros n H. assert (X := strip_pad [] n [] (Forall_nil _) (Forall_nil _) H).
  simpl in X. now rewrite app_nil_r in X.
Qed.

Lemma parse_print_int : forall z, parse_int (print_int z) = Some z.
Proof.
  intros z. assert (V := DecimalZ.of_to z). unfold parse_int, print_int.
  destruct (Z.to_int z) as [u|u] eqn:E.
  - assert (N := print_uint_ne u (to_int_pos_ne z u E)).
    rewrite strip_self by (apply digits_trimmed; apply print_uint_digits).
    assert (D := print_uint_digits u). assert (PV := print_uint_value u).
    destruct (print_uint u) as [|c r]; [contradiction|].
    assert (C := D c (or_introl eq_refl)).
    destruct (Ascii.eqb c "-"%char) eqn:E1. { apply Ascii.eqb_eq in E1. subst. vm_compute in C. lia. }
    destruct (Ascii.eqb c "+"%char) eqn:E2. { apply Ascii.eqb_eq in E2. subst. vm_compute in C. lia. }
    rewrite PV. simpl in V. congruence.
  - assert (N := print_uint_ne u (to_int_neg_ne z u E)).
    assert (Tr : trimmed ("-"%char :: print_uint u)).
    { split.
      - intros c r H. inversion H. reflexivity.
      - intros c r H. destruct r as [|x r]; inversion H; [reflexivity|].
        apply digit_not_space, (print_uint_digits u). rewrite H2. apply in_or_app. right. now left. }
    rewrite strip_self by exact Tr. rewrite Ascii.eqb_refl.
    assert (PV := print_uint_value u). destruct (print_uint u) as [|c r]; [contradiction|].
    rewrite PV. simpl in V. simpl. congruence.
Qed.

Lemma print_int_chars : forall z c, In c (print_int z) -> c = "-"%char \/ (48 <= nat_of_ascii c <= 57)%nat.
Proof.
  intros z c. unfold print_int. destruct (Z.to_int z); intros H.
  - right. eapply print_uint_digits; eauto.
  - destruct H as [<-|H]; auto. right. eapply print_uint_digits; eauto.
Qed.

(** ** What int() accepts *)
Definition digit (c : ascii) : Prop := (48 <= nat_of_ascii c <= 57)%nat.
Definition decimal_value (ds : text) : Z :=
  fold_left (fun n c => 10 * n + (Z.of_nat (nat_of_ascii c) - 48))%Z ds 0%Z.
(** Optional blanks, optional sign, at least one digit, optional blanks. *)
Definition is_int_text (s : text) (z : Z) : Prop :=
  exists a sign ds b, blank_text a /\ blank_text b /\ ds <> [] /\ Forall digit ds /\
    s = a ++ sign ++ ds ++ b /\
    ((sign = [] \/ sign = ["+"%char]) /\ z = decimal_value ds \/ sign = ["-"%char] /\ z = (- decimal_value ds)%Z).

Lemma digit_cases : forall c, digit c -> In c ["0"; "1"; "2"; "3"; "4"; "5"; "6"; "7"; "8"; "9"]%char.
Proof.
  intros c H. unfold digit in H. rewrite <- (ascii_nat_embedding c). set (n := nat_of_ascii c) in *. clearbody n.
  assert (E : n = 48 \/ n = 49 \/ n = 50 \/ n = 51 \/ n = 52 \/ n = 53 \/ n = 54 \/ n = 55 \/ n = 56 \/ n = 57) by lia.
  repeat (destruct E as [->|E]; [vm_compute; tauto|]). subst. vm_compute. tauto.
Qed.

Lemma acc_value : forall ds acc, Forall digit ds -> exists u,
  NilEmpty.uint_of_string (string_of_list_ascii ds) = Some u /\
  Zpos (Pos.of_uint_acc u acc) = fold_left (fun n c => 10 * n + (Z.of_nat (nat_of_ascii c) - 48))%Z ds (Zpos acc).
Proof.
  induction ds as [|c ds IH]; intros acc F.
  - exists Nil. split; reflexivity.
  - inversion F as [|? ? D F']; subst. apply digit_cases in D.
    repeat (destruct D as [<-|D]; [
      match goal with |- context [fold_left _ (?ch :: _) _] =>
        let d := eval vm_compute in (Z.of_nat (nat_of_ascii ch) - 48)%Z in
        destruct (IH (Z.to_pos (10 * Zpos acc + d)) F') as (u & U & V);
        eexists; split; [cbn [string_of_list_ascii NilEmpty.uint_of_string]; rewrite U; reflexivity|];
        cbn [Pos.of_uint_acc fold_left];
        change (Z.of_nat (nat_of_ascii ch) - 48)%Z with d;
        rewrite Z2Pos.id in V by lia; rewrite <- V; f_equal; f_equal; lia
      end|]). destruct D.
Qed.

Lemma digits_value_all : forall ds, Forall digit ds -> digits_value ds = Some (decimal_value ds).
Proof.
  intros ds F. unfold digits_value.
  assert (X : exists u, NilEmpty.uint_of_string (string_of_list_ascii ds) = Some u /\ Z.of_uint u = decimal_value ds).
  { induction ds as [|c ds IH]; [exists Nil; split; reflexivity|].
    inversion F as [|? ? D F']; subst. apply digit_cases in D. destruct D as [<-|D].
    - destruct (IH F') as (u & U & V). eexists. split; [cbn [string_of_list_ascii NilEmpty.uint_of_string]; rewrite U; reflexivity|].
      unfold decimal_value. cbn [fold_left]. exact V.
    - repeat (destruct D as [<-|D]; [
      match goal with |- context [decimal_value (?ch :: _)] =>
        let d := eval vm_compute in (Z.of_nat (nat_of_ascii ch) - 48)%Z in
        destruct (acc_value ds (Z.to_pos d) F') as (u & U & V);
        eexists; split; [cbn [string_of_list_ascii NilEmpty.uint_of_string]; rewrite U; reflexivity|];
        unfold decimal_value; cbn [fold_left];
        change (10 * 0 + (Z.of_nat (nat_of_ascii ch) - 48))%Z with d;
        exact V
      end|]). destruct D. }
  destruct X as (u & -> & V). now rewrite V.
Qed.

Lemma digits_value_only : forall ds v, digits_value ds = Some v -> Forall digit ds.
Proof.
  intros ds v H. unfold digits_value in H.
  destruct (NilEmpty.uint_of_string (string_of_list_ascii ds)) as [u|] eqn:E; [|discriminate]. clear H v.
  apply NilEmpty.sus in E. 
  assert (L : ds = print_uint u) by (unfold print_uint; rewrite E; symmetry; apply list_ascii_of_string_of_list_ascii).
  subst ds. apply Forall_forall. intros c. apply print_uint_digits.
Qed.

Lemma digits_trim : forall ds, Forall digit ds -> trimmed ds.
Proof. intros ds F. apply digits_trimmed. now apply Forall_forall. Qed.

Lemma sign_trim : forall c ds, is_space c = false -> Forall digit ds -> trimmed (c :: ds).
Proof.
  intros c ds H F. split.
  - intros x r E. inversion E. now subst.
  - intros x r E. destruct r as [|y r]; inversion E; subst; auto.
    apply digit_not_space. rewrite Forall_forall in F. apply F. apply in_or_app. right. now left.
Qed.

Lemma parse_int_spec : forall s z, parse_int s = Some z <-> is_int_text s z.
Proof.
  intros s z. split.
  - intros H. destruct (strip_spec s) as (a & b & A & B & E & _). unfold parse_int in H.
    destruct (strip s) as [|c r]; [discriminate|].
    destruct (Ascii.eqb c "-"%char) eqn:M.
    + apply Ascii.eqb_eq in M. subst c. destruct r as [|d r]; [discriminate|].
      destruct (digits_value (d :: r)) as [v|] eqn:V; [|discriminate]. inversion H; subst z.
      assert (F := digits_value_only _ _ V). rewrite digits_value_all in V by auto. inversion V; subst v.
      exists a, ["-"%char], (d :: r), b. split; auto. split; auto. split; [discriminate|]. split; auto.
    + destruct (Ascii.eqb c "+"%char) eqn:P.
      * apply Ascii.eqb_eq in P. subst c. destruct r as [|d r]; [discriminate|].
        assert (F := digits_value_only _ _ H). rewrite digits_value_all in H by auto. inversion H; subst z.
        exists a, ["+"%char], (d :: r), b. split; auto. split; auto. split; [discriminate|]. split; auto.
      * assert (F := digits_value_only _ _ H). rewrite digits_value_all in H by auto. inversion H; subst z.
        exists a, [], (c :: r), b. split; auto. split; auto. split; [discriminate|]. split; auto.
  - intros (a & sign & ds & b & A & B & N & F & -> & C).
    destruct ds as [|d r]; [contradiction|].
    unfold parse_int. destruct C as [([->| ->] & ->)|(-> & ->)].
    + change (a ++ [] ++ (d :: r) ++ b) with (a ++ (d :: r) ++ b).
      rewrite strip_pad; auto; [|now apply digits_trim].
      assert (D : digit d) by (now inversion F).
      destruct (Ascii.eqb d "-"%char) eqn:E1. { apply Ascii.eqb_eq in E1. subst. vm_compute in D. lia. }
      destruct (Ascii.eqb d "+"%char) eqn:E2. { apply Ascii.eqb_eq in E2. subst. vm_compute in D. lia. }
      now apply digits_value_all.
    + replace (a ++ ["+"%char] ++ (d :: r) ++ b) with (a ++ ("+"%char :: d :: r) ++ b) by reflexivity.
      rewrite strip_pad; auto; [|now apply sign_trim]. simpl Ascii.eqb. cbv iota. now apply digits_value_all.
    + replace (a ++ ["-"%char] ++ (d :: r) ++ b) with (a ++ ("-"%char :: d :: r) ++ b) by reflexivity.
      rewrite strip_pad; auto; [|now apply sign_trim]. simpl Ascii.eqb. cbv iota. rewrite digits_value_all by auto. reflexivity.
Qed.
