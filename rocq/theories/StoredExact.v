(** Proof of C154: the description of the stored text leaves no choice. *)
From Coq Require Import ZArith Bool Ascii String List Lia.
From Verif Require Import Base Ops PyStr PyStrProofs PyDecimal EqCatalog EqCatSpec StoredSpec StoredProofs.
Import ListNotations.
Local Open Scope Z_scope.

Definition lead (q : text) : Prop := q = [] \/ exists c q', q = c :: q' /\ c <> "0"%char.

Lemma one_digit : forall c, decimal_value [c] = Z.of_nat (nat_of_ascii c) - 48.
Proof. intros c. unfold decimal_value. cbn [fold_left]. lia. Qed.

Lemma code_inj : forall a b, nat_of_ascii a = nat_of_ascii b -> a = b.
Proof. intros a b H. rewrite <- (ascii_nat_embedding a), <- (ascii_nat_embedding b). now rewrite H. Qed.

Lemma lead_prefix : forall q c, lead (q ++ [c]) -> lead q.
Proof.
  intros [|x q] c [H|(d & q' & H & N)]; [now left|now left|discriminate|]. right. injection H as -> _. eauto.
Qed.

Lemma lead_positive : forall q, Forall digit q -> lead q -> q <> [] -> 0 < decimal_value q.
Proof.
  intros q F [->|(c & q' & -> & N)] E; [now elim E|].
  change (c :: q') with ([c] ++ q')%list in *. apply Forall_app in F. destruct F as (F & F').
  rewrite decimal_app, one_digit. pose proof (decimal_bounds _ F') as B. inversion F as [|? ? D _]; subst. unfold digit in D.
  assert (nat_of_ascii c <> 48)%nat. { intros X. apply N. apply code_inj. exact X. }
  assert (0 < 10 ^ Z.of_nat (length q')) by (apply Z.pow_pos_nonneg; lia). nia.
Qed.

Lemma digits_unique : forall a b, Forall digit a -> Forall digit b -> lead a -> lead b ->
  decimal_value a = decimal_value b -> a = b.
Proof.
  induction a as [|c a IH] using rev_ind; intros b Fa Fb La Lb V.
  - destruct b as [|d b]; [reflexivity|]. pose proof (lead_positive _ Fb Lb ltac:(discriminate)). 
    change (decimal_value []) with 0 in V. lia.
  - destruct b as [|d b _] using rev_ind.
    + assert (a ++ [c] <> [])%list by (destruct a; discriminate). pose proof (lead_positive _ Fa La H).
      change (decimal_value []) with 0 in V. lia.
    + apply Forall_app in Fa. destruct Fa as (Fa & Fc). apply Forall_app in Fb. destruct Fb as (Fb & Fd).
      inversion Fc as [|? ? Dc _]; subst. inversion Fd as [|? ? Dd _]; subst. unfold digit in Dc, Dd.
      rewrite !decimal_app, !one_digit in V. change (10 ^ Z.of_nat (length [c])) with 10 in V. change (10 ^ Z.of_nat (length [d])) with 10 in V.
      assert (E : decimal_value a = decimal_value b /\ nat_of_ascii c = nat_of_ascii d) by lia. destruct E as (E & C).
      rewrite (IH b Fa Fb (lead_prefix _ _ La) (lead_prefix _ _ Lb) E), (code_inj _ _ C). reflexivity.
Qed.

Lemma numeral_unique : forall a b, Forall digit a -> Forall digit b ->
  (a = ["0"%char] \/ exists c q, a = c :: q /\ c <> "0"%char) -> (b = ["0"%char] \/ exists c q, b = c :: q /\ c <> "0"%char) ->
  decimal_value a = decimal_value b -> a = b.
Proof.
  intros a b Fa Fb La Lb V.
  assert (Z0 : decimal_value ["0"%char] = 0) by reflexivity.
  destruct La as [->|La]; destruct Lb as [->|Lb]; [reflexivity| | |apply digits_unique; auto; now right].
  - exfalso. assert (b <> []) by (destruct Lb as (c & q & -> & _); discriminate).
    pose proof (lead_positive b Fb (or_intror Lb) H). lia.
  - exfalso. assert (a <> []) by (destruct La as (c & q & -> & _); discriminate).
    pose proof (lead_positive a Fa (or_intror La) H). lia.
Qed.

Lemma integer_unique : forall z a b, integer_text z a -> integer_text z b -> a = b.
Proof.
  intros z a b (s & q & -> & F & L & S) (s' & q' & -> & F' & L' & S').
  pose proof (decimal_bounds _ F). pose proof (decimal_bounds _ F').
  destruct S as [(-> & V)|(-> & P & V)]; destruct S' as [(-> & V')|(-> & P' & V')]; try lia; f_equal; apply numeral_unique; auto; lia.
Qed.

Lemma doubled_unique : forall s a b, doubled s a -> doubled s b -> a = b.
Proof.
  intros s a b H. revert b. induction H as [|s d H IH|c s d N H IH]; intros b B; inversion B; subst; try congruence.
  - f_equal. f_equal. auto.
  - f_equal. auto.
Qed.

Lemma field_unique : forall s a b, field_text s a -> field_text s b -> a = b.
Proof.
  intros s a b [(S & d & D & ->)|(S & ->)] [(S' & d' & D' & ->)|(S' & ->)]; try contradiction; [|reflexivity].
  now rewrite (doubled_unique _ _ _ D D').
Qed.

Lemma pairwise_unique : forall {A B} (P : A -> B -> Prop), (forall x y z, P x y -> P x z -> y = z) ->
  forall l a b, Forall2 P l a -> Forall2 P l b -> a = b.
Proof.
  intros A B P U l a b H. revert b. induction H; intros b' K; inversion K; subst; [reflexivity|]. f_equal; eauto.
Qed.

Lemma line_unique : forall {AR : Ops} (repr_float : T -> text) (e : entry AR) a b,
  entry_line repr_float e a -> entry_line repr_float e b -> a = b.
Proof.
  intros AR r e a b (ra & f & fs & A1 & A2 & ->) (rb & g & gs & B1 & B2 & ->).
  assert (RS : ra = rb).
  { eapply pairwise_unique; [|exact A1|exact B1]. intros n y z Y Z. inversion Y as [k y' I E|x E|s E]; subst; inversion Z as [k' z' I' E'|x' E'|s' E']; subst; try congruence.
    assert (k' = k) by congruence. subst. eapply integer_unique; eauto. }
  subst rb. assert (F : f :: fs = g :: gs) by (eapply pairwise_unique; [exact field_unique|exact A2|exact B2]).
  injection F as -> ->. reflexivity.
Qed.

Lemma stored_unique : forall {AR : Ops} (repr_float : T -> text) (es : list (entry AR)) a b,
  stored_text repr_float es a -> stored_text repr_float es b -> a = b.
Proof.
  intros AR r es a b (la & A & ->) (lb & B & ->). do 2 f_equal.
  assert (L : la = lb) by (eapply pairwise_unique; [apply line_unique|exact A|exact B]). now rewrite L.
Qed.

Lemma C154_exact_proof : forall (AR : Ops) (parse_float : text -> option T) (repr_float : T -> text) (now : Z)
    (order : list key -> list key), rearranges order ->
  forall content es sel, read_eq_catalog parse_float now order content = Ok es -> incl sel es ->
  forall out, write_rows repr_float sel = Ok out <-> stored_text repr_float sel out.
Proof.
  intros AR pf r now order R content es sel H I out.
  destruct (C154_proof pf r now order R content es sel H I) as (o & W & S). split.
  - intros X. congruence.
  - intros X. rewrite W. f_equal. eapply stored_unique; eauto.
Qed.
