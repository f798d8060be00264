(** Proofs of C130 and C131. *)
From Coq Require Import ZArith Bool Ascii String List Lia Arith.
From Verif Require Import Base Ops PyStr PyStrProofs Main Argparse ArgSpec.
Import ListNotations.
Local Open Scope list_scope.

Lemma teq : forall a b, text_eqb a b = true -> a = b.
Proof. intros a b H. now apply text_eqb_eq in H. Qed.
Lemma tne : forall a b, a <> b -> text_eqb a b = false.
Proof. intros a b H. destruct (text_eqb a b) eqn:E; auto. now apply teq in E. Qed.
Lemma teq_refl : forall a, text_eqb a a = true.
Proof. intros a. now apply text_eqb_eq. Qed.

(** ** Reading the forms *)

Definition long_input : list text := map (fun n => firstn n (t "--input-file")) [3; 4; 5; 6; 7; 8; 9; 10; 11; 12].
Definition long_detailed : list text := map (fun n => firstn n (t "--detailed")) [3; 4; 5; 6; 7; 8; 9; 10].

Lemma abbreviates_firstn : forall s full, abbreviates s full -> s = firstn (length s) full /\ 3 <= length s <= length full.
Proof.
  intros s full (L & r & E). subst full. split; [|rewrite app_length; lia].
  rewrite firstn_app, Nat.sub_diag, firstn_O, app_nil_r. symmetry. apply firstn_all.
Qed.

Lemma abbr_input : forall s, abbreviates s (t "--input-file") -> In s long_input.
Proof.
  intros s H. apply abbreviates_firstn in H. destruct H as (E & L). change (length (t "--input-file")) with 12 in L.
  rewrite E. unfold long_input. apply (in_map (fun n => firstn n (t "--input-file"))). cbn [In]. lia.
Qed.
Lemma abbr_detailed : forall s, abbreviates s (t "--detailed") -> In s long_detailed.
Proof.
  intros s H. apply abbreviates_firstn in H. destruct H as (E & L). change (length (t "--detailed")) with 10 in L.
  rewrite E. unfold long_detailed. apply (in_map (fun n => firstn n (t "--detailed"))). cbn [In]. lia.
Qed.

Lemma read_long_input : forall o, In o long_input -> read_arg o = Option Input true None /\ o <> t "--".
Proof. intros o I. repeat (destruct I as [<-|I]; [split; [reflexivity|discriminate]|]). destruct I. Qed.
Lemma read_long_detailed : forall o, In o long_detailed -> read_arg o = Option Detailed true None /\ o <> t "--".
Proof. intros o I. repeat (destruct I as [<-|I]; [split; [reflexivity|discriminate]|]). destruct I. Qed.
Lemma read_long_eq : forall o f, In o long_input -> read_arg (o ++ t "=" ++ f) = Option Input true (Some f) /\ o ++ t "=" ++ f <> t "--".
Proof. intros o f I. repeat (destruct I as [<-|I]; [split; [reflexivity|discriminate]|]). destruct I. Qed.

Lemma find_three : forall c c2 r, c <> dash -> find_option (dash :: c :: c2 :: r) = None.
Proof.
  intros c c2 r N. unfold find_option, option_strings. cbn [filter fst t list_ascii_of_string text_eqb].
  assert (E : forall x, Ascii.eqb x c && false = false) by (intros; apply andb_false_r).
  assert (D : Ascii.eqb "-" c = false) by (apply Ascii.eqb_neq; intros X; apply N; now rewrite <- X).
  change (Ascii.eqb "-" dash) with true. cbn [andb]. rewrite D. cbn [andb]. rewrite !E. reflexivity.
Qed.

Lemma split_third : forall c c2 r o e, c <> equals_sign -> c2 <> equals_sign ->
  split_equals (dash :: c :: c2 :: r) = Some (o, e) -> exists q, o = dash :: c :: c2 :: q.
Proof.
  intros c c2 r o e N N2 H. cbn [split_equals] in H. change (Ascii.eqb dash equals_sign) with false in H. cbv iota in H.
  rewrite (proj2 (Ascii.eqb_neq c equals_sign) N), (proj2 (Ascii.eqb_neq c2 equals_sign) N2) in H.
  destruct (split_equals r) as [(a, b)|]; [|discriminate]. injection H as <- _. eauto.
Qed.

(** A short option with text attached. *)
Lemma read_joined : forall a c c2 r, (c = "i"%char /\ a = Input) \/ (c = "d"%char /\ a = Detailed) -> c2 <> equals_sign ->
  read_arg (dash :: c :: c2 :: r) = Option a false (Some (c2 :: r)).
Proof.
  intros a c c2 r H N2. assert (ND : c <> dash) by (destruct H as [(-> & _)|(-> & _)]; discriminate).
  assert (NE : c <> equals_sign) by (destruct H as [(-> & _)|(-> & _)]; discriminate).
  unfold read_arg. change (negb (Ascii.eqb dash dash)) with false. cbv iota. rewrite (find_three c c2 r ND).
  assert (S : match split_equals (dash :: c :: c2 :: r) with
              | Some (o, e) => match find_option o with Some a => Some (a, is_long o, e) | None => None end
              | None => None end = None).
  { destruct (split_equals (dash :: c :: c2 :: r)) as [(o, e)|] eqn:E; [|reflexivity].
    destruct (split_third _ _ _ _ _ NE N2 E) as (q & ->). now rewrite (find_three c c2 q ND). }
  rewrite S. destruct H as [(-> & ->)|(-> & ->)]; reflexivity.
Qed.

Lemma dashed_0 : forall r, dashed 0 r = dash :: r.
Proof. reflexivity. Qed.
Lemma dashed_S : forall k r, dashed (S k) r = dash :: "d"%char :: repeat "d"%char k ++ r.
Proof. reflexivity. Qed.

Lemma not_dashes : forall k r, hd "d"%char r <> dash -> dashed k r <> t "--".
Proof. intros [|k] r H E; [|discriminate]. rewrite dashed_0 in E. injection E as E. rewrite E in H. now apply H. Qed.

(** Groups of short options. *)
Lemma group_d : forall k fuel before, k < fuel ->
  short_group fuel Detailed (repeat "d"%char (S k)) before = Ok (before ++ repeat Detailed (S k), (Detailed, None)).
Proof.
  induction k as [|k IH]; intros [|fuel] before L; try lia.
  - reflexivity.
  - change (short_group (S fuel) Detailed (repeat "d"%char (S (S k))) before) with
      (short_group fuel Detailed (repeat "d"%char (S k)) (before ++ [Detailed])).
    rewrite IH by lia. now rewrite <- app_assoc.
Qed.
Lemma group_i : forall k fuel before, k < fuel ->
  short_group fuel Detailed (repeat "d"%char k ++ t "i") before = Ok (before ++ repeat Detailed (S k), (Input, None)).
Proof.
  induction k as [|k IH]; intros [|fuel] before L; try lia.
  - reflexivity.
  - assert (E : repeat "d"%char k ++ t "i" = hd "i"%char (repeat "d"%char k ++ t "i") :: tl (repeat "d"%char k ++ t "i")) by (destruct k; reflexivity).
    transitivity (short_group fuel Detailed (repeat "d"%char k ++ t "i") (before ++ [Detailed])).
    + cbn [repeat app short_group takes_value]. change (find_option [dash; "d"%char]) with (Some Detailed). cbv iota. rewrite E. reflexivity.
    + rewrite IH by lia. now rewrite <- app_assoc.
Qed.
Lemma group_i_joined : forall k f fuel before, f <> [] -> S k < fuel ->
  short_group fuel Detailed (repeat "d"%char k ++ t "i" ++ f) before = Ok (before ++ repeat Detailed (S k), (Input, Some f)).
Proof.
  induction k as [|k IH]; intros f [|fuel] before N L; try lia.
  - destruct fuel as [|fuel]; [lia|]. destruct f as [|c f]; [congruence|]. reflexivity.
  - transitivity (short_group fuel Detailed (repeat "d"%char k ++ t "i" ++ f) (before ++ [Detailed])).
    + cbn [repeat app short_group takes_value]. change (find_option [dash; "d"%char]) with (Some Detailed). cbv iota.
      destruct k; cbn [repeat app t list_ascii_of_string]; reflexivity.
    + rewrite IH by (auto; lia). now rewrite <- app_assoc.
Qed.

Lemma informs_d : forall k, informs (repeat Detailed k) = false.
Proof. induction k; auto. Qed.
Lemma details_d : forall k, details (repeat Detailed k) = negb (Nat.eqb k 0).
Proof. destruct k; auto. Qed.

(** ** Understood command lines *)

Lemma plain_value : forall v, plain v -> read_arg v = Value /\ v <> t "--".
Proof.
  intros [|c v] P; [split; [reflexivity|discriminate]|]. assert (N : c <> dash) by (intros ->; now apply (P v)).
  split; [|intros E; injection E as E _; now apply N]. unfold read_arg. now rewrite (proj2 (Ascii.eqb_neq c dash) N).
Qed.

Lemma read_group : forall j rest s, grouped (S j) rest s -> repeat "d"%char j ++ rest <> [] -> hd "d"%char rest <> equals_sign ->
  read_arg s = Option Detailed false (Some (repeat "d"%char j ++ rest)) /\ s <> t "--".
Proof.
  intros j rest s H N Q. inversion H as [E|i E N' E2].
  - rewrite dashed_S. split; [|discriminate]. destruct (repeat "d"%char j ++ rest) as [|c r] eqn:R; [congruence|].
    rewrite read_joined with (a := Detailed); auto. intros ->. destruct j; cbn in R; [subst rest; now apply Q|discriminate].
  - injection E as <-. split; [reflexivity|discriminate].
Qed.

Lemma consume_says : forall a f d, says plain a f d -> forall rest inp det extra,
  consume (a ++ rest) inp det extra = consume rest (match f with Some x => Some (values x) | None => inp end) (det || d) extra.
Proof.
  assert (V : forall v, v <> t "--" -> [v] = values v) by (intros v N; unfold values; now rewrite tne).
  intros a f d H rest inp det extra. inversion H as [k s G|o A|o g A P|o g A|k s g G P|k s g G N1 N3|g]; subst; cbn [app].
  - destruct k as [|k].
    + inversion G as [E|i E N' E2].
      * cbn [consume]. change (read_arg (dashed 1 [])) with (Option Detailed false None). cbn. now rewrite orb_true_r.
      * injection E as <-. now destruct N'.
    + destruct (read_group (S k) [] s G ltac:(discriminate) ltac:(discriminate)) as (E1 & E2). cbn [consume]. rewrite tne by exact E2. rewrite E1.
      cbn [expand takes_value]. rewrite app_nil_r.
      rewrite group_d by (rewrite repeat_length; lia). cbn [app]. rewrite informs_d, orb_true_r. reflexivity.
  - destruct (read_long_detailed o (abbr_detailed o A)) as (E1 & E2). cbn [consume]. rewrite tne by exact E2. rewrite E1. cbn. now rewrite orb_true_r.
  - destruct (read_long_input o (abbr_input o A)) as (E1 & E2). destruct (plain_value g P) as (E3 & E4).
    cbn [consume]. rewrite tne by exact E2. rewrite E1. cbn [expand informs details existsb]. rewrite tne by exact E4. rewrite E3, (V g E4). reflexivity.
  - destruct (read_long_eq o g (abbr_input o A)) as (E1 & E2). cbn [consume]. rewrite tne by exact E2. rewrite E1.
    cbn [expand takes_value informs details existsb]. now rewrite orb_false_r.
  - destruct (plain_value g P) as (E3 & E4). destruct k as [|k].
    + inversion G as [E|i E N' E2]; [|discriminate E]. cbn [consume]. change (read_arg (dashed 0 (t "i"))) with (Option Input false None). rewrite tne by discriminate.
      cbn [expand informs details existsb]. rewrite tne by exact E4. rewrite E3, (V g E4). reflexivity.
    + destruct (read_group k (t "i") s G ltac:(destruct k; discriminate) ltac:(discriminate)) as (E1 & E2). cbn [consume]. rewrite tne by exact E2. rewrite E1.
      cbn [expand takes_value]. rewrite group_i by (rewrite app_length, repeat_length; lia). cbn [app].
      rewrite tne by exact E4. rewrite E3, informs_d, details_d, (V g E4). reflexivity.
  - destruct k as [|k].
    + inversion G as [E|i E N' E2]; [|discriminate E].
      destruct g as [|c g]; [congruence|]. assert (NC : c <> equals_sign). { intros ->. now apply (N3 eq_refl g). }
      cbn [consume]. rewrite tne by discriminate. rewrite dashed_0. cbn [t list_ascii_of_string app].
      rewrite read_joined with (a := Input) by auto. cbn [expand takes_value informs details existsb]. reflexivity.
    + destruct (read_group k (t "i" ++ g) s G ltac:(destruct k; discriminate) ltac:(discriminate)) as (E1 & E2). cbn [consume]. rewrite tne by exact E2. rewrite E1.
      cbn [expand takes_value]. rewrite group_i_joined; auto. 2:{ rewrite !app_length, repeat_length. cbn. destruct g; [congruence|cbn; lia]. }
      cbn [app]. rewrite informs_d, details_d. reflexivity.
  - cbn [consume]. rewrite tne by discriminate. change (read_arg (t "-i=" ++ g)) with (Option Input false (Some g)).
    cbn [expand takes_value informs details existsb]. now rewrite orb_false_r.
Qed.

Lemma consume_line : forall l f d, line plain l f d -> forall inp det extra,
  consume l inp det extra = if extra then Refused else Parsed (match f with Some x => Some (values x) | None => inp end) (det || d).
Proof.
  induction 1 as [|a f d l f' d' S L IH]; intros inp det extra.
  - cbn [consume]. now rewrite orb_false_r.
  - rewrite (consume_says a f d S), IH. destruct extra; auto. rewrite orb_assoc. destruct f'; reflexivity.
Qed.

Lemma ambiguous_app : forall a l, some_ambiguous a = false -> some_ambiguous l = false -> some_ambiguous (a ++ l) = false.
Proof.
  induction a as [|s a IH]; intros l H1 H2; auto. cbn [app some_ambiguous] in *. destruct (text_eqb s (t "--")); auto.
  destruct (read_arg s); auto; discriminate.
Qed.
Lemma unambiguous_says : forall a f d, says plain a f d -> some_ambiguous a = false.
Proof.
  intros a f d H. pose proof (consume_says a f d H [] None false false) as C. rewrite app_nil_r in C. assert (C' : exists p q, consume a None false false = Parsed p q) by (rewrite C; cbn [consume]; eauto). clear C. destruct C' as (p & q & C).
  assert (K : forall s p q, consume [s] None false false = Parsed p q -> some_ambiguous [s] = false).
  { clear. intros s p q Q. cbn [consume some_ambiguous] in Q |- *. destruct (text_eqb s (t "--")); auto. destruct (read_arg s); auto. discriminate. }
  assert (K2 : forall s v p q, plain v -> consume [s; v] None false false = Parsed p q -> some_ambiguous [s; v] = false).
  { clear. intros s v p q P Q. destruct (plain_value v P) as (E1 & E2). cbn [consume some_ambiguous] in Q |- *. rewrite E1.
    destruct (text_eqb s (t "--")); auto. destruct (text_eqb v (t "--")); destruct (read_arg s); auto; discriminate. }
  inversion H; subst; first [exact (K _ _ _ C) | eapply K2; [assumption|exact C]].
Qed.
Lemma unambiguous_line : forall l f d, line plain l f d -> some_ambiguous l = false.
Proof. induction 1 as [|a f d l f' d' S L IH]; auto. apply ambiguous_app; auto. eapply unambiguous_says; eauto. Qed.

Theorem C130_understood_proof : forall l f d, line plain l f d -> l <> [] -> f <> Some (t "--") -> command_line l = Runs (Options f d).
Proof.
  intros l f d H N M. destruct l as [|s l]; [congruence|]. unfold command_line, parse_args.
  rewrite (unambiguous_line _ _ _ H), (consume_line _ _ _ H). destruct f as [f|]; [|reflexivity].
  unfold values. rewrite tne by congruence. reflexivity.
Qed.

(** ** Only these *)

Lemma consume_extra : forall n args inp det p q, length args <= n -> consume args inp det true <> Parsed p q.
Proof.
  induction n as [|n IH]; intros [|s rest] inp det p q L; try (cbn in L; lia); try discriminate.
  cbn [length] in L. cbn [consume]. destruct (text_eqb s (t "--")); [discriminate|].
  destruct (read_arg s) as [|a lg gv| |]; try discriminate; try (apply IH; lia).
  destruct (expand a lg gv) as [(before, (b, v))|[]]; try discriminate.
  destruct b, v as [v|]; try discriminate; destruct (informs before); try discriminate; try (apply IH; lia).
  - destruct rest as [|w rest]; [discriminate|]. destruct (text_eqb w (t "--")); [discriminate|]. destruct (read_arg w); discriminate.
  - destruct rest as [|w rest]; [discriminate|]. destruct (text_eqb w (t "--")); [discriminate|].
    destruct (read_arg w); try discriminate. cbn [length] in L. apply IH. lia.
Qed.

(** The shape of an argument read as a value. *)
Lemma value_shape : forall v, read_arg v = Value -> value_like v.
Proof.
  intros [|c v] H; [left; intros r; discriminate|]. unfold read_arg in H. destruct (Ascii.eqb c dash) eqn:C.
  2:{ left. intros r E. injection E as -> _. discriminate. }
  apply Ascii.eqb_eq in C. subst c. cbn [negb] in H. destruct (find_option (dash :: v)); [discriminate|].
  destruct v as [|c v]; [right; now left|].
  destruct (match split_equals (dash :: c :: v) with Some (o, e) => match find_option o with Some a => Some (a, is_long o, e) | None => None end | None => None end) as [((a, l), e)|]; [discriminate|].
  destruct (candidates (dash :: c :: v)) as [|((o, a), e) [|]]; try discriminate.
  destruct (negative_number (dash :: c :: v)) eqn:N.
  - right. right. right. exists c, v. split; [reflexivity|]. clear H. unfold negative_number in N.
    assert (D : drop_newline (dash :: c :: v) = [dash] /\ c = chr_lf \/ exists r, drop_newline (dash :: c :: v) = dash :: c :: r).
    { unfold drop_newline. cbn [rev]. destruct v as [|x v].
      - cbn [rev app]. destruct (Ascii.eqb c chr_lf) eqn:E; [left|right; now exists []]. apply Ascii.eqb_eq in E. auto.
      - right. destruct (rev (x :: v)) as [|y r] eqn:R; [cbn [rev] in R; apply app_eq_nil in R; destruct R; discriminate|].
        cbn [app]. destruct (Ascii.eqb y chr_lf); [|eauto]. rewrite !rev_app_distr. cbn [rev app]. eauto. }
    destruct D as [(D & E)|(r & D)]; rewrite D in N; [discriminate|]. apply andb_true_iff in N. destruct N as (_ & N).
    apply orb_true_iff in N. destruct N as [N|N].
    + right. unfold some_digits, all_digits in N. cbn [forallb] in N. apply andb_true_iff in N. destruct N as (N & _).
      unfold is_digit_char in N. apply andb_true_iff in N. destruct N as (N1 & N2). apply Nat.leb_le in N1, N2. lia.
    + cbn [split_on] in N. destruct (Ascii.eqb c ".") eqn:E; [left; now apply Ascii.eqb_eq|]. right.
      destruct (split_on "." r) as [|p ps]; [discriminate|]. destruct ps as [|b [|]]; try discriminate.
      apply andb_true_iff in N. destruct N as (N & _). unfold all_digits in N. cbn [forallb] in N. apply andb_true_iff in N. destruct N as (N & _).
      unfold is_digit_char in N. apply andb_true_iff in N. destruct N as (N1 & N2). apply Nat.leb_le in N1, N2. lia.
  - destruct (existsb (Ascii.eqb chr_space) (dash :: c :: v)) eqn:S; [|discriminate]. right. right. left.
    apply existsb_exists in S. destruct S as (x & I & E). apply Ascii.eqb_eq in E. subst x. exact I.
Qed.

Lemma starts_app : forall p s, starts_with p s = true -> exists r, s = p ++ r.
Proof.
  induction p as [|a p IH]; intros s H; [now exists s|]. destruct s as [|b s]; [discriminate|]. cbn [starts_with] in H.
  apply andb_true_iff in H. destruct H as (E & H). apply Ascii.eqb_eq in E. subst b. destruct (IH s H) as (r & ->). now exists r.
Qed.
Lemma split_equals_app : forall s o e, split_equals s = Some (o, e) -> s = o ++ t "=" ++ e.
Proof.
  induction s as [|c s IH]; intros o e H; [discriminate|]. cbn [split_equals] in H. destruct (Ascii.eqb c equals_sign) eqn:C.
  - apply Ascii.eqb_eq in C. injection H as <- <-. now subst c.
  - destruct (split_equals s) as [(a, b)|]; [|discriminate]. injection H as <- <-. now rewrite (IH a b eq_refl).
Qed.
Lemma find_in : forall s a, find_option s = Some a -> In (s, a) option_strings.
Proof.
  intros s a H. unfold find_option in H. destruct (filter _ _) as [|(o, b) l] eqn:F; [discriminate|]. injection H as <-.
  assert (I : In (o, b) (filter (fun o => text_eqb (fst o) s) option_strings)) by (rewrite F; now left).
  apply filter_In in I. destruct I as (I & E). apply teq in E. cbn [fst] in E. now subst o.
Qed.

(** How an option can be written. *)
Inductive written : text -> action -> bool -> option text -> Prop :=
| w_long : forall o full a, abbreviates o full -> In (full, a) option_strings -> written o a true None
| w_long_eq : forall o full a e, abbreviates o full -> In (full, a) option_strings -> written (o ++ t "=" ++ e) a true (Some e)
| w_short : forall o a, In (o, a) option_strings -> length o = 2 -> written o a false None
| w_short_eq : forall o a e, In (o, a) option_strings -> length o = 2 -> written (o ++ t "=" ++ e) a false (Some e)
| w_joined : forall o a e, In (o, a) option_strings -> length o = 2 -> e <> [] -> (forall g, e <> t "=" ++ g) -> written (o ++ e) a false (Some e).

Lemma option_cases : forall o a, In (o, a) option_strings -> (is_long o = true /\ 3 <= length o) \/ (is_long o = false /\ length o = 2).
Proof. intros o a I. repeat (destruct I as [E|I]; [injection E as <- <-; cbn; lia|]). destruct I. Qed.

Lemma read_written : forall s a lg gv, s <> t "--" -> read_arg s = Option a lg gv -> written s a lg gv.
Proof.
  intros s a lg gv NN H. destruct s as [|c s]; [discriminate|]. unfold read_arg in H. destruct (Ascii.eqb c dash) eqn:C; [|discriminate].
  apply Ascii.eqb_eq in C. subst c. cbn [negb] in H. destruct (find_option (dash :: s)) as [b|] eqn:F.
  { injection H as -> <- <-. apply find_in in F. destruct (option_cases _ _ F) as [(L & N)|(L & N)]; rewrite L.
    - apply (w_long (dash :: s) (dash :: s)); auto. split; auto. exists []. now rewrite app_nil_r.
    - now apply w_short. }
  destruct s as [|c s]; [discriminate|].
  destruct (match split_equals (dash :: c :: s) with Some (o, e) => match find_option o with Some a => Some (a, is_long o, e) | None => None end | None => None end) as [((b, l), e)|] eqn:S.
  { injection H as -> <- <-. destruct (split_equals (dash :: c :: s)) as [(o, e')|] eqn:SE; [|discriminate]. destruct (find_option o) as [b'|] eqn:FO; [|discriminate].
    injection S as -> <- ->. apply split_equals_app in SE. rewrite SE. apply find_in in FO. destruct (option_cases _ _ FO) as [(L & N)|(L & N)]; rewrite L.
    - apply (w_long_eq o o); auto. split; auto. exists []. now rewrite app_nil_r.
    - now apply w_short_eq. }
  destruct (candidates (dash :: c :: s)) as [|((o, b), e) [|]] eqn:K; try discriminate.
  { destruct (negative_number _); [discriminate|]. destruct (existsb _ _); discriminate. }
  injection H as -> <- <-. unfold candidates in K. destruct (is_long (dash :: c :: s)) eqn:L.
  - destruct (split_equals (dash :: c :: s)) as [(p, e')|] eqn:SE.
    + apply split_equals_app in SE.
      destruct (filter (fun o => starts_with p (fst o)) option_strings) as [|(o', b') [|]] eqn:FI; try discriminate. injection K as <- <- <-.
      assert (I : In (o', b') (filter (fun o => starts_with p (fst o)) option_strings)) by (rewrite FI; now left).
      apply filter_In in I. destruct I as (I & SW). cbn [fst] in SW. apply starts_app in SW. destruct SW as (r & SW).
      assert (LP : 3 <= length p).
      { destruct p as [|p1 [|p2 [|p3 p]]]; [exfalso| | |cbn; lia].
        - cbn in FI. discriminate.
        - injection SE as <- _. cbn in FI. discriminate.
        - injection SE as <- E _. apply starts_app in L. destruct L as (u & L). injection L as -> _. rewrite <- E in FI. cbn in FI. discriminate. }
      assert (LO : is_long o' = true).
      { destruct (option_cases _ _ I) as [(X & _)|(_ & X)]; auto. rewrite SW, app_length in X. lia. }
      rewrite LO, SE. apply (w_long_eq p o'); auto. split; eauto.
    + destruct (filter (fun o => starts_with (dash :: c :: s) (fst o)) option_strings) as [|(o', b') [|]] eqn:FI; try discriminate. injection K as <- <- <-.
      assert (I : In (o', b') (filter (fun o => starts_with (dash :: c :: s) (fst o)) option_strings)) by (rewrite FI; now left).
      apply filter_In in I. destruct I as (I & SW). cbn [fst] in SW. apply starts_app in SW. destruct SW as (r & SW).
      assert (LP : 3 <= length (dash :: c :: s)).
      { destruct s as [|c2 s]; [|cbn; lia]. apply starts_app in L. destruct L as (u & L). injection L as -> _. now exfalso; apply NN. }
      assert (LO : is_long o' = true).
      { destruct (option_cases _ _ I) as [(X & _)|(_ & X)]; auto. rewrite SW, app_length in X. lia. }
      rewrite LO. apply (w_long (dash :: c :: s) o'); auto. split; eauto.
  - assert (CD : c <> dash). { intros ->. discriminate L. }
    assert (I : In (o, a, e) [(o, a, e)]) by now left. rewrite <- K in I. apply in_flat_map in I. destruct I as ((o', b') & I & J). cbn [fst snd] in J.
    destruct (text_eqb o' (firstn 2 (dash :: c :: s))) eqn:E.
    + apply teq in E. destruct J as [J|[]]. injection J as <- <- <-. cbn [firstn] in E. subst o'. cbn [skipn] in *.
      destruct (option_cases _ _ I) as [(X & Y)|(X & Y)]; [cbn in Y; lia|]. rewrite X.
      change (dash :: c :: s) with ([dash; c] ++ s). destruct s as [|c2 s].
      { exfalso. assert (Q : find_option [dash; c] <> None); [|now rewrite F in Q]. clear - I.
        repeat (destruct I as [I|I]; [first [discriminate I | injection I as <- _; discriminate]|]). destruct I. }
      apply w_joined; auto; [discriminate|]. intros g E. injection E as -> E.
      assert (CE : c <> equals_sign) by (intros ->; clear - I; repeat (destruct I as [I|I]; [discriminate|]); destruct I).
      assert (SE : split_equals (dash :: c :: "="%char :: s) = Some ([dash; c], s)).
      { cbn [split_equals]. change (Ascii.eqb dash equals_sign) with false. rewrite (proj2 (Ascii.eqb_neq c equals_sign) CE). reflexivity. }
      rewrite SE in S. destruct (find_option [dash; c]) as [z|] eqn:FZ; [discriminate|].
      clear - I FZ. repeat (destruct I as [I|I]; [first [discriminate I | injection I as <- _; discriminate]|]). destruct I.
    + destruct (starts_with (dash :: c :: s) o') eqn:SW; [|destruct J]. destruct J as [J|[]]. injection J as <- <- <-.
      apply starts_app in SW. destruct SW as (r & SW). exfalso. subst o'. destruct (option_cases _ _ I) as [(X & _)|(_ & X)].
      * apply starts_app in X. destruct X as (u & X). injection X as X _. now apply CD.
      * destruct s as [|c2 s]; [|cbn in X; lia]. destruct r as [|r0 r]; [|cbn in X; lia]. rewrite app_nil_r in E. cbn [firstn] in E.
        now rewrite teq_refl in E.
Qed.

Lemma find_short : forall c b, find_option [dash; c] = Some b ->
  informs [b] = false -> (c = "i"%char /\ b = Input) \/ (c = "d"%char /\ b = Detailed).
Proof.
  intros c b H Q. apply find_in in H.
  repeat (destruct H as [H|H]; [first [discriminate H | injection H as <- <-; first [discriminate Q | auto]]|]). destruct H.
Qed.

Lemma informs_app : forall a b, informs (a ++ b) = false -> informs a = false /\ informs b = false.
Proof. intros a b H. unfold informs in *. rewrite existsb_app in H. now apply orb_false_iff in H. Qed.

Lemma group_prefix : forall fu a g bf bs0 l, short_group fu a g bf = Ok (bs0, l) -> exists r, bs0 = bf ++ r.
Proof.
  induction fu as [|fu IH]; intros a g bf bs0 l H; [discriminate|]. cbn [short_group] in H. destruct (takes_value a).
  - injection H as <- _. exists []. now rewrite app_nil_r.
  - destruct g as [|c r]; [discriminate|]. destruct (find_option [dash; c]); [|discriminate]. destruct r; [injection H as <- _; eauto|].
    apply IH in H. destruct H as (r' & ->). rewrite <- app_assoc. eauto.
Qed.

Lemma group_inv : forall fuel g before bs x v, short_group fuel Detailed g before = Ok (bs, (x, v)) ->
  informs bs = false -> informs [x] = false ->
  details bs = true /\
  exists k, (g = repeat "d"%char (S k) /\ x = Detailed /\ v = None) \/
            (g = repeat "d"%char k ++ t "i" /\ x = Input /\ v = None) \/
            (exists f, f <> [] /\ g = repeat "d"%char k ++ t "i" ++ f /\ x = Input /\ v = Some f).
Proof.
  induction fuel as [|fuel IH]; intros g before bs x v H I1 I2; [discriminate|]. cbn [short_group takes_value] in H.
  destruct g as [|c rest]; [discriminate|]. destruct (find_option [dash; c]) as [b|] eqn:F; [|discriminate].
  destruct rest as [|c2 rest].
  - injection H as <- <- <-. split; [unfold details; rewrite existsb_app; cbn; now rewrite orb_true_r|].
    destruct (find_short c b F I2) as [(-> & ->)|(-> & ->)]; exists 0; auto.
  - assert (B : informs [b] = false).
    { destruct fuel as [|fuel]; [discriminate|]. destruct b; auto; exfalso; cbn [short_group takes_value] in H;
        destruct (find_option [dash; c2]) as [b2|]; try discriminate.
      - destruct rest as [|c3 rest]; [injection H as <- _ _; apply informs_app in I1; destruct I1; discriminate|].
        apply group_prefix in H. destruct H as (r & ->). apply informs_app in I1. destruct I1 as (I1 & _). apply informs_app in I1. destruct I1; discriminate.
      - destruct rest as [|c3 rest]; [injection H as <- _ _; apply informs_app in I1; destruct I1; discriminate|].
        apply group_prefix in H. destruct H as (r & ->). apply informs_app in I1. destruct I1 as (I1 & _). apply informs_app in I1. destruct I1; discriminate. }
    destruct (find_short c b F B) as [(-> & ->)|(-> & ->)].
    + destruct fuel as [|fuel]; [discriminate|]. cbn [short_group takes_value] in H. injection H as <- <- <-.
      split; [unfold details; rewrite existsb_app; cbn; now rewrite orb_true_r|].
      exists 0. right. right. exists (c2 :: rest). repeat split; auto. discriminate.
    + destruct (IH _ _ _ _ _ H I1 I2) as (D & k & K). split; auto. exists (S k). destruct K as [(-> & K)|[(-> & K)|(f & N & -> & K)]]; auto.
      right. right. exists f. auto.
Qed.

Lemma full_input : forall o full, In (full, Input) option_strings -> abbreviates o full -> abbreviates o (t "--input-file").
Proof.
  intros o full I A. assert (E : full = t "-i" \/ full = t "--input-file").
  { repeat (destruct I as [I|I]; [first [discriminate I | injection I as <-; auto]|]). destruct I. }
  destruct E as [->| ->]; auto. destruct A as (L & r & E). apply (f_equal (@length ascii)) in E. rewrite app_length in E. cbn in E. lia.
Qed.
Lemma full_detailed : forall o full, In (full, Detailed) option_strings -> abbreviates o full -> abbreviates o (t "--detailed").
Proof.
  intros o full I A. assert (E : full = t "-d" \/ full = t "--detailed").
  { repeat (destruct I as [I|I]; [first [discriminate I | injection I as <-; auto]|]). destruct I. }
  destruct E as [->| ->]; auto. destruct A as (L & r & E). apply (f_equal (@length ascii)) in E. rewrite app_length in E. cbn in E. lia.
Qed.
Lemma short_input : forall o, In (o, Input) option_strings -> length o = 2 -> o = t "-i".
Proof. intros o I L. repeat (destruct I as [I|I]; [first [discriminate I | injection I as <-; first [reflexivity|discriminate L]]|]). destruct I. Qed.
Lemma short_detailed : forall o, In (o, Detailed) option_strings -> length o = 2 -> o = t "-d".
Proof. intros o I L. repeat (destruct I as [I|I]; [first [discriminate I | injection I as <-; first [reflexivity|discriminate L]]|]). destruct I. Qed.
Lemma group_informs : forall fu a g bs x v, informs [a] = true -> short_group fu a g [] = Ok (bs, (x, v)) -> informs bs = true.
Proof.
  intros [|fu] a g bs x v I H; [discriminate|]. cbn [short_group] in H. destruct a; try discriminate I; cbn [takes_value] in H;
    (destruct g as [|c r]; [discriminate|]; destruct (find_option [dash; c]); [|discriminate]; destruct r; [injection H as <- _ _; reflexivity|];
     apply group_prefix in H; destruct H as (r' & ->); reflexivity).
Qed.

Definition sound_tail (s : text) (rest : list text) (inp : option (list text)) (det : bool) (p : option (list text)) (q : bool) : Prop :=
  exists a f d rest', s :: rest = a ++ rest' /\ a <> [] /\ says value_like a f d /\
    consume rest' (match f with Some x => Some (values x) | None => inp end) (det || d) false = Parsed p q.

Lemma step_sound : forall s rest inp det p q, consume (s :: rest) inp det false = Parsed p q -> sound_tail s rest inp det p q.
Proof.
  intros s rest inp det p q H. cbn [consume] in H. destruct (text_eqb s (t "--")) eqn:T; [discriminate|].
  assert (NN : s <> t "--") by (intros ->; now rewrite teq_refl in T). clear T.
  destruct (read_arg s) as [|a lg gv| |] eqn:R; try discriminate; try (now apply (consume_extra (length rest)) in H).
  apply read_written in R; auto.
  destruct (expand a lg gv) as [(before, (x, v))|[]] eqn:X; try discriminate.
  assert (I1 : informs [x] = false). { destruct x; auto; discriminate. }
  assert (I2 : informs before = false).
  { destruct (informs before); auto. destruct x, v; try discriminate.
    destruct rest as [|w rest]; [discriminate|]. destruct (text_eqb w (t "--")); [discriminate|]. destruct (read_arg w); discriminate. }
  rewrite I2 in H.
  (* the value in the next argument *)
  assert (NEXT : forall d, x = Input -> v = None -> (forall f, value_like f -> says value_like [s; f] (Some f) d) ->
            det || details before = det || d -> sound_tail s rest inp det p q).
  { intros d -> -> S D. destruct rest as [|w rest]; [discriminate|]. destruct (text_eqb w (t "--")) eqn:W; [discriminate|].
    destruct (read_arg w) eqn:RW; try discriminate. exists [s; w], (Some w), d, rest. split; [reflexivity|]. split; [discriminate|].
    split; [apply S; now apply value_shape|]. unfold values. rewrite W, <- D. exact H. }
  assert (SAME : forall d f, x = Input -> v = Some f -> says value_like [s] (Some f) d -> det || details before = det || d -> sound_tail s rest inp det p q).
  { intros d f -> -> S D. exists [s], (Some f), d, rest. split; [reflexivity|]. split; [discriminate|]. split; auto. now rewrite <- D. }
  assert (DET : x = Detailed -> says value_like [s] None true -> sound_tail s rest inp det p q).
  { intros -> S. exists [s], None, true, rest. split; [reflexivity|]. split; [discriminate|]. split; auto. rewrite orb_true_r. now destruct v. }
  (* a group of short options *)
  assert (GROUP : forall fu e, short_group fu Detailed e [] = Ok (before, (x, v)) ->
            (forall k rest, e = repeat "d"%char k ++ rest -> grouped (S k) rest s) -> sound_tail s rest inp det p q).
  { intros fu e G SS. destruct (group_inv _ _ _ _ _ _ G I2 I1) as (D & k & [(E & -> & ->)|[(E & -> & ->)|(f & NF & E & -> & ->)]]).
    - apply DET; auto. apply (says_d _ (S k)). apply SS. now rewrite app_nil_r.
    - apply (NEXT true); auto; [|now rewrite D]. intros f V. apply (says_i _ (S k)); auto.
    - apply (SAME true f); auto; [|now rewrite D]. apply (says_i_joined _ (S k)); auto. discriminate. }
  inversion R as [o full a0 A I E1 E2 E3 E4|o full a0 e A I E1 E2 E3 E4|o a0 I L E1 E2 E3 E4|o a0 e I L E1 E2 E3 E4|o a0 e I L NE1 NE2 E1 E2 E3 E4].
  - rewrite <- E4 in X. injection X as <- <- <-. destruct a; try discriminate I1.
    + apply (NEXT false); auto. intros f V. apply says_input; auto. apply (full_input s full); auto.
    + apply DET; auto. apply says_detailed. apply (full_detailed s full); auto.
  - try rewrite E1. rewrite <- E4, <- E3 in X. cbn [expand] in X. destruct a; try discriminate X. injection X as <- <- <-. apply (SAME false e); auto. rewrite <- E1. apply says_input_eq.
    apply (full_input o full); auto.
  - rewrite <- E4 in X. injection X as <- <- <-. destruct a; try discriminate I1.
    + apply (NEXT false); auto. intros f V. rewrite (short_input s I L). apply (says_i _ 0); auto. exact (grouped_plain 0 (t "i")).
    + apply DET; auto. rewrite (short_detailed s I L). apply (says_d _ 0). exact (grouped_plain 1 []).
  - try rewrite E1. rewrite <- E4, <- E3 in X. cbn [expand] in X. destruct a; cbn [takes_value] in X.
    + apply group_informs in X; [congruence|reflexivity].
    + injection X as <- <- <-. apply (SAME false e); auto. rewrite <- E1, (short_input o I L). apply says_i_eq.
    + destruct e as [|c e]; [discriminate X|]. apply (GROUP _ _ X). intros k r E. rewrite <- E1, (short_detailed o I L), E.
      apply (grouped_eq (S k) r k); auto. now rewrite <- E.
    + apply group_informs in X; [congruence|reflexivity].
  - try rewrite E1. rewrite <- E4, <- E3 in X. cbn [expand] in X. destruct a; cbn [takes_value] in X.
    + apply group_informs in X; [congruence|reflexivity].
    + injection X as <- <- <-. apply (SAME false e); auto. rewrite <- E1, (short_input o I L). apply (says_i_joined _ 0); auto. exact (grouped_plain 0 (t "i" ++ e)).
    + apply (GROUP _ _ X). intros k r E. rewrite <- E1, (short_detailed o I L), E. exact (grouped_plain (S k) r).
    + apply group_informs in X; [congruence|reflexivity].
Qed.

Lemma consume_sound : forall n l inp det p q, length l <= n -> consume l inp det false = Parsed p q ->
  exists f d, line value_like l f d /\ q = (det || d) /\ p = match f with Some x => Some (values x) | None => inp end.
Proof.
  induction n as [|n IH]; intros l inp det p q L H.
  { destruct l; [|cbn in L; lia]. injection H as <- <-. exists None, false. rewrite orb_false_r. repeat split. constructor. }
  destruct l as [|s rest]. { injection H as <- <-. exists None, false. rewrite orb_false_r. repeat split. constructor. }
  apply step_sound in H. destruct H as (a & f & d & rest' & E & N & S & H). rewrite E.
  apply IH in H.
  2:{ rewrite E, app_length in L. destruct a; [congruence|]. cbn in L. lia. }
  destruct H as (f' & d' & LN & -> & ->). exists (match f' with Some _ => f' | None => f end), (d || d').
  split; [now constructor|]. split; [now rewrite orb_assoc|]. destruct f'; reflexivity.
Qed.

Theorem C130_only_these_proof : forall l f d, command_line l = Runs (Options f d) -> line value_like l f d /\ f <> Some (t "--").
Proof.
  intros l f d H. destruct l as [|s l]; [discriminate|]. unfold command_line, parse_args in H. destruct (some_ambiguous (s :: l)); [discriminate|].
  destruct (consume (s :: l) None false false) as [p q| | |] eqn:C; try discriminate.
  destruct (consume_sound _ _ _ _ _ _ (le_n _) C) as (f' & d' & LN & -> & ->). cbn [orb] in H. destruct f' as [x|].
  - unfold values in H. destruct (text_eqb x (t "--")) eqn:E; [discriminate|]. injection H as <- <-. split; auto.
    intros Q. injection Q as ->. now rewrite teq_refl in E.
  - injection H as <- <-. split; [exact LN|discriminate].
Qed.

(** ** Grouping *)

Theorem C131_group_refuted_proof : exists v rest,
  command_line (t "-d" :: (t "-i" ++ v) :: rest) <> command_line ((t "-di" ++ v) :: rest).
Proof. exists (t "=f"), []. vm_compute. discriminate. Qed.

Lemma group_same : forall v rest, (forall g, v <> t "=" ++ g) ->
  parse_args (t "-d" :: (t "-i" ++ v) :: rest) = parse_args ((t "-di" ++ v) :: rest).
Proof.
  intros v rest N. destruct v as [|c v]; [reflexivity|].
  assert (NC : c <> equals_sign) by (intros ->; now apply (N v)).
  assert (R1 : read_arg (t "-i" ++ c :: v) = Option Input false (Some (c :: v))).
  { change (t "-i" ++ c :: v) with (dash :: "i"%char :: c :: v). apply read_joined; auto. }
  assert (R2 : read_arg (t "-di" ++ c :: v) = Option Detailed false (Some ("i"%char :: c :: v))).
  { change (t "-di" ++ c :: v) with (dash :: "d"%char :: "i"%char :: c :: v). apply read_joined; auto. discriminate. }
  unfold parse_args.
  assert (A : some_ambiguous (t "-d" :: (t "-i" ++ c :: v) :: rest) = some_ambiguous ((t "-di" ++ c :: v) :: rest)).
  { cbn [some_ambiguous]. rewrite R1, R2. rewrite !tne by discriminate. reflexivity. }
  rewrite A. destruct (some_ambiguous ((t "-di" ++ c :: v) :: rest)); [reflexivity|].
  cbn [consume]. rewrite R1, R2. rewrite !tne by discriminate. reflexivity.
Qed.

Theorem C131_group_proof : forall v rest, (forall g, v <> t "=" ++ g) ->
  command_line (t "-d" :: (t "-i" ++ v) :: rest) = command_line ((t "-di" ++ v) :: rest).
Proof. intros v rest N. unfold command_line. rewrite (group_same v rest N). reflexivity. Qed.
