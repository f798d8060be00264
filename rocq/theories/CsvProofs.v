(** The csv writer and reader are inverse to each other; fields never hold a NUL. *)
From Coq Require Import ZArith Bool Ascii String List Lia.
From Verif Require Import Base PyStr Csv PyStrProofs BaseFacts.
Import ListNotations.

(** One record fed to the reader, the end mark after each line feed; succeeds when the
    record is completed by the last character and not earlier. *)
Fixpoint feed (r : creader) (s : text) : option creader :=
  match s with
  | [] => None
  | c :: s' =>
      if Ascii.eqb c chr_nul then None else
      match process_char r (Some c) with
      | Err _ => None
      | Ok r1 =>
          if Ascii.eqb c chr_lf then
            match process_char r1 None with
            | Err _ => None
            | Ok r2 =>
                match c_state r2, s' with
                | START_RECORD, [] => Some r2
                | START_RECORD, _ => None
                | _, _ => feed r2 s'
                end
            end
          else feed r1 s'
      end
  end.

Fixpoint chars (r : creader) (s : text) : option creader :=
  match s with
  | [] => Some r
  | c :: s' =>
      if Ascii.eqb c chr_nul then None else
      match process_char r (Some c) with Err _ => None | Ok r1 => chars r1 s' end
  end.

Lemma chars_app : forall p r r1 q, chars r p = Some r1 -> chars r (p ++ q) = chars r1 q.
Proof.
  induction p as [|c p IH]; intros r r1 q H; simpl in *.
  - now inversion H.
  - destruct (Ascii.eqb c chr_nul); [discriminate|]. destruct (process_char r (Some c)); [|discriminate]. auto.
Qed.

Lemma process_line_chars : forall p r r1 q, chars r p = Some r1 -> process_line r (p ++ q) = process_line r1 q.
Proof.
  induction p as [|c p IH]; intros r r1 q H; simpl in *.
  - now inversion H.
  - destruct (Ascii.eqb c chr_nul); [discriminate|]. destruct (process_char r (Some c)); [|discriminate].
    simpl. auto.
Qed.

Lemma feed_read : forall s r0 cur r r', chars r0 (rev cur) = Some r -> feed r s = Some r' ->
  forall ls, csv_read r0 (lines_from cur s ++ ls) =
    (let (rows, e) := csv_read c_init ls in (rev (c_fields r') :: rows, e)).
Proof.
  induction s as [|c s IH]; intros r0 cur r r' C F ls; cbn [feed] in F; [discriminate|].
  destruct (Ascii.eqb c chr_nul) eqn:Nul; [discriminate|].
  destruct (process_char r (Some c)) as [r1|] eqn:P1; [|discriminate].
  cbn [lines_from]. destruct (Ascii.eqb c chr_lf) eqn:E.
  - destruct (process_char r1 None) as [r2|] eqn:P2; [|discriminate].
    assert (PL : process_line r0 (rev (c :: cur)) = Ok r2).
    { simpl. rewrite (process_line_chars _ _ r) by exact C. simpl. rewrite Nul, P1. simpl. exact P2. }
    cbn [app]. cbn [csv_read]. rewrite PL.
    destruct (c_state r2) eqn:S2.
    1: { destruct s; [|discriminate]. inversion F; subst. simpl. reflexivity. }
    all: exact (IH r2 [] r2 r' eq_refl F ls).
  - apply (IH r0 (c :: cur) r1 r'); auto. simpl. rewrite (chars_app _ _ r) by exact C. simpl. now rewrite Nul, P1.
Qed.

Lemma lines_app : forall w cur rest, lines_from cur (w ++ chr_lf :: rest) = lines_from cur (w ++ [chr_lf]) ++ file_lines rest.
Proof.
  induction w as [|c w IH]; intros cur rest; cbn [app lines_from].
  - now rewrite Ascii.eqb_refl.
  - destruct (Ascii.eqb c chr_lf); rewrite IH; reflexivity.
Qed.

Definition no_nul (f : text) : Prop := ~ In chr_nul f.

Lemma neqb : forall a b : ascii, a <> b -> Ascii.eqb a b = false.
Proof. intros. now apply Ascii.eqb_neq. Qed.

Lemma no_nul_cons : forall c f, no_nul (c :: f) -> Ascii.eqb c chr_nul = false /\ no_nul f.
Proof.
  intros c f H. split.
  - apply neqb. intros ->. apply H. now left.
  - intros X. apply H. now right.
Qed.

Definition plain (c : ascii) : bool :=
  negb (Ascii.eqb c chr_comma || Ascii.eqb c chr_quote || is_crlf c).

Lemma feed_plain : forall f fld flds s, no_nul f -> forallb plain f = true ->
  feed (mkC IN_FIELD fld flds) (f ++ s) = feed (mkC IN_FIELD (rev f ++ fld) flds) s.
Proof.
  induction f as [|c f IH]; intros fld flds s N P; [reflexivity|].
  apply no_nul_cons in N. destruct N as (Nc & N). cbn [forallb] in P. apply andb_true_iff in P. destruct P as (Pc & P).
  unfold plain in Pc. rewrite negb_true_iff, !orb_false_iff in Pc. destruct Pc as ((P1 & P2) & P3).
  cbn [app feed]. rewrite Nc. cbn [process_char c_state]. rewrite P3, P1.
  assert (L : Ascii.eqb c chr_lf = false). { unfold is_crlf in P3. apply orb_false_iff in P3. tauto. }
  rewrite L. unfold add_char. cbn [c_field c_fields]. rewrite IH by auto. simpl. now rewrite <- app_assoc.
Qed.

Lemma feed_quoted : forall f fld flds s, no_nul f ->
  feed (mkC IN_QUOTED_FIELD fld flds) (double_quotes f ++ chr_quote :: s) =
  feed (mkC QUOTE_IN_QUOTED_FIELD (rev f ++ fld) flds) s.
Proof.
  induction f as [|c f IH]; intros fld flds s N.
  - cbn [double_quotes app feed]. change (Ascii.eqb chr_quote chr_nul) with false. cbv iota.
    cbn [process_char c_state]. rewrite Ascii.eqb_refl. unfold goto. cbn [c_field c_fields].
    change (Ascii.eqb chr_quote chr_lf) with false. cbv iota. reflexivity.
  - apply no_nul_cons in N. destruct N as (Nc & N).
    assert (R : (rev (c :: f) ++ fld)%list = (rev f ++ (c :: fld))%list) by (simpl; now rewrite <- app_assoc).
    rewrite R. cbn [double_quotes]. destruct (Ascii.eqb c chr_quote) eqn:Q.
    + apply Ascii.eqb_eq in Q. subst c. cbn [app feed]. change (Ascii.eqb chr_quote chr_nul) with false. cbv iota.
      cbn [process_char c_state]. rewrite Ascii.eqb_refl. unfold goto. cbn [c_field c_fields].
      change (Ascii.eqb chr_quote chr_lf) with false. cbv iota.
      cbn [process_char c_state]. rewrite Ascii.eqb_refl. unfold add_char. cbn [c_field c_fields]. apply IH; auto.
    + cbn [app feed]. rewrite Nc. cbn [process_char c_state]. rewrite Q. unfold add_char. cbn [c_field c_fields].
      destruct (Ascii.eqb c chr_lf); cbn [process_char c_state]; apply IH; auto.
Qed.

Lemma feed_comma : forall st fld flds s, st <> IN_QUOTED_FIELD -> st <> EAT_CRNL ->
  feed (mkC st fld flds) (chr_comma :: s) = feed (mkC START_FIELD [] (rev fld :: flds)) s.
Proof.
  intros st fld flds s N1 N2. cbn [feed]. change (Ascii.eqb chr_comma chr_nul) with false. cbv iota.
  destruct st; try contradiction; cbn [process_char c_state]; reflexivity.
Qed.

Lemma feed_crlf : forall st fld flds, st <> IN_QUOTED_FIELD -> st <> EAT_CRNL -> st <> START_RECORD ->
  feed (mkC st fld flds) [chr_cr; chr_lf] = Some (mkC START_RECORD [] (rev fld :: flds)).
Proof. intros st fld flds N1 N2 N3. destruct st; try contradiction; reflexivity. Qed.

Lemma needs_quote_plain : forall f, needs_quote f = false -> forallb plain f = true.
Proof.
  intros f H. apply forallb_forall. intros c I. unfold plain. apply negb_true_iff.
  unfold needs_quote in H. destruct (_ || _) eqn:E; auto.
  assert (X : existsb (fun c => Ascii.eqb c chr_comma || Ascii.eqb c chr_quote || is_crlf c) f = true).
  { apply existsb_exists. exists c. auto. }
  congruence.
Qed.

Lemma feed_field : forall f st flds s, no_nul f -> st = START_FIELD \/ st = START_RECORD ->
  exists st', feed (mkC st [] flds) (write_field f ++ s) = feed (mkC st' (rev f) flds) s /\
    (st' = IN_FIELD \/ st' = QUOTE_IN_QUOTED_FIELD \/ (st' = st /\ f = [])).
Proof.
  intros f st flds s N S. unfold write_field. destruct (needs_quote f) eqn:Q.
  - exists QUOTE_IN_QUOTED_FIELD. split; [|auto]. cbn [app]. rewrite <- app_assoc. cbn [app].
    rewrite <- (app_nil_r (rev f)). rewrite <- feed_quoted by auto.
    cbn [feed]. change (Ascii.eqb chr_quote chr_nul) with false. cbv iota.
    destruct S; subst st; reflexivity.
  - destruct f as [|c f].
    + exists st. auto.
    + exists IN_FIELD. split; [|auto]. apply needs_quote_plain in Q. apply no_nul_cons in N. destruct N as (Nc & N).
      cbn [forallb] in Q. apply andb_true_iff in Q. destruct Q as (Pc & P).
      unfold plain in Pc. rewrite negb_true_iff, !orb_false_iff in Pc. destruct Pc as ((P1 & P2) & P3).
      assert (L : Ascii.eqb c chr_lf = false). { unfold is_crlf in P3. apply orb_false_iff in P3. tauto. }
      change (rev (c :: f)) with (rev f ++ [c])%list. rewrite <- feed_plain by auto.
      cbn [app feed]. rewrite Nc.
      destruct S; subst st; cbn [process_char c_state]; rewrite ?P3; cbn [start_field]; rewrite P3, P2, P1, L; reflexivity.
Qed.

Lemma feed_fields : forall row f flds st, Forall no_nul (f :: row) ->
  st = START_FIELD \/ (st = START_RECORD /\ (row <> [] \/ f <> [])) ->
  feed (mkC st [] flds) (join [chr_comma] (map write_field (f :: row)) ++ [chr_cr; chr_lf]) =
  Some (mkC START_RECORD [] (rev (f :: row) ++ flds)).
Proof.
  induction row as [|g row IH]; intros f flds st N S; inversion N as [|? ? Nf N']; subst.
  - cbn [map join]. destruct (feed_field f st flds [chr_cr; chr_lf] Nf) as (st' & -> & C).
    { destruct S as [S|(S & _)]; auto. }
    assert (R : rev [f] ++ flds = rev (rev f) :: flds) by (simpl; now rewrite rev_involutive).
    rewrite R. apply feed_crlf.
    1-2: destruct C as [->|[->|(-> & _)]]; try discriminate; destruct S as [->|(-> & _)]; discriminate.
    destruct C as [->|[->|(-> & C)]]; try discriminate.
    destruct S as [->|(-> & [C'|C'])]; try discriminate; contradiction.
  - change (join [chr_comma] (map write_field (f :: g :: row)))
      with (write_field f ++ chr_comma :: join [chr_comma] (map write_field (g :: row))).
    rewrite <- app_assoc. cbn [app].
    destruct (feed_field f st flds (chr_comma :: join [chr_comma] (map write_field (g :: row)) ++ [chr_cr; chr_lf]) Nf)
      as (st' & -> & C).
    { destruct S as [S|(S & _)]; auto. }
    rewrite feed_comma.
    2-3: destruct C as [->|[->|(-> & _)]]; try discriminate; destruct S as [->|(-> & _)]; discriminate.
    rewrite rev_involutive, IH by auto. f_equal. f_equal. simpl. now rewrite <- !app_assoc.
Qed.

Lemma feed_row : forall row, Forall no_nul row ->
  feed c_init (write_row row) = Some (mkC START_RECORD [] (rev row)).
Proof.
  intros row N. destruct row as [|f row].
  - reflexivity.
  - destruct f as [|c f]; [destruct row as [|g row]|].
    + reflexivity.
    + change (write_row ([] :: g :: row)) with (join [chr_comma] (map write_field ([] :: g :: row)) ++ [chr_cr; chr_lf]).
      unfold c_init. rewrite feed_fields; auto.
      * now rewrite app_nil_r.
      * right. split; auto. left. discriminate.
    + change (write_row ((c :: f) :: row)) with (join [chr_comma] (map write_field ((c :: f) :: row)) ++ [chr_cr; chr_lf]).
      unfold c_init. rewrite feed_fields; auto.
      * now rewrite app_nil_r.
      * right. split; auto. right. discriminate.
Qed.

Lemma write_row_lf : forall row, exists w, write_row row = w ++ [chr_lf].
Proof.
  intros row.
  assert (G : exists w, join [chr_comma] (map write_field row) ++ [chr_cr; chr_lf] = w ++ [chr_lf]).
  { exists (join [chr_comma] (map write_field row) ++ [chr_cr]). now rewrite <- app_assoc. }
  destruct row as [|[|c f] row]; auto. destruct row; auto.
  exists [chr_quote; chr_quote; chr_cr]. reflexivity.
Qed.

(** Whatever records are written, the same records are read. *)
Lemma csv_round_trip : forall rows, Forall (Forall no_nul) rows ->
  csv_read c_init (file_lines (List.concat (map write_row rows))) = (rows, None).
Proof.
  induction rows as [|row rows IH]; intros N; [reflexivity|]. inversion N; subst.
  cbn [map List.concat]. destruct (write_row_lf row) as (w & E).
  assert (L : file_lines (write_row row ++ List.concat (map write_row rows)) =
     lines_from [] (write_row row) ++ file_lines (List.concat (map write_row rows))).
  { rewrite E. rewrite <- app_assoc. cbn [app]. apply lines_app. }
  rewrite L. rewrite (feed_read (write_row row) c_init [] c_init _ eq_refl (feed_row row H1)).
  rewrite IH by auto. cbn [c_fields]. now rewrite rev_involutive.
Qed.

(** ** Fields read from a file hold no NUL *)
Definition clean (r : creader) : Prop := no_nul (c_field r) /\ Forall no_nul (c_fields r).

Lemma no_nul_rev : forall f, no_nul f -> no_nul (rev f).
Proof. intros f H X. apply H. now apply in_rev. Qed.

Lemma clean_save : forall r st, clean r -> clean (save_field r st).
Proof.
  intros r st (A & B). split; cbn; [intros []|]. constructor; auto. now apply no_nul_rev.
Qed.
Lemma clean_add : forall r st c, clean r -> c <> chr_nul -> clean (add_char r st c).
Proof. intros r st c (A & B) N. split; cbn; auto. intros [H|H]; auto. Qed.
Lemma clean_goto : forall r st, clean r -> clean (goto r st).
Proof. intros r st C. exact C. Qed.

Lemma clean_process : forall r c r', clean r -> (forall x, c = Some x -> x <> chr_nul) ->
  process_char r c = Ok r' -> clean r'.
Proof.
  intros r c r' C N H. unfold process_char, start_field in H.
  repeat match type of H with
  | context [match ?x with _ => _ end] => destruct x eqn:?
  end; inversion H; subst; auto using clean_save, clean_goto;
  apply clean_add; auto.
Qed.

Lemma clean_line : forall l r r', clean r -> process_line r l = Ok r' -> clean r'.
Proof.
  induction l as [|c l IH]; intros r r' C H; cbn [process_line] in H.
  - eapply clean_process; eauto. discriminate.
  - destruct (Ascii.eqb c chr_nul) eqn:E; [discriminate|]. apply bind_ok in H. destruct H as (r1 & H1 & H).
    apply (IH r1); auto. eapply clean_process; eauto. intros x X. inversion X; subst. now apply Ascii.eqb_neq.
Qed.

Lemma clean_init : clean c_init.
Proof. split; [intros []|constructor]. Qed.

Lemma rev_forall : forall A (P : A -> Prop) l, Forall P l -> Forall P (rev l).
Proof. intros. now apply Forall_rev. Qed.

Lemma csv_clean : forall ls r rows e, clean r -> csv_read r ls = (rows, e) -> Forall (Forall no_nul) rows.
Proof.
  induction ls as [|l ls IH]; intros r rows e C H; cbn [csv_read] in H.
  - assert (X : Forall no_nul (rev (c_fields (save_field r START_RECORD)))).
    { apply rev_forall. apply clean_save. exact C. }
    destruct (c_state r); destruct (c_field r); inversion H; repeat constructor; exact X.
  - destruct (process_line r l) as [r1|x] eqn:P; [|inversion H; constructor].
    assert (C1 := clean_line _ _ _ C P).
    destruct (c_state r1); try (eapply IH; eauto; fail).
    destruct (csv_read c_init ls) as [rows1 e1] eqn:Q. inversion H; subst. constructor.
    + apply rev_forall. apply C1.
    + exact (IH c_init _ _ clean_init Q).
Qed.
