(** Proofs of C01, C06, C07, C09 for whole files. *)
From Coq Require Import ZArith Bool Ascii String List Permutation Lia.
From Verif Require Import Base Ops BaseFacts PyStr Csv EqCatalog EqCatSpec PyStrProofs CsvProofs EqCatProofs EqCatRow.
Import ListNotations.

Lemma lines_first : forall s cur, ~ In chr_lf (rev cur) ->
  (exists l rest, s = l ++ chr_lf :: rest /\ ~ In chr_lf l /\
     lines_from cur s = (rev cur ++ l ++ [chr_lf]) :: lines_from [] rest) \/
  (~ In chr_lf s /\ lines_from cur s = match rev cur ++ s with [] => [] | x => [x] end).
Proof.
  induction s as [|c s IH]; intros cur N; cbn [lines_from].
  - right. split; [intros []|]. rewrite app_nil_r. destruct cur as [|x cur]; auto.
    simpl. destruct (rev cur ++ [x]) eqn:E; auto. apply app_eq_nil in E. destruct E; discriminate.
  - destruct (Ascii.eqb c chr_lf) eqn:E.
    + apply Ascii.eqb_eq in E. subst. left. exists [], s. split; auto.
    + apply Ascii.eqb_neq in E. destruct (IH (c :: cur)) as [(l & rest & -> & Nl & ->)|(Ns & ->)].
      { simpl. intros X. apply in_app_or in X. destruct X as [X|[X|[]]]; auto. }
      * left. exists (c :: l), rest. split; auto. split; [intros [X|X]; auto|]. simpl. now rewrite <- !app_assoc.
      * right. split; [intros [X|X]; auto|]. simpl. now rewrite <- app_assoc.
Qed.

Lemma first_line_spec : forall content, is_first_line content (first_line (file_lines content)).
Proof.
  intros content. destruct (lines_first content [] (fun x => x)) as [(l & rest & E & N & L)|(N & L)];
    unfold file_lines; rewrite L; simpl.
  - left. exists rest. split; [now rewrite <- app_assoc|]. exists l. auto.
  - right. destruct content; auto.
Qed.

Lemma comma_separated_join : forall ps, comma_separated ps = join [chr_comma] ps.
Proof. induction ps as [|p [|q ps] IH]; auto. simpl in *. now rewrite IH. Qed.

Lemma columns_trimmed : Forall (fun n => trimmed (t n)) columns.
Proof.
  unfold columns. repeat (constructor; [split;
    [intros c r H; vm_compute in H; inversion H; reflexivity|
     intros c r H; apply (f_equal (@rev ascii)) in H; rewrite rev_app_distr in H; vm_compute in H; inversion H; reflexivity]|]).
  constructor.
Qed.

Lemma all_match : forall names cols, Forall (fun n => trimmed (t n)) cols ->
  (Nat.eqb (length names) (length cols) && forallb (fun b => b) (map2 text_eqb (map strip names) (map t cols)) = true <->
   Forall2 padded cols names).
Proof.
  induction names as [|p names IH]; intros [|n cols] Tr; simpl; split; intros H; try discriminate; try constructor.
  - inversion H.
  - inversion H.
  - inversion Tr as [|? ? Tn Tr']; subst. rewrite !andb_true_iff in H. destruct H as (H1 & H2 & H3).
    apply text_eqb_eq in H2. apply (strip_iff p (t n) Tn) in H2. exact H2.
  - inversion Tr as [|? ? Tn Tr']; subst. rewrite !andb_true_iff in H. destruct H as (H1 & H2 & H3).
    apply IH; auto. now rewrite andb_true_iff.
  - inversion Tr as [|? ? Tn Tr']; subst. inversion H; subst. apply (IH cols Tr') in H5.
    rewrite andb_true_iff in H5. destruct H5 as (A & B). rewrite A, B.
    assert (E : text_eqb (strip p) (t n) = true).
    { apply text_eqb_eq. apply (strip_iff p (t n) Tn). exact H3. }
    now rewrite E.
Qed.

Lemma header_iff : forall l, validate_csv_catalog l = Ok tt <-> is_header l.
Proof.
  intros l. unfold validate_csv_catalog. rewrite map_length. change FIELDNAMES with columns.
  destruct (split_on_join chr_comma l) as (J & F).
  split.
  - intros H. destruct (_ && _) eqn:E; [|discriminate]. apply (all_match _ columns columns_trimmed) in E.
    exists (split_on chr_comma l). split; [now rewrite comma_separated_join|]. split; auto.
  - intros (ps & -> & Fp & P2). rewrite comma_separated_join in *.
    rewrite join_split; auto.
    + apply (all_match _ columns columns_trimmed) in P2. now rewrite P2.
    + intros ->. inversion P2.
Qed.

Section P.
Context {AR : Ops}.
Variable parse_float : text -> option T.
Variable now : Z.
Variable order : list key -> list key.

Lemma C01_proof : forall content, exists line, is_first_line content line /\
  (is_header line -> validate_csv_catalog line = Ok tt /\
     read_file parse_float now order content =
     (let (rows, x) := csv_read c_init (tl (file_lines content)) in read_rows parse_float now order 2 rows x)) /\
  (~ is_header line -> validate_csv_catalog line = Err MalformedCatalogError /\
     read_file parse_float now order content = ([], Some MalformedCatalogError) /\
     read_eq_catalog parse_float now order content = Err MalformedCatalogError).
Proof.
  intros content. exists (first_line (file_lines content)). split; [apply first_line_spec|].
  unfold read_eq_catalog, read_file. split.
  - intros H. apply header_iff in H. rewrite H. auto.
  - intros H. assert (E : validate_csv_catalog (first_line (file_lines content)) = Err MalformedCatalogError).
    { destruct (validate_csv_catalog _) as [[]|e] eqn:E.
      - elim H. now apply header_iff.
      - unfold validate_csv_catalog in E. destruct (_ && _); congruence. }
    rewrite E. auto.
Qed.

(** ** C06 *)
Definition nonblank (rows : list (list text)) : list (list text) :=
  filter (fun r => match r with [] => false | _ => true end) rows.

(** [es] are the entries of the first rows, numbered from [line]; [x] tells how reading
    ended. *)
Definition reads_as (line : Z) (rs : list (list text)) (cx : option exn) (es : list (entry AR)) (x : option exn) : Prop :=
  (forall i e, nth_error es i = Some e -> exists r, nth_error rs i = Some r /\
     read_entry parse_float now order (line + Z.of_nat i) r = Ok e) /\
  ((length es = length rs /\ x = cx) \/
   (exists r y, nth_error rs (length es) = Some r /\ x = Some y /\
      read_entry parse_float now order (line + Z.of_nat (length es)) r = Err y)).

Lemma read_rows_spec : forall rows line cx,
  reads_as line (nonblank rows) cx (fst (read_rows parse_float now order line rows cx))
    (snd (read_rows parse_float now order line rows cx)).
Proof.
  induction rows as [|row rows IH]; intros line cx; cbn [read_rows nonblank filter].
  - split; [intros i e H; destruct i; discriminate|]. left. auto.
  - destruct row as [|c row]; [apply IH|].
    destruct (read_entry parse_float now order line (c :: row)) as [en|y] eqn:E.
    + specialize (IH (line + 1)%Z cx). destruct (read_rows parse_float now order (line + 1) rows cx) as [es x].
      cbn [fst snd] in *. destruct IH as (A & B). split.
      * intros [|i] e H; simpl in H.
        { inversion H; subst. exists (c :: row). rewrite Z.add_0_r. auto. }
        { destruct (A i e H) as (r & R1 & R2). exists r. split; auto.
          replace (line + Z.of_nat (S i))%Z with (line + 1 + Z.of_nat i)%Z by lia. exact R2. }
      * destruct B as [(L & X)|(r & y & R1 & R2 & R3)]; [left|right].
        { split; auto. simpl. now rewrite L. }
        { exists r, y. split; auto. split; auto. cbn [length].
          replace (line + Z.of_nat (S (length es)))%Z with (line + 1 + Z.of_nat (length es))%Z by lia. exact R3. }
    + cbn [fst snd]. split.
      * intros i e H. destruct i; discriminate.
      * right. exists (c :: row), y. simpl. rewrite Z.add_0_r. auto.
Qed.

Lemma C06_proof : forall content rows cx, is_header (first_line (file_lines content)) ->
  csv_read c_init (tl (file_lines content)) = (rows, cx) ->
  exists es x, read_file parse_float now order content = (es, x) /\
    reads_as 2 (nonblank rows) cx es x /\
    read_eq_catalog parse_float now order content = match x with None => Ok es | Some e => Err e end.
Proof.
  intros content rows cx H C. unfold read_eq_catalog, read_file. apply header_iff in H. rewrite H, C.
  assert (X := read_rows_spec rows 2 cx).
  destruct (read_rows parse_float now order 2 rows cx) as [es x]. exists es, x. cbn [fst snd] in X. 
  split; [reflexivity|]. split; [exact X|]. destruct x; reflexivity.
Qed.

(** Whole catalogue read: one entry for each record, in order. *)
Lemma C06_all_proof : forall content es, read_eq_catalog parse_float now order content = Ok es ->
  is_header (first_line (file_lines content)) /\
  exists rows, csv_read c_init (tl (file_lines content)) = (rows, None) /\
    Forall2 (fun ir e => read_entry parse_float now order (2 + Z.of_nat (fst ir)) (snd ir) = Ok e)
      (combine (seq 0 (length (nonblank rows))) (nonblank rows)) es.
Proof.
  intros content es H. unfold read_eq_catalog in H.
  assert (Hd : is_header (first_line (file_lines content))).
  { apply header_iff. unfold read_file in H. destruct (validate_csv_catalog _) as [[]|e]; auto. discriminate. }
  split; auto. destruct (csv_read c_init (tl (file_lines content))) as [rows cx] eqn:C.
  destruct (C06_proof content rows cx Hd C) as (es' & x & R & (A & B) & _). rewrite R in H.
  destruct x; [discriminate|]. inversion H; subst es'.
  destruct B as [(L & <-)|(r & y & _ & X & _)]; [|discriminate].
  exists rows. split; auto. clear - A L. set (rs := nonblank rows) in *. clearbody rs.
  assert (G : forall k rs es, length es = length rs ->
    (forall i e, nth_error es i = Some e -> exists r, nth_error rs i = Some r /\
       read_entry parse_float now order (2 + Z.of_nat (k + i)) r = Ok e) ->
    Forall2 (fun ir e => read_entry parse_float now order (2 + Z.of_nat (fst ir)) (snd ir) = Ok e)
      (combine (seq k (length rs)) rs) es).
  { clear. intros k rs. revert k. induction rs as [|r rs IH]; intros k [|e es] L A; simpl in L; try discriminate; simpl; constructor.
    - destruct (A 0 e eq_refl) as (r' & R1 & R2). inversion R1; subst. simpl. now rewrite Nat.add_0_r in R2.
    - apply IH; [congruence|]. intros i e' H. destruct (A (S i) e' H) as (r' & R1 & R2). exists r'. split; auto.
      replace (S k + i) with (k + S i) by lia. exact R2. }
  apply (G 0); auto.
Qed.

Lemma C06_raise_proof : forall content x, read_eq_catalog parse_float now order content = Err x ->
  is_header (first_line (file_lines content)) ->
  exists rows cx es, csv_read c_init (tl (file_lines content)) = (rows, cx) /\
    read_file parse_float now order content = (es, Some x) /\
    (forall i e, nth_error es i = Some e -> exists r, nth_error (nonblank rows) i = Some r /\
       read_entry parse_float now order (2 + Z.of_nat i) r = Ok e) /\
    ((length es = length (nonblank rows) /\ cx = Some x) \/
     (exists r, nth_error (nonblank rows) (length es) = Some r /\
        read_entry parse_float now order (2 + Z.of_nat (length es)) r = Err x)).
Proof.
  intros content x H Hd. destruct (csv_read c_init (tl (file_lines content))) as [rows cx] eqn:C.
  destruct (C06_proof content rows cx Hd C) as (es & x' & R & (A & B) & E). rewrite H in E.
  destruct x' as [x'|]; [|discriminate]. inversion E; subst x'.
  exists rows, cx, es. split; auto. split; auto. split; auto.
  destruct B as [(L & X)|(r & y & R1 & R2 & R3)]; [left|right; exists r]; auto.
  inversion R2; subst. auto.
Qed.

(** C07 and C09 for a whole file *)
Lemma C09_file_proof : forall content rows cx r, rearranges order ->
  csv_read c_init (tl (file_lines content)) = (rows, cx) -> In r rows -> r <> [] -> length r <> 25 ->
  exists x, read_eq_catalog parse_float now order content = Err x.
Proof.
  intros content rows cx r R C I Nr L.
  destruct (read_eq_catalog parse_float now order content) as [es|x] eqn:E; [|eauto]. exfalso.
  destruct (C06_all_proof content es E) as (_ & rows' & C' & F). rewrite C in C'. inversion C'; subst rows' cx.
  assert (Ir : In r (nonblank rows)). { apply filter_In. split; auto. destruct r; [contradiction|reflexivity]. }
  apply In_nth_error in Ir. destruct Ir as (i & Hi).
  assert (Hi' : exists ir, In ir (combine (seq 0 (length (nonblank rows))) (nonblank rows)) /\ snd ir = r).
  { clear - Hi. revert i Hi. generalize (nonblank rows) 0. induction l as [|a l IH]; intros n [|i] Hi; simpl in *; try discriminate.
    - inversion Hi; subst. exists (n, r). auto.
    - destruct (IH (S n) i Hi) as (ir & A & B). exists ir. auto. }
  destruct Hi' as (ir & A & <-). 
  assert (X : exists e, read_entry parse_float now order (2 + Z.of_nat (fst ir)) (snd ir) = Ok e).
  { clear - F A. revert A. induction F; intros A; [destruct A|]. destruct A as [<-|A]; eauto. }
  destruct X as (e & X). apply L. eapply accepted_length; eauto.
Qed.

Lemma C07_file_proof : forall content x, rearranges order ->
  read_eq_catalog parse_float now order content = Err x -> is_header (first_line (file_lines content)) ->
  exists rows cx i, csv_read c_init (tl (file_lines content)) = (rows, cx) /\
    ((i = length (nonblank rows) /\ cx = Some x) \/
     exists r, nth_error (nonblank rows) i = Some r /\
       (length r <> 25 \/
        (exists f P, In (f, P) (requirements parse_float now r) /\ ~ P /\
           x = EqEntryValidationError f (2 + Z.of_nat i)) \/
        (x = TypeError /\ exists f, In f floats /\ parse_float (cell r f) = None))) /\
    (forall j r, j < i -> nth_error (nonblank rows) j = Some r -> length r = 25 /\ acceptable parse_float now r).
Proof.
  intros content x R H Hd. destruct (C06_raise_proof content x H Hd) as (rows & cx & es & C & _ & A & B).
  exists rows, cx, (length es). split; auto. split.
  - destruct B as [B|(r & R1 & R2)]; [left; auto|right]. exists r. split; auto.
    destruct (Nat.eq_dec (length r) 25) as [L|L]; [right|left; auto].
    exact (C07_partial_proof parse_float now order _ r x R L R2).
  - intros j r Hj Hr. destruct (nth_error es j) as [e|] eqn:E; [|apply nth_error_None in E; lia].
    destruct (A j e E) as (r' & R1 & R2). assert (r' = r) by congruence. subst.
    assert (L := accepted_length parse_float now order _ _ _ R R2). split; auto.
    apply (C03_proof parse_float now order (2 + Z.of_nat j) r R L). eauto.
Qed.

End P.
