(** Proof of C11: reading back a written catalogue. *)
From Coq Require Import ZArith Bool Ascii String List Permutation Lia.
From Verif Require Import Base Ops BaseFacts PyStr Csv EqCatalog EqCatSpec PyStrProofs CsvProofs EqCatProofs EqCatRow EqCatFile.
Import ListNotations.
Local Open Scope string_scope.

Section P.
Context {AR : Ops}.
Variable parse_float : text -> option T.
Variable repr_float : T -> text.
Variable now : Z.
Variable order : list key -> list key.
Hypothesis R : rearranges order.
(** The numbers that can stand in an entry, those read and 0.0, are read back. *)
Hypothesis num_read : forall s x, parse_float s = Some x ->
  parse_float (repr_float x) = Some x /\ no_nul (repr_float x).
Hypothesis num_zero : parse_float (repr_float (ofZ 0)) = Some (ofZ 0) /\ no_nul (repr_float (ofZ 0)).
Hypothesis parse_empty : parse_float [] = None.

Definition out_row (e : entry AR) : list text := map (fun f => value_text repr_float (get (Some f) e)) columns.

Lemma out_cell : forall e f, In f columns -> cell (out_row e) f = value_text repr_float (get (Some f) e).
Proof.
  intros e f I. unfold cell, out_row. generalize columns I. intros l. induction l as [|n l IH]; simpl; [tauto|].
  intros [->|H]; [now rewrite String.eqb_refl|]. destruct (String.eqb f n) eqn:E; auto.
  apply String.eqb_eq in E. now subst.
Qed.

Lemma get_or_blank_get : forall (e : entry AR) k, In k (map fst e) -> get_or_blank k e = get k e.
Proof.
  induction e as [|[k' v] e IH]; simpl; [tauto|]. intros k [->|H].
  - now rewrite key_eqb_refl.
  - destruct (key_eqb k k'); auto.
Qed.

Lemma keys_of : forall line row e, read_entry parse_float now order line row = Ok e ->
  map fst e = order (map Some columns).
Proof.
  intros line row e H. destruct (C04_proof parse_float now order line row e R (accepted_length _ _ _ _ _ _ R H) H). auto.
Qed.

Lemma dict_row_out : forall line row e, read_entry parse_float now order line row = Ok e ->
  dict_row repr_float e = Ok (out_row e).
Proof.
  intros line row e H. assert (K := keys_of _ _ _ H). destruct (order_facts order R) as (N & C & I).
  unfold dict_row. rewrite K.
  assert (F : forallb (fun k => match k with Some f => mem f FIELDNAMES | None => false end) (order (map Some columns)) = true).
  { apply forallb_forall. intros k Hk. destruct (C k Hk) as (f & -> & Hf). now apply mem_in. }
  rewrite F. f_equal. change FIELDNAMES with columns. apply map_ext_in. intros f Hf.
  rewrite get_or_blank_get; auto. rewrite K. auto.
Qed.

Lemma entry_ext : forall (e e' : entry AR), map fst e = map fst e' -> NoDup (map fst e) ->
  (forall k, In k (map fst e) -> get k e = get k e') -> e = e'.
Proof.
  induction e as [|[k v] e IH]; intros [|[k' v'] e'] K N G; simpl in K; try discriminate; auto.
  inversion K; subst k'. inversion N as [|? ? Q N']; subst.
  assert (E := G k (or_introl eq_refl)). simpl in E. rewrite key_eqb_refl in E. subst v'. f_equal.
  apply IH; auto. intros q Hq. specialize (G q (or_intror Hq)). simpl in G.
  rewrite key_eqb_neq in G; auto. intros ->. contradiction.
Qed.

Lemma parse_repr : forall s x, parse_float s = Some x -> parse_float (repr_float x) = Some x.
Proof. intros s x H. now apply num_read in H. Qed.

Lemma field_cases : forall f, In f columns ->
  In f ints \/ In f floats \/ f = "Agency" \/ (exists ok d, In (f, ok, d) (@optional_rules AR)) \/ In f ellipse.
Proof.
  intros f Hf. in_cases Hf; first [ left; inlist | right; left; inlist | right; right; left; reflexivity
      | right; right; right; right; inlist | right; right; right; left; eexists _, _; simpl; eauto 12 ].
Qed.

Lemma entry_nums : forall line row e f x, read_entry parse_float now order line row = Ok e -> In f columns ->
  get (Some f) e = VFlt x -> parse_float (repr_float x) = Some x /\ no_nul (repr_float x).
Proof.
  intros line row e f x H Hf X. assert (L := accepted_length parse_float now order _ _ _ R H).
  destruct (C04_proof parse_float now order line row e R L H) as (K & Gi & Gf & Ga & Go).
  destruct (field_cases f Hf) as [Q|[Q|[->|[(ok & d & Q)|Q]]]].
  - destruct (Gi f Q) as (z & _ & G). congruence.
  - destruct (Gf f Q) as (z & E & G). rewrite G in X. injection X as ->. eapply num_read; eauto.
  - congruence.
  - rewrite (Go f ok d Q) in X.
    assert (Cs : d = VStr [] \/ d = VFlt (ofZ 0)).
    { clear - Q. simpl in Q. repeat (destruct Q as [Q|Q]); try (exact (False_ind _ Q)); inversion Q; auto. }
    unfold kept_or in X. destruct (parse_float (cell row f)) as [y|] eqn:P.
    + destruct (ok y); [injection X as ->; eapply num_read; eauto|]. destruct Cs as [->| ->]; [discriminate|].
      injection X as <-. exact num_zero.
    + destruct Cs as [->| ->]; [discriminate|]. injection X as <-. exact num_zero.
  - destruct (ellipse_facts parse_float now order line row e R L H) as ([AB|(a & b & s & Ea & Eb & Es & _ & _ & Gs & Ca & Cb)] & _).
    + rewrite (AB f Q) in X. discriminate.
    + destruct Q as [<-|[<-|[<-|[]]]].
      * destruct Ca as [(_ & G)|(_ & G & _)]; rewrite G in X; [injection X as ->; eapply num_read; eauto|discriminate].
      * destruct Cb as [(_ & G)|(_ & G & _)]; rewrite G in X; [injection X as ->; eapply num_read; eauto|discriminate].
      * rewrite Gs in X. injection X as ->. eapply num_read; eauto.
Qed.

Lemma reread : forall line row e line', read_entry parse_float now order line row = Ok e ->
  ellipse_consistent e -> read_entry parse_float now order line' (out_row e) = Ok e.
Proof.
  intros line row e line' H EC. assert (L := accepted_length parse_float now order _ _ _ R H).
  assert (A : acceptable parse_float now row) by (apply (C03_proof parse_float now order line row R L); eauto).
  destruct (C04_proof parse_float now order line row e R L H) as (K & Gi & Gf & Ga & Go).
  assert (L' : length (out_row e) = 25) by reflexivity.
  assert (Ci : forall f, In f ints -> parse_int (cell (out_row e) f) = parse_int (cell row f)).
  { intros f Hf. destruct (Gi f Hf) as (z & E & G). rewrite out_cell by (in_cases Hf; inlist). rewrite G, E.
    apply parse_print_int. }
  assert (Cf : forall f, In f floats -> parse_float (cell (out_row e) f) = parse_float (cell row f)).
  { intros f Hf. destruct (Gf f Hf) as (z & E & G). rewrite out_cell by (in_cases Hf; inlist). rewrite G, E.
    eapply parse_repr; eauto. }
  assert (A' : acceptable parse_float now (out_row e)).
  { unfold acceptable, requirements, int_cell, float_cell in *.
    rewrite !Ci by inlist. rewrite !Cf by inlist. exact A. }
  apply (C03_proof parse_float now order line' (out_row e) R L') in A'. destruct A' as (e' & H').
  destruct (C04_proof parse_float now order line' (out_row e) e' R L' H') as (K' & Gi' & Gf' & Ga' & Go').
  rewrite H'. f_equal. apply entry_ext; [congruence| |].
  { rewrite K'. apply (order_facts order R). }
  intros k Hk. rewrite K' in Hk. destruct (order_facts order R) as (_ & C & _).
  destruct (C k Hk) as (f & -> & Hf). clear Hk C.
  destruct (field_cases f Hf) as [Q|[Q|[->|[(ok & d & Q)|Q]]]].
  - destruct (Gi f Q) as (z & E & G). destruct (Gi' f Q) as (z' & E' & G'). rewrite Ci in E' by auto. congruence.
  - destruct (Gf f Q) as (z & E & G). destruct (Gf' f Q) as (z' & E' & G'). rewrite Cf in E' by auto. congruence.
  - rewrite Ga', out_cell, Ga by auto. reflexivity.
  - rewrite (Go' f ok d Q), out_cell, (Go f ok d Q) by auto.
    assert (D : kept_or parse_float ok d (value_text repr_float d) = d).
    { assert (Cs : d = VStr [] \/ d = VFlt (ofZ 0)).
      { clear - Q. simpl in Q. repeat (destruct Q as [Q|Q]); try (exact (False_ind _ Q)); inversion Q; auto. }
      destruct Cs as [->| ->]; unfold kept_or; simpl.
      - now rewrite parse_empty.
      - rewrite (proj1 num_zero). destruct (ok (ofZ 0)); reflexivity. }
    unfold kept_or at 2 3. destruct (parse_float (cell row f)) as [x|] eqn:P; auto.
    destruct (ok x) eqn:O; auto. unfold kept_or. cbn [value_text]. now rewrite (parse_repr _ _ P), O.
  - destruct (ellipse_facts parse_float now order line row e R L H) as (F & _).
    destruct (ellipse_facts parse_float now order line' (out_row e) e' R L' H') as (F' & Kp).
    destruct EC as [AB|AN].
    + rewrite (AB f Q).
      destruct F' as [AB'|(a & b & s & Ea & _)]; [now apply AB'|].
      exfalso. rewrite out_cell, (AB "SemiMajor90") in Ea by inlist. cbn in Ea. congruence.
    + destruct F as [AB|(a & b & s & Ea & Eb & Es & Le & W & Gs & Ca & Cb)].
      { destruct (AN f Q) as (x & X). rewrite (AB f Q) in X. discriminate. }
      destruct (AN "SemiMajor90" ltac:(inlist)) as (x & X). destruct (AN "SemiMinor90" ltac:(inlist)) as (y & Y).
      destruct Ca as [(Pa & Ga1)|(_ & Z & _)]; [|congruence].
      destruct Cb as [(Pb & Gb1)|(_ & Z & _)]; [|congruence].
      assert (Adm : ellipse_admissible parse_float (out_row e)).
      { exists a, b, s. rewrite !out_cell by inlist. rewrite Ga1, Gb1, Gs. cbn [value_text]. rewrite (parse_repr _ _ Ea), (parse_repr _ _ Eb), (parse_repr _ _ Es). auto 10. }
      destruct (Kp Adm f Q) as (v & V1 & V2). rewrite V2. rewrite out_cell in V1 by auto.
      destruct (AN f Q) as (w & Wf). rewrite Wf in V1 |- *. cbn [value_text] in V1. rewrite (proj1 (entry_nums _ _ _ _ _ H Hf Wf)) in V1. congruence.
Qed.

Lemma out_row_clean : forall line row e, read_entry parse_float now order line row = Ok e ->
  Forall no_nul row -> Forall no_nul (out_row e).
Proof.
  intros line row e H N. assert (L := accepted_length parse_float now order _ _ _ R H).
  destruct (C04_proof parse_float now order line row e R L H) as (K & Gi & Gf & Ga & Go).
  apply Forall_forall. intros v Hv. apply in_map_iff in Hv. destruct Hv as (f & <- & Hf).
  assert (Cs : (exists z, get (Some f) e = VInt z) \/ (exists x, get (Some f) e = VFlt x) \/ get (Some f) e = VStr [] \/ f = "Agency").
  { destruct (field_cases f Hf) as [Q|[Q|[->|[(ok & d & Q)|Q]]]]; auto.
    - destruct (Gi f Q) as (z & _ & Z). eauto.
    - destruct (Gf f Q) as (z & _ & Z). eauto.
    - rewrite (Go f ok d Q).
      assert (Cs : d = VStr [] \/ d = VFlt (ofZ 0)).
      { clear - Q. simpl in Q. repeat (destruct Q as [Q|Q]); try (exact (False_ind _ Q)); inversion Q; auto. }
      unfold kept_or. destruct (parse_float (cell row f)) as [y|]; [destruct (ok y); [eauto|]|]; destruct Cs as [->| ->]; eauto.
    - destruct (ellipse_facts parse_float now order line row e R L H) as ([AB|(a & b & s & _ & _ & _ & _ & _ & Gs & Ca & Cb)] & _).
      { rewrite (AB f Q). auto. }
      destruct Q as [<-|[<-|[<-|[]]]].
      + destruct Ca as [(_ & X)|(_ & X & _)]; rewrite X; eauto.
      + destruct Cb as [(_ & X)|(_ & X & _)]; rewrite X; eauto.
      + rewrite Gs. eauto. }
  destruct Cs as [(z & G)|[(x & G)|[G| ->]]].
  - rewrite G. cbn [value_text]. intros X. destruct (print_int_chars z _ X) as [Y|Y]; [discriminate|]. vm_compute in Y. lia.
  - pose proof (proj2 (entry_nums _ _ _ _ _ H Hf G)) as X. rewrite G. exact X.
  - rewrite G. intros [].
  - rewrite Ga. cbn [value_text]. unfold cell. destruct (find _ _) as [[n v]|] eqn:E; [|intros []].
    apply find_some in E. destruct E as (E & _). apply in_combine_r in E. rewrite Forall_forall in N. simpl. auto.
Qed.

Lemma header_lines : forall rest, file_lines (write_row (map t FIELDNAMES) ++ rest)%list =
  write_row (map t FIELDNAMES) :: file_lines rest.
Proof.
  intros rest. destruct (write_row_lf (map t FIELDNAMES)) as (w & E).
  assert (X := lines_app w [] rest). rewrite E, <- app_assoc. cbn [app]. unfold file_lines at 1. rewrite X.
  rewrite <- E. reflexivity.
Qed.

Lemma read_rows_all : forall es line, 
  Forall (fun e => forall line', read_entry parse_float now order line' (out_row e) = Ok e) es ->
  read_rows parse_float now order line (map out_row es) None = (es, None).
Proof.
  induction es as [|e es IH]; intros line F; [reflexivity|]. inversion F as [|? ? He F']; subst.
  cbn [map read_rows]. assert (X := He line).
  change (out_row e) with (value_text repr_float (get (Some "eventID") e) :: tl (out_row e)) at 1. cbv iota.
  change (value_text repr_float (get (Some "eventID") e) :: tl (out_row e)) with (out_row e).
  rewrite X, IH by auto. reflexivity.
Qed.

(** Entries that the reader can produce. *)
Definition produced (e : entry AR) : Prop :=
  exists line row, Forall no_nul row /\ read_entry parse_float now order line row = Ok e.

Lemma produced_by : forall content es, read_eq_catalog parse_float now order content = Ok es -> Forall produced es.
Proof.
  intros content es H. destruct (C06_all_proof parse_float now order content es H) as (_ & rows & C & F).
  assert (Cl := csv_clean _ _ _ _ clean_init C).
  assert (Cl' : Forall (fun ir => Forall no_nul (snd ir)) (combine (seq 0 (length (nonblank rows))) (nonblank rows))).
  { apply Forall_forall. intros [i r] Hr. apply in_combine_r in Hr. apply filter_In in Hr. rewrite Forall_forall in Cl.
    simpl. apply Cl. tauto. }
  clear - F Cl'. induction F; constructor.
  - inversion Cl'; subst. red. eauto.
  - apply IHF. now inversion Cl'.
Qed.

Lemma round_trip : forall es, Forall produced es -> Forall ellipse_consistent es ->
  exists out, write_rows repr_float es = Ok out /\ read_eq_catalog parse_float now order out = Ok es.
Proof.
  intros es Src EC.
  assert (W : mapM (dict_row repr_float) es = Ok (map out_row es)).
  { clear EC. induction Src as [|e es (line & row & _ & He) _ IH]; [reflexivity|].
    cbn [mapM map]. rewrite (dict_row_out line row e He). cbn [bind]. rewrite IH. reflexivity. }
  exists (write_row (map t FIELDNAMES) ++ List.concat (map write_row (map out_row es)))%list. split.
  { unfold write_rows. now rewrite W. }
  unfold read_eq_catalog, read_file. rewrite header_lines. cbn [first_line tl].
  change (validate_csv_catalog (write_row (map t FIELDNAMES))) with (@Ok unit tt). cbv iota.
  rewrite csv_round_trip.
  - rewrite read_rows_all; auto. clear W. induction Src as [|e es (line & row & _ & He) _ IH]; constructor.
    + intros line'. eapply reread; eauto. now inversion EC.
    + apply IH. now inversion EC.
  - clear W EC. induction Src as [|e es (line & row & Nr & He) _ IH]; constructor; auto.
    eapply out_row_clean; eauto.
Qed.

(** C11: any selection of the entries that were read. *)
Lemma C11_proof : forall content es sel, read_eq_catalog parse_float now order content = Ok es ->
  incl sel es -> Forall ellipse_consistent sel ->
  exists out, write_rows repr_float sel = Ok out /\ read_eq_catalog parse_float now order out = Ok sel.
Proof.
  intros content es sel H I EC. apply round_trip; auto.
  assert (P := proj1 (Forall_forall _ _) (produced_by content es H)).
  apply Forall_forall. intros e He. apply P. now apply I.
Qed.

End P.
