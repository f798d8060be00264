(** Proof of C154. *)
From Coq Require Import ZArith Bool Ascii String List Permutation Lia.
From Verif Require Import Base Ops BaseFacts PyStr Csv EqCatalog EqCatSpec PyStrProofs CsvProofs EqCatProofs EqCatRow EqCatFile EqCatRound.
From Verif Require Import FlowTable TableProofs StoredSpec.
Import ListNotations.
Local Open Scope string_scope.

Lemma integer_print : forall z, integer_text z (print_int z).
Proof.
  intros z. destruct (Z.ltb z 0) eqn:S.
  - apply Z.ltb_lt in S. exists ["-"%char], (print_int (- z)).
    assert (P : (0 <= - z)%Z) by lia.
    split; [|split; [|split]].
    + destruct z; try lia. reflexivity.
    + apply FlowTable.print_pos; lia.
    + apply no_zero_first; lia.
    + right. rewrite print_value by lia. split; [reflexivity|lia].
  - apply Z.ltb_ge in S. exists [], (print_int z). split; [reflexivity|]. split; [apply FlowTable.print_pos; lia|].
    split; [apply no_zero_first; lia|]. left. split; [reflexivity|]. apply print_value; lia.
Qed.

Lemma doubles : forall s, doubled s (double_quotes s).
Proof.
  induction s as [|c s IH]; [constructor|]. cbn [double_quotes].
  destruct (Ascii.eqb c chr_quote) eqn:E.
  - apply Ascii.eqb_eq in E. subst c. exact (doubled_quote s _ IH).
  - apply Ascii.eqb_neq in E. exact (doubled_other c s _ E IH).
Qed.

Lemma special_needs : forall s, special s <-> needs_quote s = true.
Proof.
  intros s. unfold needs_quote. rewrite existsb_exists. split.
  - intros (c & I & J). exists c. split; [exact I|]. simpl in J.
    destruct J as [<-|[<-|[<-|[<-|[]]]]]; reflexivity.
  - intros (c & I & J). exists c. split; [exact I|]. apply orb_true_iff in J. destruct J as [J|J].
    + apply orb_true_iff in J. destruct J as [J|J]; apply Ascii.eqb_eq in J; subst c; simpl; auto.
    + unfold is_crlf in J. apply orb_true_iff in J. destruct J as [J|J]; apply Ascii.eqb_eq in J; subst c; simpl; auto.
Qed.

Lemma field_written : forall s, field_text s (write_field s).
Proof.
  intros s. unfold write_field. destruct (needs_quote s) eqn:E.
  - left. split; [now apply special_needs|]. exists (double_quotes s). split; [apply doubles|reflexivity].
  - right. split; [|reflexivity]. intros X. apply special_needs in X. congruence.
Qed.

Lemma join_commas : forall fs f, join [chr_comma] (f :: fs) = (f ++ List.concat (map (fun g => ","%char :: g) fs))%list.
Proof.
  induction fs as [|g fs IH]; intros f.
  - cbn. now rewrite app_nil_r.
  - cbn [map List.concat]. change (join [chr_comma] (f :: g :: fs)) with (f ++ [chr_comma] ++ join [chr_comma] (g :: fs))%list.
    rewrite IH. reflexivity.
Qed.

Lemma row_commas : forall a b r, write_row (a :: b :: r) = (join [chr_comma] (map write_field (a :: b :: r)) ++ [chr_cr; chr_lf])%list.
Proof. intros [|c a] b r; reflexivity. Qed.

Section P.
Context {AR : Ops}.
Variable parse_float : text -> option T.
Variable repr_float : T -> text.
Variable now : Z.
Variable order : list key -> list key.
Hypothesis R : rearranges order.

Lemma blank_or_get : forall (e : entry AR) k, In k (map fst e) -> get_or_blank k e = get k e.
Proof.
  induction e as [|[k' v] e IH]; simpl; [tauto|]. intros k [->|H].
  - now rewrite key_eqb_refl.
  - destruct (key_eqb k k'); auto.
Qed.

Lemma C04_keys : forall line row e, read_entry parse_float now order line row = Ok e ->
  map fst e = order (map Some columns).
Proof.
  intros line row e H. destruct (C04_proof parse_float now order line row e R (accepted_length _ _ _ _ _ _ R H) H). auto.
Qed.

Lemma columns_split : forall f, In f columns -> In f ints \/ In f floats \/ f = "Agency" \/
  (exists ok d, In (f, ok, d) (@optional_rules AR)) \/ In f ellipse.
Proof.
  apply (field_cases (fun _ => Some (ofZ 0)) (fun _ => [])). split; [reflexivity|intros []].
Qed.

Lemma entries_read : forall content es, read_eq_catalog parse_float now order content = Ok es -> Forall (produced parse_float now order) es.
Proof.
  intros content es H. destruct (C06_all_proof parse_float now order content es H) as (_ & rows & C & F).
  assert (Cl := csv_clean _ _ _ _ clean_init C).
  assert (Cl' : Forall (fun ir => Forall no_nul (snd ir)) (combine (seq 0 (length (nonblank rows))) (nonblank rows))).
  { apply Forall_forall. intros [i r] Hr. apply in_combine_r in Hr. apply filter_In in Hr. rewrite Forall_forall in Cl.
    simpl. apply Cl. tauto. }
  clear - F Cl'. induction F; constructor.
  - inversion Cl'; subst. red. eauto.
  - apply IHF. now inversion Cl'.
Qed.

Lemma row_of : forall line row e, read_entry parse_float now order line row = Ok e ->
  dict_row repr_float e = Ok (out_row repr_float e).
Proof.
  intros line row e H. assert (K := C04_keys _ _ _ H). destruct (order_facts order R) as (N & C & I).
  unfold dict_row. rewrite K.
  assert (F : forallb (fun k => match k with Some f => mem f FIELDNAMES | None => false end) (order (map Some columns)) = true).
  { apply forallb_forall. intros k Hk. destruct (C k Hk) as (f & -> & Hf). now apply mem_in. }
  rewrite F. f_equal. change FIELDNAMES with columns. apply map_ext_in. intros f Hf.
  rewrite blank_or_get; auto. rewrite K. auto.
Qed.

Lemma entry_shows : forall line row e f, read_entry parse_float now order line row = Ok e -> In f columns ->
  shows repr_float (get (Some f) e) (value_text repr_float (get (Some f) e)).
Proof.
  intros line row e f H Hf. assert (L := accepted_length parse_float now order _ _ _ R H).
  destruct (C04_proof parse_float now order line row e R L H) as (K & Gi & Gf & Ga & Go).
  assert (Cs : (exists z, get (Some f) e = VInt z) \/ (exists x, get (Some f) e = VFlt x) \/ exists s, get (Some f) e = VStr s).
  { destruct (columns_split f Hf) as [Q|[Q|[->|[(ok & d & Q)|Q]]]].
    - destruct (Gi f Q) as (z & _ & Z). eauto.
    - destruct (Gf f Q) as (z & _ & Z). eauto.
    - eauto.
    - rewrite (Go f ok d Q).
      assert (Cs : d = VStr [] \/ d = VFlt (ofZ 0)).
      { clear - Q. simpl in Q. repeat (destruct Q as [Q|Q]); try (exact (False_ind _ Q)); inversion Q; auto. }
      unfold kept_or. destruct (parse_float (cell row f)) as [y|]; [destruct (ok y); [eauto|]|]; destruct Cs as [->| ->]; eauto.
    - destruct (ellipse_facts parse_float now order line row e R L H) as ([AB|(a & b & s & _ & _ & _ & _ & _ & Gs & Ca & Cb)] & _).
      { rewrite (AB f Q). unfold blank. eauto. }
      destruct Q as [<-|[<-|[<-|[]]]].
      + destruct Ca as [(_ & X)|(_ & X & _)]; rewrite X; unfold blank; eauto.
      + destruct Cb as [(_ & X)|(_ & X & _)]; rewrite X; unfold blank; eauto.
      + rewrite Gs. eauto. }
  destruct Cs as [(z & ->)|[(x & ->)|(s & ->)]]; constructor. apply integer_print.
Qed.

Lemma line_written : forall line row e, read_entry parse_float now order line row = Ok e ->
  entry_line repr_float e (write_row (out_row repr_float e)).
Proof.
  intros line row e H. exists (out_row repr_float e).
  exists (write_field (value_text repr_float (get (Some "eventID") e))), (map write_field (tl (out_row repr_float e))).
  split; [|split].
  - unfold out_row. assert (I : incl columns columns) by apply incl_refl. revert I. generalize columns at 1 3 4.
    induction l as [|n l IH]; intros I; cbn [map]; constructor.
    + eapply entry_shows; [exact H|]. apply I. now left.
    + apply IH. intros x X. apply I. now right.
  - change (write_field (value_text repr_float (get (Some "eventID") e)) :: map write_field (tl (out_row repr_float e)))
      with (map write_field (out_row repr_float e)).
    induction (out_row repr_float e); cbn [map]; constructor; auto. apply field_written.
  - unfold out_row, columns. cbn [map tl]. rewrite row_commas. cbn [map].
    rewrite join_commas, <- app_assoc. reflexivity.
Qed.

Lemma C154_proof : forall content es sel, read_eq_catalog parse_float now order content = Ok es -> incl sel es ->
  exists out, write_rows repr_float sel = Ok out /\ stored_text repr_float sel out.
Proof.
  intros content es sel H I.
  assert (P := proj1 (Forall_forall _ _) (entries_read content es H)).
  assert (S : Forall (produced parse_float now order) sel).
  { apply Forall_forall. intros e He. apply P. now apply I. }
  clear P I H. assert (W : mapM (dict_row repr_float) sel = Ok (map (out_row repr_float) sel)).
  { induction S as [|e es' (line & row & _ & He) _ IH]; [reflexivity|].
    cbn [mapM map]. rewrite (row_of line row e He). cbn [bind]. rewrite IH. reflexivity. }
  exists (heading ++ [cr; lf] ++ List.concat (map write_row (map (out_row repr_float) sel)))%list. split.
  { unfold write_rows. rewrite W. reflexivity. }
  exists (map write_row (map (out_row repr_float) sel)). split; [|reflexivity].
  clear W. induction S as [|e es' (line & row & _ & He) _ IH]; cbn [map]; constructor; auto.
  eapply line_written; eauto.
Qed.
End P.

(** The file that preprocessing stores. *)
From Verif Require Import CatUtil DeclusterSpec SourceModel Nrml World CatalogFilter Jobs Workflow Main FlowSpec FlowPipe FlowPre FlowStore.
Lemma kept_incl : forall {AR : Ops} (tab : list (T * T)) es (m : list (event AR)) fl kept, to_store tab es m fl kept -> incl kept es.
Proof.
  intros AR tab es m fl kept H. induction H; intros y Y; [exact Y| |right; now apply IHto_store].
  destruct Y as [->|Y]; [now left|right; now apply IHto_store].
Qed.

Lemma C154_run_proof : forall (AR : Ops) (W : world AR), is_argsort (w_argsort W) -> rearranges (w_dict_order W) ->
  forall cf f pre l p c', preprocessing_build cf = Ok pre -> jobs_set (cf_preprocessing_jobs cf) l -> gk_first l ->
  cf_pprocessing_result_file cf = Given p -> p <> [] -> cf_completeness_table_file cf <> Given p ->
  steps W pre (init_context cf f) c' ->
  exists es m flag tab kept content,
    catalogue_read W cf f es /\ mapM matrix_row es = Ok m /\ cx_flag c' = Some flag /\ cx_table c' = Some tab /\
    to_store tab es m flag kept /\ cx_files c' p = Some content /\ stored_text (w_repr_float W) kept content.
Proof.
  intros AR W A O cf f pre l p c' B J G P N D S.
  destruct (C67_proof W A cf f pre l p c' B J G P N D S) as (es & m & flag & tab & kept & content & CR & M & F & T & TS & WR & FI).
  exists es, m, flag, tab, kept, content. do 6 (split; [assumption|]).
  destruct CR as (q & text & _ & _ & RD).
  destruct (C154_proof _ (w_repr_float W) _ _ O _ _ kept RD (kept_incl _ _ _ _ _ TS)) as (out & W1 & ST). congruence.
Qed.

(** Fields. *)
Lemma integer_cases : integer_text (-5) (t "-5") /\ integer_text 0 (t "0") /\ ~ integer_text 5 (t "05").
Proof.
  split; [exact (integer_print (-5))|]. split; [exact (integer_print 0)|].
  intros (sign & q & E & _ & Q & [(-> & V)|(-> & _)]); [|discriminate]. cbn in E. subst q. destruct Q as [Q|(c & q' & Q & C)].
  - discriminate.
  - injection Q as <- _. now apply C.
Qed.

Lemma field_cases_text : field_text (t "GEM, ""Pavia""") (t """GEM, """"Pavia""""""") /\ field_text (t "ISC") (t "ISC") /\
  ~ field_text (t "ISC") (t """ISC""") /\ ~ field_text (t "a,b") (t "a,b").
Proof.
  split; [exact (field_written (t "GEM, ""Pavia"""))|]. split; [exact (field_written (t "ISC"))|]. split.
  - intros [(S & _)|(_ & X)]; [|discriminate]. apply special_needs in S. discriminate.
  - intros [(_ & d & _ & X)|(S & _)]; [discriminate|]. apply S. now apply special_needs.
Qed.
