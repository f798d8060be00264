(** The stored catalogue, the default values, and starting again from the stored files. *)
From Coq Require Import ZArith Bool Ascii String List Lia Reals Lra.
From Verif Require Import Base Ops BaseFacts RFacts CatUtil Decluster DeclusterSpec Completeness CompletenessProofs
  PyStr PyStrProofs Csv CsvProofs EqCatalog EqCatSpec EqCatRound SourceModel Nrml World CatalogFilter
  Recurrence MaxMag Jobs Workflow Main FlowSpec FlowPipe FlowFiles FlowTable FlowPre.
Import ListNotations.
Local Open Scope nat_scope.
Local Open Scope res_scope.

Section FlowStore.
Context {AR : Ops}.
Variable W : world AR.
Hypothesis argsort_ok : is_argsort (w_argsort W).

Ltac step H x E := apply bind_ok in H; destruct H as (x & E & H).

(** ** Selection and storing *)

Lemma entries_mask : forall es mask, length mask = length es ->
  entries_at (AR := AR) es (nonzero mask) = Ok (mask_get mask es).
Proof.
  intros es mask. unfold nonzero.
  assert (G : forall mask (es pre : list (entry AR)), length mask = length es ->
    mapM (fun i => match nth_error (pre ++ es) i with Some e => Ok e | None => Err IndexError end) (nonzero_from (length pre) mask) = Ok (mask_get mask es)).
  2:{ intros L. exact (G mask es [] L). }
  clear. induction mask as [|b mask IH]; intros [|e es] pre L; cbn in L; try discriminate; [reflexivity|].
  assert (X : pre ++ e :: es = (pre ++ [e]) ++ es) by now rewrite <- app_assoc.
  specialize (IH es (pre ++ [e]) ltac:(lia)). rewrite app_length in IH. cbn [length] in IH. rewrite Nat.add_1_r in IH.
  cbn [nonzero_from mask_get]. destruct b.
  - cbn [mapM]. rewrite nth_error_app2 by lia. rewrite Nat.sub_diag. cbn [nth_error bind]. rewrite X, IH. reflexivity.
  - rewrite X. exact IH.
Qed.

Lemma select_to_store : forall tab (es : list (entry AR)) m flag sel,
  length m = length es -> length flag = length es -> length sel = length es ->
  (forall k r z s, nth_error m k = Some r -> nth_error flag k = Some z -> nth_error sel k = Some s ->
     (s = 0%Z <-> z = 0%Z /\ complete tab r)) ->
  to_store tab es m flag (mask_get (map (fun z => Z.eqb z 0) sel) es).
Proof.
  intros tab. induction es as [|x es IH]; intros [|r m] [|z flag] [|s sel] L1 L2 L3 H; cbn in *; try discriminate; [constructor|].
  pose proof (H 0 r z s eq_refl eq_refl eq_refl) as H0.
  assert (R : to_store tab es m flag (mask_get (map (fun z => Z.eqb z 0) sel) es)).
  { apply IH; try lia. intros k. exact (H (S k)). }
  destruct (Z.eqb_spec s 0) as [E|E].
  - destruct (proj1 H0 E) as (-> & C). now constructor.
  - constructor; auto. destruct (Z.eq_dec z 0); auto. right. intros C. apply E. now apply H0.
Qed.

Lemma selection_meaning : forall tab (m : list (event AR)) flag sel, length flag = length m ->
  selected_eq_flag_vector (map ev_year m) (map ev_mw m) tab flag = Ok sel ->
  length sel = length m /\
  forall k r z s, nth_error m k = Some r -> nth_error flag k = Some z -> nth_error sel k = Some s ->
     (s = 0%Z <-> z = 0%Z /\ complete tab r).
Proof.
  intros tab m flag sel L H.
  destruct (C12_proof (map ev_year m) (map ev_mw m) tab flag) as (v & V & LV & _ & P); rewrite ?map_length; auto.
  rewrite H in V. injection V as <-. rewrite map_length in LV. split; auto.
  intros k r z s M1 F1 S1. specialize (P k (ev_year r) (ev_mw r) z). rewrite !nth_error_map, M1 in P. specialize (P eq_refl eq_refl F1).
  rewrite S1 in P. unfold complete. split.
  - intros ->. destruct (proj1 P eq_refl) as (-> & Q). split; auto. intros cy cm I A B. rewrite (Q cy cm I A) in B. discriminate.
  - intros (-> & Q). assert (X : Some s = Some 0%Z); [|congruence]. apply P. split; auto. intros cy cm I A.
    destruct (ltb (ev_mw r) cm) eqn:E; auto. exfalso. eapply Q; eauto.
Qed.

(** What the last three jobs of a storing run do. *)
Lemma store_jobs : forall c c' p, cf_pprocessing_result_file (cx_config c) = Given p -> cf_completeness_table_file (cx_config c) <> Given p ->
  forall es m w flag, cx_eq_catalog c = Some es -> cx_matrix c = Some m -> length m = length es -> cx_working c = Some w -> cx_flag c = Some flag ->
  unflagged m flag w ->
  steps W [J_create_selected_eq_vector; J_store_preprocessed_catalog; J_store_completeness_table] c c' ->
  exists tab kept content pt, cx_table c = Some tab /\ to_store tab es m flag kept /\ write_rows (w_repr_float W) kept = Ok content /\
    cx_files c' p = Some content /\ cf_completeness_table_file (cx_config c) = Given pt /\ cx_files c' pt = Some (table_text tab) /\
    (forall q, q <> p -> q <> pt -> cx_files c' q = cx_files c q) /\
    cx_table c' = cx_table c /\ cx_flag c' = cx_flag c /\ cx_working c' = cx_working c /\ cx_matrix c' = cx_matrix c /\ cx_sms c' = cx_sms c /\
    cx_eq_catalog c' = cx_eq_catalog c.
Proof.
  intros c c' p RF NT es m w flag E1 M1 LM W1 F1 UF H.
  inversion H as [|? ? ? c1 ? R1 H1]; subst. inversion H1 as [|? ? ? c2 ? R2 H2]; subst.
  inversion H2 as [|? ? ? c3 ? R3 H3]; subst. inversion H3; subst. clear H H1 H2 H3. cbn [run_job] in *.
  apply finish_ok in R1. rewrite M1 in R1. cbn [have bind] in R1. step R1 m' MC. assert (m' = m) by (destruct m; [discriminate|now injection MC]). subst m'.
  step R1 tab TB. step R1 fl FB. step R1 sel SE. injection R1 as <-.
  rewrite F1 in FB. injection FB as <-. destruct (cx_table c) as [tab'|] eqn:TC; [|discriminate]. injection TB as ->.
  apply finish_ok in R2. cbn in R2. rewrite RF, E1, M1 in R2. cbn [lookup_file bind have] in R2. step R2 u1 X1. 
  destruct (unflagged_length _ _ _ _ UF) as (LF & _). destruct (selection_meaning tab m flag sel LF SE) as (LS & SM).
  rewrite entries_mask in R2 by (rewrite map_length; lia). cbn [bind] in R2. step R2 u2 X2. step R2 content WR. injection R2 as <-.
  apply finish_ok in R3. cbn in R3. rewrite TC in R3. step R3 pt LP. cbn [have bind] in R3. step R3 u3 X3. injection R3 as <-.
  unfold lookup_file in LP. destruct (cf_completeness_table_file (cx_config c)) as [| |pt'] eqn:CT; try discriminate. injection LP as ->.
  assert (NP : pt <> p) by (intros ->; now apply NT).
  exists tab, (mask_get (map (fun z => Z.eqb z 0) sel) es), content, pt. cbn. split; auto. split.
  { apply select_to_store; auto; congruence. }
  split; auto. split.
  { rewrite write_file_other by auto. apply write_file_same. }
  split; auto. split; [apply write_file_same|]. split; [|auto 10].
  intros q N1 N2. rewrite !write_file_other by auto. reflexivity.
Qed.

(** ** C67 *)
Lemma storing_run : forall cf f pre l p c', preprocessing_build cf = Ok pre -> jobs_set (cf_preprocessing_jobs cf) l -> gk_first l ->
  cf_pprocessing_result_file cf = Given p -> p <> [] -> cf_completeness_table_file cf <> Given p ->
  steps W pre (init_context cf f) c' ->
  exists sj js c0 es m w flag tab kept content pt,
    source_job (cf_source_model_file cf) sj /\ Forall2 names l js /\
    steps W [J_read_eq_catalog; sj; J_create_catalog_matrix; J_create_default_values] (init_context cf f) c0 /\
    (exists c1, steps W js c0 c1 /\ cx_table c1 = Some tab /\ cx_sms c' = cx_sms c1) /\
    catalogue_read W cf f es /\ mapM matrix_row es = Ok m /\ cx_eq_catalog c' = Some es /\ cx_matrix c' = Some m /\
    cx_working c' = Some w /\ cx_flag c' = Some flag /\ unflagged m flag w /\
    cx_table c' = Some tab /\ to_store tab es m flag kept /\ write_rows (w_repr_float W) kept = Ok content /\
    cx_files c' p = Some content /\ cf_completeness_table_file cf = Given pt /\ cx_files c' pt = Some (table_text tab).
Proof.
  intros cf f pre l p c' B JS G RF NE NT H. destruct (build_shape cf pre B) as (sj & js & tail & SJ & -> & F & K).
  destruct (tail_ok cf js tail F K) as (N1 & N2).
  assert (ET : tail = [J_create_selected_eq_vector; J_store_preprocessed_catalog; J_store_completeness_table]).
  { destruct JS as (JS & NL). destruct K as [(l' & _ & [(_ & ->)|([U|U] & _)])|([U|U] & _)]; auto; rewrite ?RF, ?JS in U; try discriminate; injection U; intros; contradiction. }
  destruct JS as (JS & NL). rewrite JS in F. cbn [listed] in F.
  apply steps_split in H. destruct H as (c0 & H0 & H). apply steps_split in H. destruct H as (c1 & H1 & H2). subst tail.
  destruct (base_state W cf f sj c0 SJ H0) as (es & m & y0 & m0 & CR & E0 & MR & MNE & M0 & W0 & F0 & _ & _ & T0 & C0 & CU0 & FI0 & FF0).
  pose proof (names_nameable _ _ F) as NJ.
  destruct (named_steps W js c0 c1 NJ H1) as (M1 & E1 & C1 & CU1 & _ & S1).
  assert (A1 : aligned c1).
  { apply (seq_aligned W argsort_ok js c0 c1 true); auto.
    - eapply gk_first_fresh; eauto.
    - congruence.
    - exists m, m, (repeat 0%Z (length m)). split; [auto|]. split; [auto|]. split; [auto|]. apply unflagged_zeros. }
  destruct A1 as (m' & w & flag & A1 & A2 & A3 & A4). rewrite M1, M0 in A1. injection A1 as <-.
  destruct (store_jobs c1 c' p) with (es := es) (m := m) (w := w) (flag := flag) as (tab & kept & content & pt & T1 & TS & WR & FP & CT & FT & _ & Q1 & Q2 & Q3 & Q4 & Q5 & Q6); auto; try congruence.
  { rewrite (mapM_length _ _ _ _ _ MR). reflexivity. }
  exists sj, js, c0, es, m, w, flag, tab, kept, content, pt.
  split; [auto|]. split; [auto|]. split; [auto|]. split; [exists c1; auto|]. 
  split; [auto|]. split; [auto|]. split; [congruence|]. split; [congruence|]. split; [congruence|]. split; [congruence|]. split; [auto|].
  split; [congruence|]. split; [auto|]. split; [auto|]. split; [auto|]. split; [congruence|]. auto.
Qed.

Theorem C67_proof : forall cf f pre l p c', preprocessing_build cf = Ok pre -> jobs_set (cf_preprocessing_jobs cf) l -> gk_first l ->
  cf_pprocessing_result_file cf = Given p -> p <> [] -> cf_completeness_table_file cf <> Given p ->
  steps W pre (init_context cf f) c' ->
  exists es m flag tab kept content,
    catalogue_read W cf f es /\ mapM matrix_row es = Ok m /\ cx_flag c' = Some flag /\ cx_table c' = Some tab /\
    to_store tab es m flag kept /\ write_rows (w_repr_float W) kept = Ok content /\ cx_files c' p = Some content.
Proof.
  intros cf f pre l p c' B JS G RF NE NT H.
  destruct (storing_run cf f pre l p c' B JS G RF NE NT H) as (sj & js & c0 & es & m & w & flag & tab & kept & content & pt & _ & _ & _ & _ & CR & MR & _ & _ & _ & F1 & _ & T1 & TS & WR & FP & _).
  exists es, m, flag, tab, kept, content. auto 10.
Qed.

(** The stored entries are a sub-catalogue. *)
Lemma to_store_incl : forall tab es m flag kept, to_store tab es m flag kept -> incl kept es.
Proof. intros tab es m flag kept H. induction H; intros q I; auto; [destruct I as [<-|I]; [now left|right; auto]|right; auto]. Qed.

(** ** C70: starting again *)

(** The rows of what was stored. *)
Lemma stored_rows : forall tab es m flag kept w, to_store tab es m flag kept -> mapM matrix_row es = Ok m -> unflagged m flag w ->
  exists m2, mapM matrix_row kept = Ok m2 /\ picks (complete tab) w m2.
Proof.
  intros tab es m flag kept w H. revert w. induction H as [|x xs r rs fl ys C H IH|x xs r rs z fl ys D H IH]; intros w MR UF.
  - inversion UF; subst. exists []. split; [reflexivity|constructor].
  - cbn [mapM] in MR. step MR r' XR. step MR rs' XS. injection MR as -> ->. inversion UF; subst; [|contradiction].
    match goal with U : unflagged _ fl _ |- _ => destruct (IH _ XS U) as (m2 & M2 & P2) end. exists (r :: m2). cbn [mapM]. rewrite XR. cbn [bind]. rewrite M2. cbn [bind].
    split; auto. now constructor.
  - cbn [mapM] in MR. step MR r' XR. step MR rs' XS. injection MR as -> ->. inversion UF; subst.
    + destruct D as [D|D]; [contradiction|]. match goal with U : unflagged _ fl _ |- _ => destruct (IH _ XS U) as (m2 & M2 & P2) end. exists m2. split; auto. now constructor.
    + now apply IH.
Qed.

(** Reading a source model depends only on the configured file. *)
Lemma source_again : forall sj (c c' d : context AR), source_job (cf_source_model_file (cx_config c)) sj ->
  run_job W sj c = (c', None) -> cx_sms c = None -> cx_sms d = None ->
  cf_source_model_file (cx_config d) = cf_source_model_file (cx_config c) ->
  (forall q, cf_source_model_file (cx_config c) = Given q -> cx_files d q = cx_files c q) ->
  exists d', run_job W sj d = (d', None) /\ cx_sms d' = cx_sms c' /\ cx_sms d' <> None /\ exists v, d' = set_sms v d.
Proof.
  intros sj c c' d SJ R SC SD EC EF. inversion SJ as [v FS E1 E2|v FU E1 E2]; subst; cbn [run_job] in *.
  - destruct FS as (q & FS & _). unfold read_source_model in *. rewrite EC. rewrite FS in *. cbn [lookup_file bind] in *.
    unfold open_read in *. rewrite (EF q eq_refl). destruct (cx_files c q) as [ct|]; [|discriminate].
    destruct (w_xml_parse W ct) as [x|]; [|discriminate]. destruct (read_doc (w_parse_float W) x) as (ss, y).
    destruct y as [e|]; [discriminate|]. destruct ss as [|s0 ss].
    + rewrite SC in R. discriminate.
    + cbn in *. injection R as <-. eexists. split; [reflexivity|]. cbn. split; auto. split; [discriminate|]. eexists. reflexivity.
  - unfold create_default_source_model in *. injection R as <-. eexists. split; [reflexivity|]. cbn. split; auto. split; [discriminate|]. eexists. reflexivity.
Qed.

Hypothesis order_ok : rearranges (w_dict_order W).
Hypothesis num_read : forall s x, w_parse_float W s = Some x ->
  w_parse_float W (w_repr_float W x) = Some x /\ ~ In chr_nul (w_repr_float W x).
Hypothesis num_zero : w_parse_float W (w_repr_float W (ofZ 0)) = Some (ofZ 0) /\ ~ In chr_nul (w_repr_float W (ofZ 0)).
Hypothesis parse_empty : w_parse_float W [] = None.

Lemma minv_cons : forall (a : T) l, exists x, minv (a :: l) = Ok x.
Proof. intros a l. eexists. reflexivity. Qed.

Theorem C70_restart_proof : forall cf1 cf2 f pre1 l p pt c1 g,
  preprocessing_build cf1 = Ok pre1 -> jobs_set (cf_preprocessing_jobs cf1) l -> gk_first l ->
  steps W pre1 (init_context cf1 f) c1 ->
  restarts cf1 cf2 p pt ->
  (forall q, q = p \/ q = pt \/ cf_source_model_file cf1 = Given q -> g q = cx_files c1 q) ->
  (forall es m flag tab kept, catalogue_read W cf1 f es -> mapM matrix_row es = Ok m -> cx_flag c1 = Some flag -> cx_table c1 = Some tab ->
     to_store tab es m flag kept -> kept <> [] /\ tab <> [] /\ Forall ellipse_consistent kept) ->
  exists pre2 c2 w1 w2 tab,
    preprocessing_build cf2 = Ok pre2 /\ steps W pre2 (init_context cf2 g) c2 /\
    cx_working c1 = Some w1 /\ cx_working c2 = Some w2 /\ picks (complete tab) w1 w2 /\
    cx_table c1 = Some tab /\ cx_table c2 = Some (map (fun r => (stored5 (fst r), stored5 (snd r))) tab) /\
    cx_sms c2 = cx_sms c1 /\ cx_files c2 = g.
Proof.
  intros cf1 cf2 f pre1 l p pt c1 g B JS G H (R1 & R2 & R3 & R4 & R5 & R6 & R7 & R8 & R9 & R10 & R11) EG OKK.
  assert (NT : cf_completeness_table_file cf1 <> Given p) by (rewrite R3; congruence).
  destruct (storing_run cf1 f pre1 l p c1 B JS G R1 R2 NT H) as
    (sj & js & c0 & es & m & w & flag & tab & kept & content & pt' & SJ & FN & H0 & (cj & Hj & Tj & Sj) & CR & MR & E1 & M1 & W1 & F1 & UF & T1 & TS & WR & FP & CT & FT).
  assert (pt' = pt) by congruence. subst pt'.
  destruct (OKK es m flag tab kept CR MR F1 T1 TS) as (KNE & TNE & EC).
  destruct (stored_rows tab es m flag kept w TS MR UF) as (m2 & MR2 & P2).
  assert (M2NE : m2 <> []).
  { intros ->. apply mapM_length in MR2. destruct kept; [contradiction|discriminate]. }
  destruct CR as (p0 & ct0 & CE & CF0 & RD).
  destruct (@C11_proof AR (w_parse_float W) (w_repr_float W) (w_now_year W) (w_dict_order W) order_ok num_read num_zero parse_empty ct0 es kept RD (to_store_incl _ _ _ _ _ TS) EC) as (out & WR' & RD').
  rewrite WR in WR'. injection WR' as <-.
  assert (SJ2 : source_job (cf_source_model_file cf2) sj) by now rewrite R9.
  destruct (C63_proof cf2 sj SJ2) as (_ & _ & PB). destruct (PB R8) as (PB1 & _).
  assert (FS2 : file_set (cf_completeness_table_file cf2)) by (rewrite R7; exists pt; auto).
  specialize (PB1 FS2).
  (* the jobs of the second run *)
  set (d0 := init_context cf2 g).
  assert (S0 : run_job W J_read_eq_catalog d0 = (set_eq_catalog (Some kept) d0, None)).
  { cbn [run_job]. unfold read_eq_catalog_job. cbn [cx_config d0 init_context]. rewrite R6. cbn [lookup_file bind].
    unfold open_read. cbn [cx_files d0 init_context]. rewrite (EG p) by auto. rewrite FP. cbn [bind]. rewrite RD'. reflexivity. }
  set (d1 := set_eq_catalog (Some kept) d0).
  assert (SS : exists d2, run_job W sj d1 = (d2, None) /\ cx_sms d2 = cx_sms c1 /\ exists v, d2 = set_sms v d1).
  { inversion H0 as [|? ? ? ca ? Ra Ha]; subst. inversion Ha as [|? ? ? cb ? Rb Hb]; subst.
    assert (CA : cx_config ca = cf1 /\ cx_sms ca = None /\ cx_files ca = f).
    { cbn [run_job] in Ra. apply finish_ok in Ra. step Ra x1 X1. step Ra x2 X2. step Ra x3 X3. injection Ra as <-. auto. }
    destruct CA as (CA1 & CA2 & CA3).
    destruct (source_again sj ca cb d1) as (d2 & D1 & D2 & D3 & D4); auto.
    - now rewrite CA1.
    - cbn. now rewrite CA1.
    - intros q EQ. rewrite CA1 in EQ. cbn [cx_files d1 d0 set_eq_catalog init_context]. rewrite (EG q) by auto. rewrite CA3.
      pose proof (pipeline_keeps W _ _ _ _ (steps_run W _ _ _ H)) as (_ & KP). cbn in KP. apply (KP q).
      + rewrite R1. congruence.
      + rewrite R3. congruence.
    - exists d2. split; auto. split; auto. rewrite D2, Sj.
      assert (SB : cx_sms c0 = cx_sms cb).
      { inversion Hb as [|? ? ? cc ? Rc Hc]; subst. inversion Hc as [|? ? ? cd ? Rd Hd]; subst. inversion Hd; subst.
        cbn [run_job] in Rc. apply finish_ok in Rc. step Rc x1 X1. step Rc x2 X2. injection Rc as <-.
        cbn [run_job] in Rd. unfold create_default_values in Rd. cbn in Rd. apply finish_ok in Rd. step Rd x3 X3. step Rd x4 X4. step Rd x5 X5. injection Rd as <-. reflexivity. }
      destruct (base_state W cf1 f sj c0 SJ H0) as (_ & _ & _ & _ & _ & _ & _ & _ & _ & _ & _ & _ & _ & _ & _ & CU0 & _).
      destruct (named_steps W js c0 cj (names_nameable _ _ FN) Hj) as (_ & _ & _ & _ & _ & S1). rewrite (S1 CU0). auto. }
  destruct SS as (d2 & D2 & DS & v & DV).
  assert (D3 : run_job W J_create_catalog_matrix d2 = (set_working (Some m2) (set_matrix (Some m2) d2), None)).
  { cbn [run_job]. unfold create_catalog_matrix. rewrite DV. cbn. rewrite MR2. reflexivity. }
  set (d3 := set_working (Some m2) (set_matrix (Some m2) d2)).
  assert (D4 : exists d4, run_job W J_create_default_values d3 = (d4, None) /\ exists fl tb, d4 = set_table tb (set_flag fl d3)).
  { cbn [run_job]. unfold create_default_values. cbn [cx_working d3 set_working]. destruct m2 as [|r0 rs]; [contradiction|].
    cbn [columns bind map]. destruct (minv_cons (ev_year r0) (map ev_year rs)) as (y0 & ->). destruct (minv_cons (ev_mw r0) (map ev_mw rs)) as (z0 & ->).
    cbn [bind finish]. eexists. split; [reflexivity|]. eexists. eexists. reflexivity. }
  destruct D4 as (d4 & D4 & fl4 & tb4 & E4).
  assert (D5 : run_job W J_retrieve_completeness_table d4 = (set_table (Some (map (fun r => (stored5 (fst r), stored5 (snd r))) tab)) d4, None)).
  { cbn [run_job]. unfold retrieve_completeness_table.
    assert (X : cx_config d4 = cf2 /\ cx_files d4 = g) by (rewrite E4; unfold d3; rewrite DV; auto). destruct X as (-> & ->).
    rewrite R7. cbn [lookup_file bind]. unfold open_read. rewrite (EG pt) by auto. rewrite FT. cbn [bind].
    rewrite table_read by auto. cbn [bind]. rewrite pairs_concat. reflexivity. }
  eexists. eexists. exists w, m2, tab. split; [exact PB1|]. split.
  { eapply steps_cons; [exact S0|]. eapply steps_cons; [exact D2|]. eapply steps_cons; [exact D3|]. eapply steps_cons; [exact D4|].
    eapply steps_cons; [exact D5|]. constructor. }
  split; [auto|]. split; [rewrite E4; reflexivity|]. split; [auto|]. split; [auto|]. split; [reflexivity|].
  rewrite E4. unfold d3. cbn. split; [exact DS|]. rewrite DV. reflexivity.
Qed.

End FlowStore.

(** ** C74 *)

Lemma table_steps : forall (AR : Ops) (W : world AR) l js c c', Forall2 names l js -> ~ In "Stepp"%string l ->
  ~ In "Retrieve_completeness_table"%string l -> steps W js c c' -> cx_table c' = cx_table c.
Proof.
  intros AR W l js c c' F. revert c c'. induction F as [|n j l js N F IH]; intros c c' N1 N2 H; inversion H as [|? ? ? c1 ? R H1]; subst; auto.
  transitivity (cx_table c1). { apply IH; auto; intros I; [apply N1|apply N2]; now right. }
  destruct N; cbn [run_job] in R; try (elim N1; now left); try (elim N2; now left); apply finish_ok in R;
   repeat match goal with
  | H : bind _ _ = Ok _ |- _ => apply bind_ok in H; destruct H as (? & ? & H)
  | H : Ok _ = Ok _ |- _ => injection H as <-
  | p : (_ * _)%type |- _ => destruct p
  end; auto;
  (unfold update_cur in R; repeat match goal with
  | H : bind _ _ = Ok _ |- _ => apply bind_ok in H; destruct H as (? & ? & H) end; destruct (nth_error _ _); [|discriminate]; injection R as <-; reflexivity).
Qed.

(** The smallest of ordered values. *)
Lemma minv_least : forall (AR : Ops) (l : list T) x, ordered_values l -> minv l = Ok x ->
  In x l /\ forall y, In y l -> ltb y x = false.
Proof.
  intros AR l x (IR & AS & TR) H. destruct l as [|a l]; [discriminate|]. cbn in H. injection H as <-.
  assert (G : forall rest seen m, (forall y, In y (seen ++ rest) -> In y (a :: l)) -> In m seen -> (forall y, In y seen -> ltb y m = false) ->
    let r := fold_left min2 rest m in In r (seen ++ rest) /\ forall y, In y (seen ++ rest) -> ltb y r = false).
  2:{ destruct (G l [a] a) as (G1 & G2).
      - intros y I. exact I.
      - now left.
      - intros y [<-|[]]. apply IR. now left.
      - split; auto. }
  induction rest as [|b rest IH]; intros seen m IN IM LE; cbn [fold_left].
  - rewrite app_nil_r in *. auto.
  - replace (seen ++ b :: rest) with ((seen ++ [b]) ++ rest) in * by (now rewrite <- app_assoc).
    assert (INM : In m (a :: l)) by (apply IN; apply in_or_app; left; apply in_or_app; now left).
    assert (INB : In b (a :: l)) by (apply IN; apply in_or_app; left; apply in_or_app; right; now left).
    apply IH; auto; unfold min2; destruct (ltb b m) eqn:C.
    + apply in_or_app. right. now left.
    + apply in_or_app. now left.
    + intros y I. apply in_app_or in I. destruct I as [I|[<-|[]]]; [|now apply IR].
      assert (INY : In y (a :: l)) by (apply IN; apply in_or_app; left; apply in_or_app; now left).
      apply (TR b m y); auto.
    + intros y I. apply in_app_or in I. destruct I as [I|[<-|[]]]; auto.
Qed.

(** With the default table nothing is incomplete. *)
Lemma default_complete : forall (AR : Ops) (m : list (event AR)) y0 m0 r, ordered_values (map ev_year m) -> minv (map ev_year m) = Ok y0 -> In r m ->
  complete [(y0, m0)] r.
Proof.
  intros AR m y0 m0 r OV MY I cy cm [E|[]] A _. injection E as <- <-. apply minv_least in MY; auto. destruct MY as (_ & MY).
  rewrite MY in A; [discriminate|]. now apply in_map.
Qed.

Lemma default_stores_unflagged : forall (AR : Ops) (es : list (entry AR)) m flag kept y0 m0, ordered_values (map ev_year m) -> minv (map ev_year m) = Ok y0 ->
  to_store [(y0, m0)] es m flag kept -> unflagged es flag kept.
Proof.
  intros AR es m flag kept y0 m0 OV MY H. assert (A : forall r, In r m -> complete [(y0, m0)] r) by (intros r I; eapply default_complete; eauto).
  clear MY OV. induction H as [|x xs r rs fl ys C H IH|x xs r rs z fl ys D H IH]; [constructor| |].
  - constructor. apply IH. intros q I. apply A. now right.
  - constructor.
    + destruct D as [D|D]; auto. elim D. apply A. now left.
    + apply IH. intros q I. apply A. now right.
Qed.

Theorem C74_proof : forall (AR : Ops) (W : world AR) cf f sj c, source_job (cf_source_model_file cf) sj ->
  steps W [J_read_eq_catalog; sj; J_create_catalog_matrix; J_create_default_values] (init_context cf f) c ->
  exists m y0 m0, m <> [] /\ cx_matrix c = Some m /\ cx_working c = Some m /\
    cx_flag c = Some (repeat 0%Z (length m)) /\ cx_table c = Some [(y0, m0)] /\
    (ordered_values (map ev_year m) -> In y0 (map ev_year m) /\ (forall e, In e m -> ltb (ev_year e) y0 = false) /\
       forall e, In e m -> complete [(y0, m0)] e) /\
    (ordered_values (map ev_mw m) -> In m0 (map ev_mw m) /\ forall e, In e m -> ltb (ev_mw e) m0 = false).
Proof.
  intros AR W cf f sj c SJ H. destruct (base_state W cf f sj c SJ H) as (es & m & y0 & m0 & _ & _ & _ & NE & M0 & W0 & F0 & MY & MM & T0 & _).
  exists m, y0, m0. split; auto. split; auto. split; auto. split; auto. split; auto. split; intros OV.
  - pose proof (minv_least _ _ _ OV MY) as (Y1 & Y2). split; auto. split; [intros e I; apply Y2; now apply in_map|].
    intros e I. eapply default_complete; eauto.
  - pose proof (minv_least _ _ _ OV MM) as (Y1 & Y2). split; auto. intros e I; apply Y2; now apply in_map.
Qed.

(** A run without completeness job stores every unflagged entry. *)
Theorem C74_stored_proof : forall (AR : Ops) (W : world AR), is_argsort (w_argsort W) ->
  forall cf f pre l p c', preprocessing_build cf = Ok pre -> jobs_set (cf_preprocessing_jobs cf) l -> gk_first l ->
  ~ In "Stepp"%string l -> ~ In "Retrieve_completeness_table"%string l ->
  cf_pprocessing_result_file cf = Given p -> p <> [] -> cf_completeness_table_file cf <> Given p ->
  steps W pre (init_context cf f) c' ->
  (forall m, cx_matrix c' = Some m -> ordered_values (map ev_year m)) ->
  exists es flag kept content, catalogue_read W cf f es /\ cx_flag c' = Some flag /\ unflagged es flag kept /\
    write_rows (w_repr_float W) kept = Ok content /\ cx_files c' p = Some content.
Proof.
  intros AR W AO cf f pre l p c' B JS G N1 N2 RF NE NT H OV.
  destruct (storing_run W AO cf f pre l p c' B JS G RF NE NT H) as
    (sj & js & c0 & es & m & w & flag & tab & kept & content & pt & SJ & FN & H0 & (cj & Hj & Tj & Sj) & CR & MR & E1 & M1 & W1 & F1 & UF & T1 & TS & WR & FP & _).
  destruct (base_state W cf f sj c0 SJ H0) as (es0 & m' & y0 & m0 & CR0 & E0 & MR0 & _ & M0 & _ & _ & MY & _ & T0 & _).
  destruct (named_steps W js c0 cj (names_nameable _ _ FN) Hj) as (MJ & EJ & _).
  rewrite (table_steps _ W l js c0 cj FN N1 N2 Hj), T0 in Tj. injection Tj as <-.
  assert (m' = m).
  { assert (es0 = es); [|congruence].
    destruct CR as (p1 & t1 & A1 & A2 & A3). destruct CR0 as (p2 & t2 & B1 & B2 & B3). congruence. }
  subst m'. exists es, flag, kept, content. split; auto. split; auto. split; [eapply default_stores_unflagged; eauto|]. auto.
Qed.
