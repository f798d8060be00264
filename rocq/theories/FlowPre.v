(** Preprocessing: alignment of the flags, what is stored, the default values. *)
From Coq Require Import ZArith Bool Ascii String List Lia Reals Lra.
From Verif Require Import Base Ops BaseFacts RFacts CatUtil Decluster DeclusterSpec DeclusterProofs AfteranProofs Completeness CompletenessProofs
  PyStr PyStrProofs EqCatalog SourceModel Nrml World CatalogFilter
  Recurrence MaxMag Jobs Workflow Main FlowSpec FlowPipe FlowFiles.
Import ListNotations.
Local Open Scope res_scope.

Lemma unflagged_filter : forall A (l : list A) flag, length flag = length l ->
  unflagged l flag (map fst (filter (fun p => Z.eqb (snd p) 0) (combine l flag))).
Proof.
  induction l as [|a l IH]; intros [|z flag] H; cbn in H; try discriminate; [constructor|].
  cbn [combine filter]. cbn [snd]. destruct (Z.eqb_spec z 0) as [->|N].
  - cbn [map fst]. constructor. apply IH. lia.
  - constructor; auto.
Qed.

Lemma unflagged_length : forall A (l : list A) flag l', unflagged l flag l' -> length flag = length l /\ length l' <= length l.
Proof. intros A l flag l' H. induction H; cbn; lia. Qed.

Lemma unflagged_fun : forall A (l : list A) flag a b, unflagged l flag a -> unflagged l flag b -> a = b.
Proof.
  intros A l flag a b H. revert b. induction H; intros b0 H2; inversion H2; subst; auto; try contradiction; f_equal; auto.
Qed.

Lemma unflagged_zeros : forall A (l : list A), unflagged l (repeat 0%Z (length l)) l.
Proof. induction l; cbn; constructor; auto. Qed.

Lemma zeros_mask : forall (l : list Z) n, length l = n ->
  map2 (fun a b => negb (Z.eqb a 0) || negb (Z.eqb b 0)) l (repeat 0%Z n) = map (fun a => negb (Z.eqb a 0) || negb (Z.eqb 0 0)) l.
Proof. induction l as [|a l IH]; intros n <-; cbn; auto. f_equal. now apply IH. Qed.

Section FlowPre.
Context {AR : Ops}.
Variable W : world AR.

Ltac unb := repeat match goal with
  | H : bind _ _ = Ok _ |- _ => apply bind_ok in H; destruct H as (? & ? & H)
  | H : Ok _ = Ok _ |- _ => injection H as <-
  | p : (_ * _)%type |- _ => destruct p
  end.

Lemma finish_ok : forall (c : context AR) r c', finish c r = (c', None) -> r = Ok c'.
Proof. intros c [c1|e] c' H; cbn in H; [now injection H as ->|discriminate]. Qed.

(** What the jobs that can be named leave alone. *)
Lemma named_same : forall j c c', nameable j -> run_job W j c = (c', None) ->
  cx_matrix c' = cx_matrix c /\ cx_eq_catalog c' = cx_eq_catalog c /\ cx_config c' = cx_config c /\
  cx_cur c' = cx_cur c /\ cx_filtered c' = cx_filtered c /\ (cx_cur c = None -> cx_sms c' = cx_sms c).
Proof.
  intros j c c' (n & N) H. destruct N; cbn [run_job] in H; apply finish_ok in H; unb; cbn; auto 10;
    (unfold update_cur in H; unb; destruct (nth_error _ _); [|discriminate]; unb; cbn; repeat split; auto;
     intros E; rewrite E in *; discriminate).
Qed.

Lemma named_steps : forall js c c', Forall nameable js -> steps W js c c' ->
  cx_matrix c' = cx_matrix c /\ cx_eq_catalog c' = cx_eq_catalog c /\ cx_config c' = cx_config c /\
  cx_cur c' = cx_cur c /\ cx_filtered c' = cx_filtered c /\ (cx_cur c = None -> cx_sms c' = cx_sms c).
Proof.
  intros js c c' F H. induction H as [c|j js c c1 c2 R H IH]; [auto 10|]. inversion F as [|? ? N F']; subst.
  apply named_same in R; auto. destruct R as (R1 & R2 & R3 & R4 & R5 & R6). destruct (IH F') as (Q1 & Q2 & Q3 & Q4 & Q5 & Q6).
  repeat split; try congruence. intros E. rewrite Q6 by congruence. auto.
Qed.

Hypothesis argsort_ok : is_argsort (w_argsort W).

Lemma gk_aligned : forall c c' m, cx_matrix c = Some m -> cx_working c = Some m ->
  run_job W J_gardner_knopoff c = (c', None) -> aligned c'.
Proof.
  intros c c' m M1 W1 H. cbn [run_job] in H. apply finish_ok in H. unb.
  match goal with X : have _ (cx_working c) = Ok _ |- _ => rewrite W1 in X; injection X as <- end.
  match goal with X : gardner_knopoff_decluster _ _ _ _ = Ok _ |- _ => apply (C15_proof _ argsort_ok) in X; destruct X as (_ & L & _ & -> & _) end.
  exists m. eexists. eexists. cbn. split; [exact M1|]. split; [reflexivity|]. split; [reflexivity|]. now apply unflagged_filter.
Qed.

Lemma afteran_aligned : forall c c', run_job W J_afteran c = (c', None) -> aligned c'.
Proof.
  intros c c' H. cbn [run_job] in H. apply finish_ok in H. unb.
  destruct (cx_matrix c) as [m|] eqn:M1; [|discriminate].
  match goal with X : have _ (Some m) = Ok _ |- _ => injection X as <- end.
  match goal with X : afteran_decluster _ _ _ _ = Ok _ |- _ => apply (C23_proof _ argsort_ok) in X; destruct X as (_ & L & _ & -> & _) end.
  exists m. eexists. eexists. cbn. split; [exact M1|]. split; [reflexivity|]. split; [reflexivity|]. now apply unflagged_filter.
Qed.

Definition declusters (j : jobname) : Prop := j = J_gardner_knopoff \/ j = J_afteran.

Lemma other_aligned : forall j c c', nameable j -> ~ declusters j -> run_job W j c = (c', None) ->
  cx_matrix c' = cx_matrix c /\ cx_working c' = cx_working c /\ cx_flag c' = cx_flag c.
Proof.
  intros j c c' (n & N) D H. destruct N; try (elim D; red; now auto); cbn [run_job] in H; apply finish_ok in H; unb; cbn; auto;
  (unfold update_cur in H; unb; destruct (nth_error _ _); [|discriminate]; unb; cbn; auto).
Qed.

(** Job sequences in which Gardner-Knopoff sees the whole catalogue. *)
Fixpoint fresh_seq (fresh : bool) (js : list jobname) : Prop :=
  match js with
  | [] => True
  | J_gardner_knopoff :: r => fresh = true /\ fresh_seq false r
  | J_afteran :: r => fresh_seq false r
  | _ :: r => fresh_seq fresh r
  end.

Lemma seq_aligned : forall js c c' b, Forall nameable js -> fresh_seq b js -> (b = true -> cx_working c = cx_matrix c) ->
  aligned c -> steps W js c c' -> aligned c'.
Proof.
  intros js c c' b F S1 FR A H. revert b S1 FR A. induction H as [c|j js c c1 c2 R H IH]; intros b S1 FR A; auto.
  inversion F as [|? ? N F']; subst. specialize (IH F').
  assert (G : j = J_gardner_knopoff \/ j = J_afteran \/ ~ declusters j).
  { unfold declusters. destruct j; (right; right; intros [X|X]; discriminate) || auto. }
  destruct G as [->|[->|G]].
  - destruct S1 as (E & S1). apply (IH false); auto; [discriminate|]. destruct A as (m & w & fl & A1 & A2 & _).
    eapply gk_aligned; eauto. rewrite FR; auto.
  - apply (IH false); auto; [discriminate|]. eapply afteran_aligned; eauto.
  - destruct (other_aligned j c c1 N G R) as (E1 & E2 & E3).
    apply (IH b).
    + destruct j; auto; elim G; red; auto.
    + intros E. rewrite E1, E2. auto.
    + destruct A as (m & w & fl & A1 & A2 & A3 & A4). exists m, w, fl. rewrite E1, E2, E3. auto.
Qed.

Lemma fresh_app : forall a b js, fresh_seq b (js ++ a) -> fresh_seq b js.
Proof.
  intros a b js. revert b. induction js as [|j js IH]; intros b H; cbn; auto. cbn in H. destruct j; auto; try (apply IH in H; exact H).
  destruct H as (H1 & H2). split; auto.
Qed.

Lemma fresh_tail : forall tail js b, Forall (fun j => ~ declusters j) tail -> fresh_seq b js -> fresh_seq b (js ++ tail).
Proof.
  intros tail js. induction js as [|j js IH]; intros b F H.
  - cbn. clear H. revert b. induction F as [|j tail N F IH]; intros b; cbn; auto. destruct j; auto; elim N; red; auto.
  - cbn in *. destruct j; auto. destruct H as (H1 & H2). split; auto.
Qed.

Lemma gk_first_fresh : forall l js, Forall2 names l js -> gk_first l -> fresh_seq true js.
Proof.
  intros l js F G.
  assert (K : forall b, (b = true -> gk_first l) -> (b = false -> ~ In "GardnerKnopoff"%string l) -> fresh_seq b js).
  2:{ apply K; auto. discriminate. }
  clear G. induction F as [|n j l js N F IH]; intros b G1 G2; cbn; auto.
  assert (T1 : b = true -> gk_first l).
  { intros E a b' EQ. destruct (G1 E (n :: a) b') as (X & Y); [now rewrite EQ|]. split; intros I; [apply X|apply Y]; now right. }
  assert (T2 : b = false -> ~ In "GardnerKnopoff"%string l) by (intros E I; apply (G2 E); now right).
  assert (T3 : b = true -> (n = "GardnerKnopoff"%string \/ n = "Afteran"%string) -> ~ In "GardnerKnopoff"%string l).
  { intros E D I. apply in_split in I. destruct I as (l1 & l2 & ->). destruct (G1 E (n :: l1) l2 eq_refl) as (X & Y).
    destruct D as [->| ->]; [apply X|apply Y]; now left. }
  destruct N; auto.
  - split.
    + destruct b; auto. exfalso. apply (G2 eq_refl). now left.
    + apply IH; [discriminate|]. intros _. destruct b; auto.
  - apply IH; [discriminate|]. intros _. destruct b; auto.
Qed.

(** The shape of a preprocessing pipeline. *)
Lemma build_shape : forall (cf : config AR) pre, preprocessing_build cf = Ok pre ->
  exists sj js tail, source_job (cf_source_model_file cf) sj /\
    pre = [J_read_eq_catalog; sj; J_create_catalog_matrix; J_create_default_values] ++ js ++ tail /\
    Forall2 names (listed (cf_preprocessing_jobs cf)) js /\
    ((exists l, jobs_set (cf_preprocessing_jobs cf) l /\ 
       ((file_set (cf_pprocessing_result_file cf) /\ tail = [J_create_selected_eq_vector; J_store_preprocessed_catalog; J_store_completeness_table]) \/
        (file_unset (cf_pprocessing_result_file cf) /\ tail = []))) \/
     (jobs_unset (cf_preprocessing_jobs cf) /\
       ((file_set (cf_completeness_table_file cf) /\ tail = [J_retrieve_completeness_table]) \/
        (file_unset (cf_completeness_table_file cf) /\ tail = [])))).
Proof.
  intros cf pre H. pose proof H as H0. unfold preprocessing_build in H. apply bind_ok in H. destruct H as (hs & T1 & H). apply bind_ok in H. destruct H as (hj & T2 & H).
  assert (TF : forall v b, truth no_text v = Ok b -> (b = true /\ file_set v) \/ (b = false /\ file_unset v)).
  { intros [| |p] b E; try discriminate; injection E as <-; [right; split; auto; now left|]. destruct p as [|x p]; cbn; [right; split; auto; now right|].
    left. split; auto. exists (x :: p). split; auto. discriminate. }
  assert (SJ : exists sj, source_job (cf_source_model_file cf) sj).
  { destruct (TF _ _ T1) as [(_ & X)|(_ & X)]; eexists; constructor; exact X. }
  destruct SJ as (sj & SJ). destruct (C63_proof cf sj SJ) as (P1 & P2 & P3). exists sj.
  destruct (cf_preprocessing_jobs cf) as [| |l] eqn:J; [discriminate| |].
  - exists []. assert (U : jobs_unset Null) by now left. destruct (P3 U) as (Q1 & Q2). injection T2 as <-.
    apply bind_ok in H. destruct H as (ht & T3 & _). destruct (TF _ _ T3) as [(_ & X)|(_ & X)].
    + rewrite (Q1 X) in H0. injection H0 as <-. eexists. split; auto. split; [reflexivity|]. split; [constructor|]. right. split; auto.
    + rewrite (Q2 X) in H0. injection H0 as <-. exists []. split; auto. split; [reflexivity|]. split; [constructor|]. right. split; auto.
  - destruct l as [|n l].
    + exists []. assert (U : jobs_unset (Given [])) by now right. destruct (P3 U) as (Q1 & Q2). injection T2 as <-.
      apply bind_ok in H. destruct H as (ht & T3 & _). destruct (TF _ _ T3) as [(_ & X)|(_ & X)].
      * rewrite (Q1 X) in H0. injection H0 as <-. eexists. split; auto. split; [reflexivity|]. split; [constructor|]. right. split; auto.
      * rewrite (Q2 X) in H0. injection H0 as <-. exists []. split; auto. split; [reflexivity|]. split; [constructor|]. right. split; auto.
    + injection T2 as <-. apply bind_ok in H. destruct H as (p & A & H). apply bind_ok in H. destruct H as (hr & T3 & _).
      destruct (append_inv _ _ _ A) as [(js & F & _)|(_ & E)]; [|discriminate].
      assert (JS : jobs_set (Given (n :: l)) (n :: l)) by (split; auto; discriminate).
      destruct (P1 (n :: l) js JS F) as (Q1 & Q2). exists js. destruct (TF _ _ T3) as [(_ & X)|(_ & X)].
      * rewrite (Q1 X) in H0. injection H0 as <-. eexists. split; auto. split; [reflexivity|]. split; [exact F|]. left. exists (n :: l). split; auto.
      * rewrite (Q2 X) in H0. injection H0 as <-. exists []. split; auto. split; [now rewrite app_nil_r|]. split; [exact F|]. left. exists (n :: l). split; auto.
Qed.

(** The state after the four compulsory jobs. *)
Lemma base_state : forall cf f sj c, source_job (cf_source_model_file cf) sj ->
  steps W [J_read_eq_catalog; sj; J_create_catalog_matrix; J_create_default_values] (init_context cf f) c ->
  exists es m y0 m0, catalogue_read W cf f es /\ cx_eq_catalog c = Some es /\ mapM matrix_row es = Ok m /\ m <> [] /\
    cx_matrix c = Some m /\ cx_working c = Some m /\ cx_flag c = Some (repeat 0%Z (length m)) /\
    minv (map ev_year m) = Ok y0 /\ minv (map ev_mw m) = Ok m0 /\ cx_table c = Some [(y0, m0)] /\
    cx_config c = cf /\ cx_cur c = None /\ cx_filtered c = None /\ cx_files c = f.
Proof.
  intros cf f sj c SJ H.
  inversion H as [|? ? ? c1 ? R1 H1]; subst. inversion H1 as [|? ? ? c2 ? R2 H2]; subst.
  inversion H2 as [|? ? ? c3 ? R3 H3]; subst. inversion H3 as [|? ? ? c4 ? R4 H4]; subst. inversion H4; subst. clear H H1 H2 H3 H4.
  cbn [run_job] in R1. apply finish_ok in R1. apply bind_ok in R1. destruct R1 as (x & XL & R1).
  apply bind_ok in R1. destruct R1 as (x0 & XO & R1). apply bind_ok in R1. destruct R1 as (x1 & XR & R1). injection R1 as <-.
  set (c1 := set_eq_catalog _ _) in R2.
  assert (E2 : cx_config c2 = cf /\ cx_eq_catalog c2 = cx_eq_catalog c1 /\ cx_cur c2 = None /\ cx_filtered c2 = None /\ cx_files c2 = f).
  { inversion SJ; subst; cbn [run_job] in R2.
    - unfold read_source_model in R2. destruct (bind _ _) as [ct|e] in R2; [|discriminate].
      destruct (w_xml_parse W ct) as [d|]; [|discriminate]. destruct (read_doc (w_parse_float W) d) as (ss, y).
      destruct y as [e|]; [discriminate|]. destruct ss as [|s0 ss]; cbn in R2; [discriminate|]. injection R2 as <-. auto.
    - injection R2 as <-. auto. }
  destruct E2 as (E21 & E22 & E23 & E24 & E25).
  cbn [run_job] in R3. apply finish_ok in R3. rewrite E22 in R3. unfold c1 in R3. cbn [cx_eq_catalog set_eq_catalog have bind] in R3.
  apply bind_ok in R3. destruct R3 as (x2 & XM & R3). injection R3 as <-.
  cbn [run_job] in R4. unfold create_default_values in R4. cbn [cx_working set_working] in R4. destruct x2 as [|r0 rs] eqn:EM.
  { cbn in R4. discriminate. }
  rewrite <- EM in *. apply finish_ok in R4.
  assert (NE : x2 <> []) by (rewrite EM; discriminate).
  replace (columns x2) with (Ok x2) in R4 by (rewrite EM; reflexivity). cbn [bind] in R4.
  apply bind_ok in R4. destruct R4 as (y0 & MY & R4). apply bind_ok in R4. destruct R4 as (m0 & MM & R4). injection R4 as <-.
  exists x1, x2, y0, m0. cbn. repeat (split; auto).
  exists x, x0. unfold lookup_file in XL. unfold open_read in XO. cbn in XL, XO. destruct (cf_eq_catalog_file cf); try discriminate. injection XL as ->.
  destruct (f x); [|discriminate]. injection XO as ->. auto.
Qed.

Lemma names_nameable : forall l js, Forall2 names l js -> Forall nameable js.
Proof. intros l js F. induction F as [|n j l js N F IH]; constructor; auto. now exists n. Qed.

Lemma steps_split : forall a b c c', steps W (a ++ b) c c' -> exists c1, steps W a c c1 /\ steps W b c1 c'.
Proof.
  induction a as [|j a IH]; intros b c c' H.
  - exists c. split; [constructor|exact H].
  - inversion H as [|? ? ? c1 ? R H1]; subst. destruct (IH _ _ _ H1) as (c2 & X & Y). exists c2. split; auto. econstructor; eauto.
Qed.

Lemma tail_ok : forall (cf : config AR) js tail, Forall2 names (listed (cf_preprocessing_jobs cf)) js ->
  ((exists l, jobs_set (cf_preprocessing_jobs cf) l /\ 
       ((file_set (cf_pprocessing_result_file cf) /\ tail = [J_create_selected_eq_vector; J_store_preprocessed_catalog; J_store_completeness_table]) \/
        (file_unset (cf_pprocessing_result_file cf) /\ tail = []))) \/
     (jobs_unset (cf_preprocessing_jobs cf) /\
       ((file_set (cf_completeness_table_file cf) /\ tail = [J_retrieve_completeness_table]) \/
        (file_unset (cf_completeness_table_file cf) /\ tail = [])))) ->
  Forall nameable (js ++ tail) /\ Forall (fun j => ~ declusters j) tail.
Proof.
  intros cf js tail F H.
  assert (X : Forall nameable tail /\ Forall (fun j => ~ declusters j) tail).
  { assert (N1 : Forall nameable [J_create_selected_eq_vector; J_store_preprocessed_catalog; J_store_completeness_table]).
    { repeat (apply Forall_cons); try apply Forall_nil; eexists; constructor. }
    assert (N2 : Forall nameable [J_retrieve_completeness_table]).
    { repeat (apply Forall_cons); try apply Forall_nil; eexists; constructor. }
    assert (D : forall j, j <> J_gardner_knopoff -> j <> J_afteran -> ~ declusters j) by (intros j A B [C|C]; contradiction).
    destruct H as [(l & _ & [(_ & ->)|(_ & ->)])|(_ & [(_ & ->)|(_ & ->)])]; split; auto;
      repeat (apply Forall_cons); try apply Forall_nil; apply D; discriminate. }
  destruct X as (X1 & X2). split; auto. apply Forall_app. split; auto. eapply names_nameable; eauto.
Qed.

(** ** C68 *)
Theorem C68_proof : forall cf f pre p q c, preprocessing_build cf = Ok pre -> gk_first (listed (cf_preprocessing_jobs cf)) ->
  pre = p ++ q -> 4 <= length p -> steps W p (init_context cf f) c -> aligned c.
Proof.
  intros cf f pre p q c B G E L H. destruct (build_shape cf pre B) as (sj & js & tail & SJ & EP & F & K).
  destruct (tail_ok cf js tail F K) as (N1 & N2).
  pose proof (gk_first_fresh _ _ F G) as FS. apply (fresh_tail tail js true N2) in FS.
  assert (X : exists p', p = [J_read_eq_catalog; sj; J_create_catalog_matrix; J_create_default_values] ++ p' /\ js ++ tail = p' ++ q).
  { rewrite EP in E. destruct p as [|a1 [|a2 [|a3 [|a4 p']]]]; cbn in L; try lia. injection E as <- <- <- <- E. exists p'. auto. }
  destruct X as (p' & -> & E'). apply steps_split in H. destruct H as (c1 & H1 & H2).
  destruct (base_state cf f sj c1 SJ H1) as (es & m & y0 & m0 & _ & _ & _ & _ & M1 & W1 & F1 & _).
  apply (seq_aligned p' c1 c true); auto.
  - rewrite E' in N1. apply Forall_app in N1. now destruct N1.
  - rewrite E' in FS. now apply fresh_app in FS.
  - congruence.
  - exists m, m, (repeat 0%Z (length m)). split; [auto|]. split; [auto|]. split; [auto|]. apply unflagged_zeros.
Qed.

(** Gardner-Knopoff once more after something was removed: the flags no longer belong to the
    catalogue. *)
Theorem C68_again_proof : forall c c' m w, cx_matrix c = Some m -> cx_working c = Some w -> length w < length m ->
  run_job W J_gardner_knopoff c = (c', None) -> ~ aligned c'.
Proof.
  intros c c' m w M1 W1 L H (m' & w' & fl & A1 & A2 & A3 & A4). apply unflagged_length in A4. destruct A4 as (A4 & _).
  cbn [run_job] in H. apply finish_ok in H. unb.
  match goal with X : have _ (cx_working c) = Ok _ |- _ => rewrite W1 in X; injection X as <- end.
  match goal with X : gardner_knopoff_decluster _ _ _ _ = Ok _ |- _ => apply (C15_proof _ argsort_ok) in X; destruct X as (_ & L' & _) end.
  cbn in A1, A3. rewrite M1 in A1. injection A1 as <-. injection A3 as <-. lia.
Qed.

(** ... and the selection of the events to store then fails, or, when a single event was left,
    brings back every event that is complete. *)
Theorem C68_again_selection_proof : forall c c' m w tab, cx_matrix c = Some m -> cx_working c = Some w -> length w < length m ->
  cx_table c = Some tab -> run_job W J_gardner_knopoff c = (c', None) ->
  (length w <> 1 -> run_job W J_create_selected_eq_vector c' = (c', Some ValueError)) /\
  (length w = 1 -> exists c'' sel, run_job W J_create_selected_eq_vector c' = (c'', None) /\ cx_selected c'' = Some sel /\
     selected_eq_flag_vector (map ev_year m) (map ev_mw m) tab (repeat 0%Z (length m)) = Ok sel).
Proof.
  intros c c' m w tab M1 W1 L T1 H. cbn [run_job] in H. apply finish_ok in H. unb.
  match goal with X : have _ (cx_working c) = Ok _ |- _ => rewrite W1 in X; injection X as <- end.
  match goal with X : gardner_knopoff_decluster _ _ _ _ = Ok _ |- _ =>
    pose proof (C15_proof _ argsort_ok _ _ _ _ _ _ X) as (_ & L' & _); pose proof (C17_proof _ argsort_ok _ _ _ _ _ _ X) as NE end.
  rename l into fl.
  cbn [run_job]. unfold create_selected_eq_vector. cbn. rewrite M1, T1. cbn [have bind].
  destruct m as [|r [|r2 m]]; cbn in L.
  { lia. }
  { destruct w; [|cbn in L; lia].
    match goal with X : gardner_knopoff_decluster _ [] _ _ = Ok _ |- _ => cbn in X; discriminate end. }
  cbn [columns bind]. unfold selected_eq_flag_vector. set (m' := r :: r2 :: m) in *.
  assert (LM : length (map ev_year m') = length m') by apply map_length.
  rewrite LM. replace (length fl =? length m') with false by (symmetry; apply Nat.eqb_neq; cbn; lia).
  split.
  - intros N. destruct fl as [|z1 [|z2 fl]]; cbn in L'.
    + destruct w; [|discriminate]. match goal with X : gardner_knopoff_decluster _ [] _ _ = Ok _ |- _ => cbn in X; discriminate end.
    + lia.
    + assert (LT : length (completeness_flag (map ev_year m') (map ev_mw m') tab) = length m').
      { unfold completeness_flag. apply (fold_left_inv _ _ (fun l => length l = length m')).
        - now rewrite repeat_length.
        - intros a b Ha _. now rewrite length_mask_set. }
      destruct (completeness_flag (map ev_year m') (map ev_mw m') tab) as [|t1 [|t2 tf]]; cbn in LT; try discriminate. reflexivity.
  - intros E. destruct w as [|e [|]]; cbn in E; try discriminate.
    destruct fl as [|z1 [|z2 fl]]; cbn in L'; try discriminate.
    assert (Z1 : z1 = 0%Z).
    { match goal with X : gardner_knopoff_decluster _ [e] _ _ = Ok _ |- _ => pose proof (C15_proof _ argsort_ok _ _ _ _ _ _ X) as (_ & _ & _ & VM & _) end.
      cbn in VM. destruct (Z.eqb_spec z1 0); auto. cbn in VM. subst. elim NE. reflexivity. }
    subst z1. eexists. eexists. split; [reflexivity|]. split; [reflexivity|].
    rewrite repeat_length, Nat.eqb_refl. do 2 f_equal. apply zeros_mask.
    unfold completeness_flag. apply (fold_left_inv _ _ (fun l => length l = length m')).
    + now rewrite repeat_length.
    + intros a b Ha _. now rewrite length_mask_set.
Qed.

End FlowPre.
