(** What a run depends on and what it writes (C108, C109). *)
From Coq Require Import ZArith Bool Ascii String List Lia.
From Verif Require Import Base Ops BaseFacts CatUtil PyStr PyStrProofs EqCatalog SourceModel Nrml World CatalogFilter
  Recurrence MaxMag Jobs Workflow Main FlowSpec FlowPipe FlowFiles RepeatSpec.
Import ListNotations.
Local Open Scope res_scope.

Section FlowRepeat.
Context {AR : Ops}.
Variable W : world AR.

(** ** The jobs of a configuration *)

Lemma callable_name : forall s j, map_job_callable s = Some j ->
  (j = J_retrieve_completeness_table -> s = "Retrieve_completeness_table"%string) /\
  (j = J_store_preprocessed_catalog -> s = "Store_eq_catalog"%string) /\
  (j = J_store_completeness_table -> s = "Store_completeness_table"%string).
Proof.
  intros s j H. unfold map_job_callable in H.
  repeat match type of H with
  | (if String.eqb s ?n then _ else _) = _ =>
      destruct (String.eqb_spec s n); [injection H as <-; subst s; repeat split; intros; try discriminate; reflexivity|]
  end. discriminate.
Qed.

Lemma append_in : forall l p p' j, append_jobs p l = Ok p' -> In j p' ->
  In j p \/ exists s, In s l /\ map_job_callable s = Some j.
Proof.
  induction l as [|s l IH]; intros p p' j H I; cbn [append_jobs] in H.
  - injection H as <-. auto.
  - destruct (map_job_callable s) as [a|] eqn:E; [|discriminate].
    destruct (IH _ _ j H I) as [Q|(x & X1 & X2)].
    + apply in_app_iff in Q. destruct Q as [Q|[<-|[]]]; auto. right. exists s. split; [now left|auto].
    + right. exists x. split; [now right|auto].
Qed.

Lemma truth_jobs : forall v b, truth no_jobs v = Ok b -> b = true -> listed v <> [].
Proof. intros [| |[|x l]] b H ->; cbn in *; congruence. Qed.
Lemma truth_no_jobs : forall v b, truth no_jobs v = Ok b -> b = false -> listed v = [].
Proof. intros [| |[|x l]] b H ->; cbn in *; congruence. Qed.
Lemma truth_text : forall v b, truth no_text v = Ok b -> b = true -> exists p, v = Given p /\ p <> [].
Proof.
  intros [| |[|x l]] b H ->; cbn in *; try congruence. eexists. split; [reflexivity|discriminate].
Qed.

Lemma jobs_of_config : forall cf pre pro, preprocessing_build cf = Ok pre -> processing_build cf = Ok pro ->
  forall j, In j (pre ++ pro) ->
  (j = J_retrieve_completeness_table -> retrieves_table (AR := AR) cf) /\
  (j = J_store_preprocessed_catalog -> stores "Store_eq_catalog" cf) /\
  (j = J_store_completeness_table -> stores "Store_completeness_table" cf).
Proof.
  intros cf pre pro Hp Hq j I.
  assert (Named : forall s, In s (job_names cf) -> map_job_callable s = Some j ->
    (j = J_retrieve_completeness_table -> retrieves_table cf) /\
    (j = J_store_preprocessed_catalog -> stores "Store_eq_catalog" cf) /\
    (j = J_store_completeness_table -> stores "Store_completeness_table" cf)).
  { intros s Is M. destruct (callable_name _ _ M) as (A & B & C).
    split; [|split]; intros E; left; [rewrite (A E) in Is|rewrite (B E) in Is|rewrite (C E) in Is]; exact Is. }
  apply in_app_iff in I. destruct I as [I|I].
  - unfold preprocessing_build in Hp. apply bind_ok in Hp. destruct Hp as (sm & _ & Hp).
    apply bind_ok in Hp. destruct Hp as (hj & Hj & Hp).
    assert (Base : forall x, In x [J_read_eq_catalog; if sm then J_read_source_model else J_create_default_source_model;
               J_create_catalog_matrix; J_create_default_values] ->
       x <> J_retrieve_completeness_table /\ x <> J_store_preprocessed_catalog /\ x <> J_store_completeness_table).
    { intros x [<-|[<-|[<-|[<-|[]]]]]; try destruct sm; repeat split; discriminate. }
    assert (BaseG : In j [J_read_eq_catalog; if sm then J_read_source_model else J_create_default_source_model;
               J_create_catalog_matrix; J_create_default_values] ->
       (j = J_retrieve_completeness_table -> retrieves_table cf) /\
       (j = J_store_preprocessed_catalog -> stores "Store_eq_catalog" cf) /\
       (j = J_store_completeness_table -> stores "Store_completeness_table" cf)).
    { intros Q. destruct (Base j Q) as (A & B & C). repeat split; intros E; contradiction. }
    destruct hj.
    + apply bind_ok in Hp. destruct Hp as (p & Ap & Hp). apply bind_ok in Hp. destruct Hp as (st & Hs & Hp).
      assert (InP : In j p -> (j = J_retrieve_completeness_table -> retrieves_table cf) /\
         (j = J_store_preprocessed_catalog -> stores "Store_eq_catalog" cf) /\
         (j = J_store_completeness_table -> stores "Store_completeness_table" cf)).
      { intros Q. destruct (append_in _ _ _ _ Ap Q) as [Q'|(s & S1 & S2)]; auto.
        apply (Named s); auto. unfold job_names. apply in_app_iff. auto. }
      destruct st; injection Hp as <-; auto.
      apply in_app_iff in I. destruct I as [I|I]; auto.
      assert (Sto : forall n, stores n cf).
      { intros n. right. split; [eapply truth_jobs; eauto|eapply truth_text; eauto]. }
      destruct I as [<-|[<-|[<-|[]]]]; repeat split; intros E; try discriminate; apply Sto.
    + apply bind_ok in Hp. destruct Hp as (ht & _ & Hp).
      destruct ht; injection Hp as <-; auto.
      destruct I as [<-|[<-|[<-|[<-|[<-|[]]]]]]; try destruct sm; repeat split; intros E; try discriminate.
      all: right; eapply truth_no_jobs; eauto.
  - unfold processing_build in Hq. apply bind_ok in Hq. destruct Hq as (hj & Hj & Hq).
    destruct hj; [|injection Hq as <-; destruct I].
    destruct (append_in _ _ _ _ Hq I) as [[]|(s & S1 & S2)].
    apply (Named s); auto. unfold job_names. apply in_app_iff. auto.
Qed.

(** ** Two runs side by side *)

Variables f g : files.

Definition sim (c1 c2 : context AR) : Prop :=
  same_context c1 c2 /\
  forall q, cx_files c1 q = cx_files c2 q \/ cx_files c1 q = f q /\ cx_files c2 q = g q.

Definition agree_on (v : cval text) : Prop := forall q, v = Given q -> f q = g q.

Lemma sim_fields : forall c1 c2, sim c1 c2 ->
  cx_config c1 = cx_config c2 /\ cx_eq_catalog c1 = cx_eq_catalog c2 /\ cx_sms c1 = cx_sms c2 /\
  cx_matrix c1 = cx_matrix c2 /\ cx_working c1 = cx_working c2 /\ cx_flag c1 = cx_flag c2 /\
  cx_vcl c1 = cx_vcl c2 /\ cx_table c1 = cx_table c2 /\ cx_selected c1 = cx_selected c2 /\
  cx_cur c1 = cx_cur c2 /\ cx_filtered c1 = cx_filtered c2.
Proof.
  intros [] [] [S _]. unfold same_context, set_files in S. cbn in *. injection S; intros; subst. repeat split; auto.
Qed.

Lemma sim_read : forall c1 c2 v e, sim c1 c2 -> agree_on v ->
  (let* p := lookup_file e v in open_read (cx_files c1) p) = (let* p := lookup_file e v in open_read (cx_files c2) p).
Proof.
  intros c1 c2 v e [_ S] A. destruct v as [| |p]; auto. cbn. unfold open_read.
  destruct (S p) as [->|[-> ->]]; auto. rewrite (A p); auto.
Qed.

Lemma sim_write : forall c1 c2 p x, sim c1 c2 ->
  sim (set_files (write_file p x (cx_files c1)) c1) (set_files (write_file p x (cx_files c2)) c2).
Proof.
  intros c1 c2 p x [S F]. split.
  - exact S.
  - intros q. cbn. unfold write_file. destruct (text_eqb p q); auto.
Qed.

(** Results of two jobs. *)
Definition sim2 (r1 r2 : context AR * option exn) : Prop := sim (fst r1) (fst r2) /\ snd r1 = snd r2.
Definition simr (r1 r2 : res (context AR)) : Prop :=
  match r1, r2 with Ok c1, Ok c2 => sim c1 c2 | Err e1, Err e2 => e1 = e2 | _, _ => False end.

Lemma sim_finish : forall c1 c2 r1 r2, sim c1 c2 -> simr r1 r2 -> sim2 (finish c1 r1) (finish c2 r2).
Proof. intros c1 c2 [x|e] [y|e'] S R; cbn in *; try contradiction; split; cbn; congruence. Qed.

Lemma simr_bind : forall A (r : res A) k1 k2, (forall a, simr (k1 a) (k2 a)) -> simr (bind r k1) (bind r k2).
Proof. intros A [a|e] k1 k2 H; cbn; auto. Qed.

Lemma sim_set : forall (u : context AR -> context AR) c1 c2, sim c1 c2 ->
  (forall c x, set_files x (u c) = u (set_files x c)) -> (forall c, cx_files (u c) = cx_files c) ->
  sim (u c1) (u c2).
Proof.
  intros u c1 c2 [S F] H1 H2. split.
  - unfold same_context in *. rewrite !H1. congruence.
  - intros q. rewrite !H2. apply F.
Qed.

Ltac same := repeat match goal with |- simr (bind ?r _) (bind ?r _) => apply simr_bind; intros ? end.
Ltac assigned u S := apply (sim_set u _ _ S); reflexivity.

Lemma sim_update : forall c1 c2 h, sim c1 c2 -> simr (update_cur c1 h) (update_cur c2 h).
Proof.
  intros c1 c2 h S. destruct (sim_fields _ _ S) as (_ & _ & E2 & _ & _ & _ & _ & _ & _ & E9 & _).
  unfold update_cur. rewrite E2, E9. same. destruct (nth_error a0 a); cbn; auto.
  assigned (set_sms (AR := AR) (Some (set_nth a (h a1) a0))) S.
Qed.

Lemma job_sim : forall j c1 c2, sim c1 c2 -> agree_on (cf_eq_catalog_file (cx_config c1)) ->
  agree_on (cf_source_model_file (cx_config c1)) ->
  (j = J_retrieve_completeness_table -> agree_on (cf_completeness_table_file (cx_config c1))) ->
  sim2 (run_job W j c1) (run_job W j c2).
Proof.
  intros j c1 c2 S A1 A2 A3.
  destruct (sim_fields _ _ S) as (E0 & E1 & E2 & E3 & E4 & E5 & E6 & E7 & E8 & E9 & E10).
  destruct j; cbn [run_job].
  - apply sim_finish; auto. rewrite <- E0. assert (R := sim_read c1 c2 _ TypeError S A1).
    destruct (lookup_file TypeError (cf_eq_catalog_file (cx_config c1))) as [p|]; cbn in *; auto. rewrite R.
    same. cbn. assigned (set_eq_catalog (AR := AR) (Some a0)) S.
  - unfold read_source_model. rewrite <- E0, <- (sim_read c1 c2 _ TypeError S A2).
    destruct (let* p := lookup_file TypeError (cf_source_model_file (cx_config c1)) in open_read (cx_files c1) p) as [x|e].
    2:{ split; auto. }
    destruct (w_xml_parse W x) as [d|]; [|split; auto].
    destruct (read_doc (w_parse_float W) d) as [ss o].
    assert (S' : sim (match ss with [] => c1 | _ => set_sms (Some ss) c1 end)
                     (match ss with [] => c2 | _ => set_sms (Some ss) c2 end)).
    { destruct ss; auto. assigned (set_sms (AR := AR) (Some (a :: ss))) S. }
    revert S'. generalize (match ss with [] => c1 | _ => set_sms (Some ss) c1 end),
      (match ss with [] => c2 | _ => set_sms (Some ss) c2 end). intros d1 d2 S'.
    destruct (sim_fields _ _ S') as (_ & _ & E2' & _).
    destruct o as [e|]; [split; auto|]. rewrite <- E2'. destruct (cx_sms d1); split; auto.
  - split; cbn; auto. assigned (set_sms (AR := AR) (Some [default_area_source])) S.
  - apply sim_finish; auto. rewrite <- E1. same. cbn.
    assigned (fun c => set_working (AR := AR) (Some a0) (set_matrix (Some a0) c)) S.
  - unfold create_default_values. rewrite <- E4. destruct (cx_working c1) as [w|]; [|split; auto].
    assert (S' : sim (set_flag (Some (repeat 0%Z (length w))) c1) (set_flag (Some (repeat 0%Z (length w))) c2)).
    { assigned (set_flag (AR := AR) (Some (repeat 0%Z (length w)))) S. }
    apply sim_finish; auto. same. cbn. assigned (set_table (AR := AR) (Some [(a0, a1)])) S'.
  - apply sim_finish; auto. rewrite <- E0, <- E4. same. destruct a1 as ((vcl, mn), flag). cbn.
    assigned (fun c => set_flag (AR := AR) (Some flag) (set_working (Some mn) (set_vcl (Some vcl) c))) S.
  - apply sim_finish; auto. rewrite <- E0, <- E3. same. destruct a1 as ((vcl, mn), flag). cbn.
    assigned (fun c => set_flag (AR := AR) (Some flag) (set_working (Some mn) (set_vcl (Some vcl) c))) S.
  - apply sim_finish; auto. rewrite <- E0, <- E4. same. cbn. assigned (set_table (AR := AR) (Some a2)) S.
  - apply sim_finish; auto. rewrite <- E0, <- E7, <- E10. same. now apply sim_update.
  - apply sim_finish; auto. rewrite <- E3, <- E5, <- E7. same. cbn. assigned (set_selected (AR := AR) (Some a3)) S.
  - apply sim_finish; auto. rewrite <- E0, <- E1, <- E3, <- E8. same. cbn. now apply sim_write.
  - apply sim_finish; auto. rewrite <- E0, <- E7. same. cbn. now apply sim_write.
  - apply sim_finish; auto. rewrite <- E0.
    assert (R := sim_read c1 c2 _ TypeError S (A3 eq_refl)).
    destruct (lookup_file TypeError (cf_completeness_table_file (cx_config c1))) as [p|]; cbn in *; auto. rewrite R.
    same. cbn. assigned (set_table (AR := AR) (Some a1)) S.
  - apply sim_finish; auto. rewrite <- E0, <- E10. same. now apply sim_update.
Qed.

Definition reads_ok (cf : config AR) (js : list jobname) : Prop :=
  agree_on (cf_eq_catalog_file cf) /\ agree_on (cf_source_model_file cf) /\
  (In J_retrieve_completeness_table js -> agree_on (cf_completeness_table_file cf)).

Lemma pipeline_sim : forall js c1 c2, sim c1 c2 -> reads_ok (cx_config c1) js ->
  sim2 (pipeline_run W js c1) (pipeline_run W js c2).
Proof.
  induction js as [|j js IH]; intros c1 c2 S (R1 & R2 & R3); cbn [pipeline_run]; [split; auto|].
  assert (J := job_sim j c1 c2 S R1 R2 (fun E => R3 (or_introl E))).
  destruct (run_job W j c1) as (d1, [e1|]) eqn:J1, (run_job W j c2) as (d2, [e2|]) eqn:J2; destruct J as [Sd Ed]; cbn in *; try discriminate.
  - split; auto.
  - apply job_keeps in J1. destruct J1 as (K & _). apply IH; auto. rewrite K. repeat split; auto.
Qed.

Lemma loop_sim : forall flt js w n i c1 c2, sim c1 c2 -> reads_ok (cx_config c1) js ->
  sim2 (process_sources W flt js w n i c1) (process_sources W flt js w n i c2).
Proof.
  intros flt js w. induction n as [|n IH]; intros i c1 c2 S R; cbn [process_sources]; [split; auto|].
  destruct (sim_fields _ _ S) as (E0 & E1 & E2 & E3 & E4 & E5 & E6 & E7 & E8 & E9 & E10).
  rewrite <- E2. destruct (cx_sms c1) as [ss|]; [|split; auto].
  destruct (nth_error ss i) as [s|]; [|split; auto].
  destruct (filter_eqs W flt s w) as [eqs|e]; [|split; auto].
  set (u := fun c => set_filtered (AR := AR) (Some eqs) (set_cur (Some i) c)).
  assert (S' : sim (u c1) (u c2)) by assigned u S.
  assert (P := pipeline_sim js _ _ S' R). unfold u in P.
  destruct (pipeline_run W js (set_filtered (Some eqs) (set_cur (Some i) c1))) as (d1, [e1|]) eqn:P1,
    (pipeline_run W js (set_filtered (Some eqs) (set_cur (Some i) c2))) as (d2, [e2|]) eqn:P2;
    destruct P as [Sd Ed]; cbn in *; try discriminate.
  - split; auto.
  - apply pipeline_keeps in P1. destruct P1 as (K & _). apply IH; auto. rewrite K. exact R.
Qed.

Lemma start_sim : forall pre pro flt c1 c2, sim c1 c2 -> reads_ok (cx_config c1) (pre ++ pro) ->
  sim2 (start W pre pro flt c1) (start W pre pro flt c2).
Proof.
  intros pre pro flt c1 c2 S (R1 & R2 & R3). unfold start.
  assert (P := pipeline_sim pre _ _ S (conj R1 (conj R2 (fun I => R3 (in_or_app _ _ _ (or_introl I)))))).
  destruct (pipeline_run W pre c1) as (d1, [e1|]) eqn:P1, (pipeline_run W pre c2) as (d2, [e2|]) eqn:P2;
    destruct P as [Sd Ed]; cbn in Ed; try discriminate.
  - split; auto.
  - cbn in Sd. destruct (sim_fields _ _ Sd) as (E0 & E1 & E2 & E3 & E4 & _).
    rewrite <- E0, <- E2, <- E4. destruct (cf_apply_processing_jobs (cx_config d1)); try (split; auto; fail).
    destruct (cx_sms d1) as [[|s ss]|]; try (split; auto; fail).
    destruct (cx_working d1) as [w|]; try (split; auto; fail).
    apply loop_sim; auto. apply pipeline_keeps in P1. destruct P1 as (K & _). rewrite K.
    split; [|split]; auto. intros I. apply R3. apply in_or_app. now right.
Qed.

Lemma result_sim : forall c1 c2, sim c1 c2 -> sim2 (write_result W c1) (write_result W c2).
Proof.
  intros c1 c2 S. destruct (sim_fields _ _ S) as (E0 & E1 & E2 & _).
  unfold write_result. apply sim_finish; auto. rewrite <- E0, <- E2. same. cbn. now apply sim_write.
Qed.

Lemma C108_proof : forall cf c1 e1 c2 e2, (forall q, read_path cf q -> f q = g q) ->
  run_config W cf f = (c1, e1) -> run_config W cf g = (c2, e2) ->
  e1 = e2 /\ same_context c1 c2 /\
  forall q, cx_files c1 q = cx_files c2 q \/ cx_files c1 q = f q /\ cx_files c2 q = g q.
Proof.
  intros cf c1 e1 c2 e2 A H1 H2.
  assert (S0 : sim (init_context cf f) (init_context cf g)).
  { split; [reflexivity|]. intros q. right. auto. }
  assert (G : sim2 (run_config W cf f) (run_config W cf g)).
  { unfold run_config. destruct (preprocessing_build cf) as [pre|e] eqn:Pp; cbn [bind]; [|split; auto].
    destruct (processing_build cf) as [pro|e] eqn:Pq; cbn [bind]; [|split; auto].
    destruct (choose_filter cf) as [flt|e]; cbn [bind]; [|split; auto].
    assert (R : reads_ok cf (pre ++ pro)).
    { split; [|split].
      - intros q E. apply A. now left.
      - intros q E. apply A. right. now left.
      - intros I q E. apply A. right. right. split; auto.
        apply (jobs_of_config cf pre pro Pp Pq _ I). reflexivity. }
    assert (S := start_sim pre pro flt _ _ S0 R).
    destruct (start W pre pro flt (init_context cf f)) as (d1, [x1|]), (start W pre pro flt (init_context cf g)) as (d2, [x2|]);
      destruct S as [Sd Ed]; cbn in Ed; try discriminate.
    - split; auto.
    - now apply result_sim. }
  rewrite H1, H2 in G. destruct G as [[S F] E]. auto.
Qed.

End FlowRepeat.

(** ** What is written *)
Section Written.
Context {AR : Ops}.
Variable W : world AR.

Definition leaves (q : text) (c c' : context AR) : Prop :=
  cx_config c' = cx_config c /\ cx_files c' q = cx_files c q.

Lemma finish_leaves : forall q c r c' x, (forall c1, r = Ok c1 -> leaves q c c1) -> finish c r = (c', x) -> leaves q c c'.
Proof. intros q c [c1|e] c' x H E; cbn in E; injection E as <- _; [now apply H|now split]. Qed.

Ltac unbind := repeat match goal with
  | H : bind _ _ = Ok _ |- _ => apply bind_ok in H; destruct H as (? & ? & H)
  | H : Ok _ = Ok _ |- _ => injection H as <-
  | p : (_ * _)%type |- _ => destruct p
  end.

Lemma job_leaves : forall q j c c' x,
  (j = J_store_preprocessed_catalog -> cf_pprocessing_result_file (cx_config c) <> Given q) ->
  (j = J_store_completeness_table -> cf_completeness_table_file (cx_config c) <> Given q) ->
  run_job W j c = (c', x) -> leaves q c c'.
Proof.
  intros q j c c' x N1 N2 H. assert (K := job_keeps W j c c' x H). destruct K as (K & _).
  split; auto.
  destruct j; cbn [run_job] in H;
    try (apply (finish_leaves q) in H; [apply H|]; intros c1 R; unbind; now split).
  - unfold read_source_model in H. destruct (bind _ _) as [ct|e] in H; [|now injection H as <- _].
    destruct (w_xml_parse W ct) as [d|]; [|now injection H as <- _].
    destruct (read_doc (w_parse_float W) d) as (ss, y).
    destruct ss as [|s ss]; destruct y as [e|]; try (now injection H as <- _).
    cbn in H. destruct (cx_sms c); now injection H as <- _.
  - unfold create_default_source_model in H. now injection H as <- _.
  - unfold create_default_values in H. destruct (cx_working c) as [w|]; [|now injection H as <- _].
    apply (finish_leaves q) in H; [apply H|]. intros c1 R. unbind. now split.
  - apply (finish_leaves q) in H; [apply H|]. intros c1 R. unbind.
    unfold update_cur in R. unbind. destruct (nth_error _ _); [|discriminate]. unbind. now split.
  - apply (finish_leaves q) in H; [apply H|]. intros c1 R. unbind. split; auto. cbn. apply write_file_other.
    intros E. match goal with L : lookup_file _ _ = Ok _ |- _ => unfold lookup_file in L; destruct (cf_pprocessing_result_file (cx_config c)); try discriminate; injection L as -> end.
    subst. now apply N1.
  - apply (finish_leaves q) in H; [apply H|]. intros c1 R. unbind. split; auto. cbn. apply write_file_other.
    intros E. match goal with L : lookup_file _ _ = Ok _ |- _ => unfold lookup_file in L; destruct (cf_completeness_table_file (cx_config c)); try discriminate; injection L as -> end.
    subst. now apply N2.
  - apply (finish_leaves q) in H; [apply H|]. intros c1 R. unbind.
    unfold update_cur in R. unbind. destruct (nth_error _ _); [|discriminate]. unbind. now split.
Qed.

Definition writes_not (q : text) (cf : config AR) (js : list jobname) : Prop :=
  (In J_store_preprocessed_catalog js -> cf_pprocessing_result_file cf <> Given q) /\
  (In J_store_completeness_table js -> cf_completeness_table_file cf <> Given q).

Lemma pipeline_leaves : forall q js c c' x, writes_not q (cx_config c) js ->
  pipeline_run W js c = (c', x) -> leaves q c c'.
Proof.
  intros q. induction js as [|j js IH]; intros c c' x (N1 & N2) H; cbn [pipeline_run] in H.
  - injection H as <- _. now split.
  - destruct (run_job W j c) as (c1, o) eqn:J.
    apply (job_leaves q) in J; [|intros E; apply N1; now left|intros E; apply N2; now left].
    destruct J as (J1 & J2).
    destruct o; [injection H as <- _; now split|].
    apply IH in H. { destruct H as (H1 & H2). split; congruence. }
    rewrite J1. split; intros I; [apply N1|apply N2]; now right.
Qed.

Lemma loop_leaves : forall q flt js w n i c c' x, writes_not q (cx_config c) js ->
  process_sources W flt js w n i c = (c', x) -> leaves q c c'.
Proof.
  intros q flt js w. induction n as [|n IH]; intros i c c' x N H; cbn [process_sources] in H.
  - injection H as <- _. now split.
  - destruct (cx_sms c) as [ss|]; [|injection H as <- _; now split].
    destruct (nth_error ss i) as [s|]; [|injection H as <- _; now split].
    destruct (filter_eqs W flt s w) as [eqs|e]; [|injection H as <- _; now split].
    destruct (pipeline_run W js _) as (c1, o) eqn:P in H. apply (pipeline_leaves q) in P; [|exact N].
    destruct P as (P1 & P2). destruct o; [injection H as <- _; now split|].
    apply IH in H. { destruct H as (H1 & H2). cbn in *. split; congruence. } now rewrite P1.
Qed.

Lemma written_only_proof : forall cf f c' x q, run_config W cf f = (c', x) -> ~ written_path cf q ->
  cx_files c' q = f q.
Proof.
  intros cf f c' x q H N. unfold run_config in H.
  destruct (preprocessing_build cf) as [pre|e] eqn:Pp; cbn [bind] in H; [|now injection H as <- _].
  destruct (processing_build cf) as [pro|e] eqn:Pq; cbn [bind] in H; [|now injection H as <- _].
  destruct (choose_filter cf) as [flt|e]; cbn [bind] in H; [|now injection H as <- _].
  assert (J := jobs_of_config cf pre pro Pp Pq).
  assert (NW : forall js, (forall j, In j js -> In j (pre ++ pro)) -> writes_not q cf js).
  { intros js Inc. split; intros I E; apply N.
    - left. split; auto. apply (J _ (Inc _ I)). reflexivity.
    - right. left. split; auto. apply (J _ (Inc _ I)). reflexivity. }
  assert (N3 : cf_result_file cf <> Given q) by (intros E; apply N; right; now right).
  assert (L : forall c1 o, start W pre pro flt (init_context cf f) = (c1, o) -> leaves q (init_context cf f) c1).
  { intros c1 o S. unfold start in S.
    destruct (pipeline_run W pre (init_context cf f)) as (c2, o2) eqn:P.
    apply (pipeline_leaves q) in P.
    2:{ apply NW. intros j I. apply in_or_app. now left. }
    destruct o2; [now injection S as <- _|].
    destruct P as (P1 & P2).
    destruct (cf_apply_processing_jobs (cx_config c2)); try (injection S as <- _; now split).
    destruct (cx_sms c2) as [[|s ss]|]; try (injection S as <- _; now split).
    destruct (cx_working c2); try (injection S as <- _; now split).
    apply (loop_leaves q) in S.
    - destruct S as (S1 & S2). split; congruence.
    - rewrite P1. apply NW. intros j I. apply in_or_app. now right. }
  destruct (start W pre pro flt (init_context cf f)) as (c1, o) eqn:S.
  destruct (L c1 o eq_refl) as (L1 & L2). destruct o; [now injection H as <- _|].
  unfold write_result in H. destruct (bind _ _) as [c2|e] eqn:B in H; injection H as <- _; auto.
  unbind. cbn. rewrite write_file_other; auto. intros ->.
  rewrite L1 in *. cbn in *. unfold lookup_file in *. destruct (cf_result_file cf); try discriminate. congruence.
Qed.

Lemma C109_proof : forall cf f c1 e, run_config W cf f = (c1, e) ->
  (forall q, read_path cf q -> ~ written_path cf q) ->
  exists c2, run_config W cf (cx_files c1) = (c2, e) /\ same_context c1 c2 /\
    forall q, cx_files c2 q = cx_files c1 q.
Proof.
  intros cf f c1 e H D. destruct (run_config W cf (cx_files c1)) as (c2, e2) eqn:H2.
  destruct (C108_proof W f (cx_files c1) cf c1 e c2 e2) as (E & S & F); auto.
  { intros q R. symmetry. eapply written_only_proof; eauto. }
  subst e2. exists c2. split; auto. split; auto. intros q. destruct (F q) as [Q|[_ Q]]; auto.
Qed.

End Written.
