(** What a configuration asks for is determined, and a run that can write it does (C139). *)
From Coq Require Import ZArith Bool Ascii String List Lia.
From Verif Require Import Base Ops BaseFacts CatUtil PyStr EqCatalog SourceModel Nrml World CatalogFilter
  Decluster Completeness Recurrence MaxMag Jobs Workflow Main FlowSpec FlowPipe FlowFiles FlowPre FlowValid WholeSpec WholeProofs.
Import ListNotations.
Local Open Scope nat_scope.
Local Open Scope res_scope.

Section WholeRuns.
Context {AR : Ops}.
Variable W : world AR.

Lemma window_named_of : forall s o, window_named s o -> o = window_of s.
Proof. intros s o []; reflexivity. Qed.

Lemma prepared_fun : forall cf m l w tab w1 t1 w2 t2, prepared W cf m l w tab w1 t1 -> prepared W cf m l w tab w2 t2 -> w1 = w2 /\ t1 = t2.
Proof.
  intros cf m l w tab w1 t1 w2 t2 H. revert w2 t2.
  induction H as [w tab|l w tab k o vcl main flag w' tab' K O G H IH|l w tab k o vcl main flag w' tab' K O G H IH|l w tab k tab1 w' tab' K NE G H IH|n l w tab w' tab' WO H IH];
    intros w2 t2 H2.
  - inversion H2; subst; auto.
  - inversion H2 as [|? ? ? k' o' vcl' main' flag' ? ? K' O' G' H'| | |? ? ? ? ? ? WO]; subst; [|destruct WO as [E|[E|E]]; discriminate].
    rewrite K in K'. injection K' as <-. apply window_named_of in O, O'. subst. rewrite G in G'. injection G' as <- <- <-. auto.
  - inversion H2 as [| |? ? ? k' o' vcl' main' flag' ? ? K' O' G' H'| |? ? ? ? ? ? WO]; subst; [|destruct WO as [E|[E|E]]; discriminate].
    rewrite K in K'. injection K' as <-. apply window_named_of in O, O'. subst. rewrite G in G'. injection G' as <- <- <-. auto.
  - inversion H2 as [| | |? ? ? k' tab1' ? ? K' NE' G' H'|? ? ? ? ? ? WO]; subst; [|destruct WO as [E|[E|E]]; discriminate].
    rewrite K in K'. injection K' as <-. rewrite G in G'. injection G' as <-. auto.
  - inversion H2; subst; try (destruct WO as [E|[E|E]]; discriminate). auto.
Qed.

Lemma file_set_unset : forall v p, v = Given p -> p <> [] -> file_unset v -> False.
Proof. intros v p -> N [E|E]; [discriminate|]. injection E as ->. contradiction. Qed.
Lemma jobs_set_unset : forall v l, jobs_set v l -> jobs_unset v -> False.
Proof. intros v l (-> & N) [E|E]; [discriminate|]. injection E as ->. contradiction. Qed.

Lemma preparation_fun : forall cf f m w1 t1 w2 t2, preparation W cf f m w1 t1 -> preparation W cf f m w2 t2 -> w1 = w2 /\ t1 = t2.
Proof.
  intros cf f m w1 t1 w2 t2 (y & k & Y & K & A) (y' & k' & Y' & K' & B).
  rewrite Y in Y'. injection Y' as <-. rewrite K in K'. injection K' as <-.
  destruct A as [(l & J & P)|(U & -> & A)]; destruct B as [(l' & J' & P')|(U' & -> & B)].
  - destruct J as (J & _), J' as (J' & _). rewrite J in J'. injection J' as <-. eapply prepared_fun; eauto.
  - exfalso. eapply jobs_set_unset; eauto.
  - exfalso. eapply jobs_set_unset; eauto.
  - split; auto. destruct A as [(p & E & N & T1)|(U1 & ->)]; destruct B as [(p' & E' & N' & T2)|(U2 & ->)]; auto.
    + rewrite E in E'. injection E' as <-. destruct T1 as (c & r & A1 & A2 & A3). destruct T2 as (c' & r' & B1 & B2 & B3). congruence.
    + exfalso. eapply file_set_unset; eauto.
    + exfalso. eapply file_set_unset; eauto.
Qed.

Lemma names_fun : forall l js js', Forall2 names l js -> Forall2 names l js' -> js = js'.
Proof.
  intros l js js' H. revert js'. induction H as [|n j l js N H IH]; intros js' H'; inversion H' as [|? ? ? ? N' H2]; subst; auto.
  f_equal; auto. apply map_job_names in N, N'. congruence.
Qed.

Theorem computed_fun : forall cf f a b, computed W cf f a -> computed W cf f b -> a = b.
Proof.
  intros cf f a b (es & m & w & tab & ss & flt & C & M & P & Z & A) (es' & m' & w' & tab' & ss' & flt' & C' & M' & P' & Z' & B).
  assert (es' = es).
  { destruct C as (p & ct & C1 & C2 & C3). destruct C' as (p' & ct' & D1 & D2 & D3). congruence. }
  subst es'. rewrite M in M'. injection M' as <-. destruct (preparation_fun _ _ _ _ _ _ _ P P') as (-> & ->).
  assert (E : ss' = ss /\ flt' = flt).
  { destruct Z as [(S & N & ->)|(U & -> & ->)]; destruct Z' as [(S' & N' & ->)|(U' & -> & ->)]; auto.
    - split; auto. destruct S as (p & ct & d & S1 & S2 & S3 & S4 & S5). destruct S' as (p' & ct' & d' & R1 & R2 & R3 & R4 & R5). congruence.
    - exfalso. destruct S as (p & ct & d & S1 & S2 & _). eapply file_set_unset; eauto.
    - exfalso. destruct S' as (p & ct & d & S1 & S2 & _). eapply file_set_unset; eauto. }
  destruct E as (-> & ->).
  destruct A as [(A & ->)|(u & js & A & L & F)]; destruct B as [(B & ->)|(u' & js' & B & L' & F')]; try congruence.
  assert (js' = js).
  { destruct L as [(l & J & L)|(U & ->)]; destruct L' as [(l' & J' & L')|(U' & ->)]; auto.
    - destruct J as (J & _), J' as (J' & _). rewrite J in J'. injection J' as <-. eapply names_fun; eauto.
    - exfalso. eapply jobs_set_unset; eauto.
    - exfalso. eapply jobs_set_unset; eauto. }
  subst js'. clear - F F'. revert b F'. induction F as [|s s' l l' (eqs & E & P) F IH]; intros b F'; inversion F' as [|? s2 ? l2 (eqs2 & E2 & P2) F2]; subst; auto.
  f_equal; auto. rewrite (events_fun W _ _ _ _ _ E2 E) in P2. eapply processed_fun; eauto.
Qed.

(** The listed jobs run. *)
Lemma prepared_runs : forall l, (forall n, In n l -> ~ writes_only n) ->
  forall c m w tab w' tab', prepared W (cx_config c) m l w tab w' tab' -> cx_matrix c = Some m -> cx_working c = Some w -> cx_table c = Some tab ->
  exists js c', Forall2 names l js /\ steps W js c c' /\ cx_working c' = Some w' /\ cx_table c' = Some tab' /\
    cx_config c' = cx_config c /\ cx_sms c' = cx_sms c /\ cx_files c' = cx_files c.
Proof.
  intros l NW c m w tab w' tab' H. remember (cx_config c) as cf. revert NW c Heqcf.
  induction H as [w tab|l w tab k o vcl main flag w' tab' K O G H IH|l w tab k o vcl main flag w' tab' K O G H IH|l w tab k tab1 w' tab' K NE G H IH|n l w tab w' tab' WO H IH];
    intros NW c Heqcf M WK TB; try (assert (NW' : forall n, In n l -> ~ writes_only n) by (intros ? I; apply NW; now right)).
  - exists [], c. repeat split; auto; constructor.
  - set (c1 := set_flag (Some flag) (set_working (Some main) (set_vcl (Some vcl) c))).
    assert (R : run_job W J_gardner_knopoff c = (c1, None)).
    { cbn [run_job]. unfold gardner_knopoff. rewrite <- Heqcf, K. cbn [bind]. rewrite WK. cbn [have bind].
      apply window_named_of in O. subst o. rewrite G. reflexivity. }
    destruct (IH NW' c1) as (js & c' & F & S & A); auto. exists (J_gardner_knopoff :: js), c'. split; [constructor; auto; constructor|].
    split; [econstructor; eauto|exact A].
  - set (c1 := set_flag (Some flag) (set_working (Some main) (set_vcl (Some vcl) c))).
    assert (R : run_job W J_afteran c = (c1, None)).
    { cbn [run_job]. unfold afteran. rewrite <- Heqcf, K. cbn [bind]. rewrite M. cbn [have bind].
      apply window_named_of in O. subst o. rewrite G. reflexivity. }
    destruct (IH NW' c1) as (js & c' & F & S & A); auto. exists (J_afteran :: js), c'. split; [constructor; auto; constructor|].
    split; [econstructor; eauto|exact A].
  - set (c1 := set_table (Some tab1) c).
    assert (R : run_job W J_stepp c = (c1, None)).
    { cbn [run_job]. unfold stepp. rewrite WK. cbn [have bind]. destruct w as [|e w]; [contradiction|]. cbn [columns bind].
      rewrite <- Heqcf, K. cbn [bind]. rewrite G. reflexivity. }
    destruct (IH NW' c1) as (js & c' & F & S & A); auto. exists (J_stepp :: js), c'. split; [constructor; auto; constructor|].
    split; [econstructor; eauto|exact A].
  - exfalso. eapply NW; [now left|exact WO].
Qed.

(** Reading and the default values. *)
Lemma base_runs : forall cf f es m ss flt y0 m0, catalogue_read W cf f es -> mapM matrix_row es = Ok m -> zones W cf f ss flt ->
  minv (map ev_year m) = Ok y0 -> minv (map ev_mw m) = Ok m0 ->
  exists sj c, source_job (cf_source_model_file cf) sj /\
    steps W [J_read_eq_catalog; sj; J_create_catalog_matrix; J_create_default_values] (init_context cf f) c /\
    cx_matrix c = Some m /\ cx_working c = Some m /\ cx_table c = Some [(y0, m0)] /\ cx_config c = cf /\ cx_sms c = Some ss /\ cx_files c = f.
Proof.
  intros cf f es m ss flt y0 m0 (p & ct & C1 & C2 & C3) MR Z Y M.
  set (a1 := set_eq_catalog (Some es) (init_context cf f)).
  assert (R1 : run_job W J_read_eq_catalog (init_context cf f) = (a1, None)).
  { cbn [run_job]. unfold read_eq_catalog_job. change (cx_config (init_context cf f)) with cf. rewrite C1. cbn [lookup_file bind].
    unfold open_read. change (cx_files (init_context cf f)) with f. rewrite C2. cbn [bind]. rewrite C3. reflexivity. }
  set (a2 := set_sms (Some ss) a1).
  assert (X : exists sj, source_job (cf_source_model_file cf) sj /\ run_job W sj a1 = (a2, None)).
  { destruct Z as [((q & cd & d & S1 & S2 & S3 & S4 & S5) & NE & _)|(U & -> & _)].
    - exists J_read_source_model. split; [constructor; exists q; auto|]. cbn [run_job]. unfold read_source_model.
      change (cx_config a1) with cf. rewrite S1. cbn [lookup_file bind]. unfold open_read. change (cx_files a1) with f. rewrite S3, S4, S5.
      destruct ss as [|s ss]; [contradiction|]. reflexivity.
    - exists J_create_default_source_model. split; [now constructor|]. reflexivity. }
  destruct X as (sj & SJ & R2).
  set (a3 := set_working (Some m) (set_matrix (Some m) a2)).
  assert (R3 : run_job W J_create_catalog_matrix a2 = (a3, None)).
  { cbn [run_job]. unfold create_catalog_matrix. change (cx_eq_catalog a2) with (Some es). cbn [have bind]. rewrite MR. reflexivity. }
  set (a4 := set_table (Some [(y0, m0)]) (set_flag (Some (repeat 0%Z (length m))) a3)).
  assert (R4 : run_job W J_create_default_values a3 = (a4, None)).
  { cbn [run_job]. unfold create_default_values. change (cx_working a3) with (Some m). cbv iota zeta.
    destruct m as [|e m]; [discriminate|]. cbn [columns bind]. rewrite Y. cbn [bind]. rewrite M. reflexivity. }
  exists sj, a4. split; auto. split; [|repeat split; reflexivity].
  econstructor; [exact R1|]. econstructor; [exact R2|]. econstructor; [exact R3|]. econstructor; [exact R4|constructor].
Qed.

Theorem C139_runs_proof : forall cf f ss' p d, computed W cf f ss' -> (exists js, processing_listed cf js) ->
  (forall l n, cf_preprocessing_jobs cf = Given l -> In n l -> ~ writes_only n) ->
  jobs_unset (cf_preprocessing_jobs cf) \/ file_unset (cf_pprocessing_result_file cf) ->
  cf_result_file cf = Given p -> w_exists W (dirname p) = true -> w_can_write W p = true ->
  write_doc (w_str_float W) (w_xml_ok W) ss' = Ok d ->
  exists c', run_config W cf f = (c', None) /\ cx_files c' p = Some (w_xml_print W d) /\ forall q, q <> p -> cx_files c' q = f q.
Proof.
  intros cf f ss' p d (es & m & w & tab & ss & flt & CR & MR & PP & Z & A) (js & PL) NW NS RF EX CW WD.
  destruct PP as (y0 & m0 & Y & M & PP).
  destruct (base_runs cf f es m ss flt y0 m0 CR MR Z Y M) as (sj & b & SJ & BS & B1 & B2 & B3 & B4 & B5 & B6).
  destruct (C63_proof cf sj SJ) as (Q1 & _ & Q3).
  assert (X : exists pre c, preprocessing_build cf = Ok pre /\ steps W pre (init_context cf f) c /\ cx_working c = Some w /\ cx_table c = Some tab /\
    cx_config c = cf /\ cx_sms c = Some ss /\ cx_files c = f).
  { destruct PP as [(l & J & PR)|(U & -> & T1)].
    - destruct NS as [NS|NS]; [exfalso; eapply jobs_set_unset; eauto|].
      rewrite <- B4 in PR.
      destruct (prepared_runs l (fun n => NW l n (proj1 J)) b m m [(y0, m0)] w tab PR B1 B2 B3) as (pj & c & F & S & D1 & D2 & D3 & D4 & D5).
      destruct (Q1 l pj J F) as (_ & Q). eexists. exists c. split; [exact (Q NS)|]. split; [apply steps_app; eauto|].
      repeat split; congruence.
    - destruct (Q3 U) as (Q4 & Q5). destruct T1 as [(q & E & N & (ct & rows & T1 & T2 & T3))|(FU & ->)].
      + eexists. exists (set_table (Some tab) b). split; [apply Q4; exists q; auto|]. split; [|repeat split; auto].
        apply steps_app. exists b. split; auto. econstructor; [|constructor]. cbn [run_job]. unfold retrieve_completeness_table.
        rewrite B4, E. cbn [lookup_file bind]. unfold open_read. rewrite B6, T1. cbn [bind]. rewrite T2. cbn [bind]. rewrite T3. reflexivity.
      + eexists. exists b. split; [exact (Q5 FU)|]. auto 10. }
  destruct X as (pre & c & PB & ST & W1 & T1 & C1 & S1 & F1).
  assert (PRO : processing_build cf = Ok js).
  { destruct (C63_processing_proof cf) as (P1 & _ & P3). destruct PL as [(l & J & F)|(U & ->)]; [exact (P1 l js J F)|exact (P3 U)]. }
  assert (FLT : choose_filter cf = Ok flt).
  { unfold choose_filter. destruct Z as [((q & cd & dd & Z1 & Z2 & _) & _ & ->)|(U & _ & ->)].
    - rewrite truth_set; [reflexivity|exists q; auto].
    - rewrite (truth_unset _ U). reflexivity. }
  assert (X : exists c1, start W pre js flt (init_context cf f) = (c1, None) /\ cx_sms c1 = Some ss' /\ cx_config c1 = cf /\ cx_files c1 = f).
  { unfold start. rewrite (steps_run W _ _ _ ST), C1.
    destruct A as [(A & ->)|(u & js' & A & PL' & F)]; rewrite A; [eauto 10|].
    assert (js' = js).
    { destruct PL as [(l & J & L)|(U & ->)]; destruct PL' as [(l' & J' & L')|(U' & ->)]; auto.
      - destruct J as (J & _), J' as (J' & _). rewrite J in J'. injection J' as <-. eapply names_fun; eauto.
      - exfalso. eapply jobs_set_unset; eauto.
      - exfalso. eapply jobs_set_unset; eauto. }
    subst js'. rewrite S1, W1. 
    destruct (loop_runs W flt js w ss ss' [] c S1) as (c1 & R & S2 & OS).
    { rewrite C1, T1. exact F. }
    destruct OS as (O1 & _ & _ & _ & _ & _ & O7). destruct ss as [|s ss].
    - inversion F; subst. exists c. auto.
    - exists c1. split; [exact R|]. split; [exact S2|]. split; congruence. }
  destruct X as (c1 & STT & S2 & C2 & F2).
  exists (set_files (write_file p (w_xml_print W d) (cx_files c1)) c1). split.
  - unfold run_config. rewrite PB, PRO, FLT. cbn [bind]. rewrite STT. unfold write_result. rewrite C2, RF. cbn [lookup_file bind].
    rewrite EX. cbn [bind]. rewrite S2. cbn [have bind]. rewrite WD. cbn [bind]. rewrite CW. reflexivity.
  - cbn. split; [apply write_file_same|]. intros q N. rewrite write_file_other by auto. now rewrite F2.
Qed.
End WholeRuns.
