(** Afteran starts from the whole catalogue (C144). *)
From Coq Require Import ZArith Bool Ascii String List Lia.
From Verif Require Import Base Ops BaseFacts CatUtil PyStr EqCatalog SourceModel Nrml World CatalogFilter
  Jobs Workflow Main FlowSpec FlowPipe FlowFiles FlowPre ParamSpec ParamProofs RestartSpec.
Import ListNotations.
Local Open Scope nat_scope.
Local Open Scope list_scope.

Section Restart.
Context {AR : Ops}.
Variable W : world AR.

(** The three values a declustering job sets. *)
Definition declustered a b d (c : context AR) : context AR := set_flag a (set_working b (set_vcl d c)).

Lemma gk_sets : forall c c', run_job W J_gardner_knopoff c = (c', None) -> exists a b d, c' = declustered a b d c.
Proof.
  intros c c' H. cbn [run_job] in H. unfold gardner_knopoff in H. apply finish_ok in H.
  destruct (cf_gk (cx_config c)) as [k|]; [|discriminate H]. cbn [bind] in H.
  destruct (have _ (cx_working c)) as [w|]; [|discriminate H]. cbn [bind] in H.
  match type of H with bind ?x _ = _ => destruct x as [[[vcl main] flag]|]; [|discriminate H] end.
  cbn [bind] in H. injection H as <-. eexists. eexists. eexists. reflexivity.
Qed.
Lemma af_sets : forall c c', run_job W J_afteran c = (c', None) -> exists a b d, c' = declustered a b d c.
Proof.
  intros c c' H. cbn [run_job] in H. unfold afteran in H. apply finish_ok in H.
  destruct (cf_afteran (cx_config c)) as [k|]; [|discriminate H]. cbn [bind] in H.
  destruct (have _ (cx_matrix c)) as [w|]; [|discriminate H]. cbn [bind] in H.
  match type of H with bind ?x _ = _ => destruct x as [[[vcl main] flag]|]; [|discriminate H] end.
  cbn [bind] in H. injection H as <-. eexists. eexists. eexists. reflexivity.
Qed.
Lemma af_forgets : forall a b d c c', run_job W J_afteran (declustered a b d c) = (c', None) -> run_job W J_afteran c = (c', None).
Proof.
  intros a b d c c' H. cbn [run_job] in *. unfold afteran in *.
  change (cx_config (declustered a b d c)) with (cx_config c) in H. change (cx_matrix (declustered a b d c)) with (cx_matrix c) in H.
  destruct (cf_afteran (cx_config c)) as [k|]; [|discriminate H]. cbn [bind] in *.
  destruct (have _ (cx_matrix c)) as [w|]; [|discriminate H]. cbn [bind] in *.
  match type of H with finish _ (bind ?x _) = _ => destruct x as [[[vcl main] flag]|]; [|discriminate H] end.
  cbn [bind finish] in *. injection H as <-. reflexivity.
Qed.

Lemma restart_steps : forall js, Forall (fun j => j = J_gardner_knopoff \/ j = J_afteran) js ->
  forall c c', steps W (js ++ [J_afteran]) c c' -> steps W [J_afteran] c c'.
Proof.
  intros js F. induction F as [|j js P F IH]; intros c c' S; [exact S|].
  inversion S as [|j0 js0 c0 c1 c2 R S1]; subst. specialize (IH _ _ S1). inversion IH as [|j0 js0 c0 c3 c4 R2 S2]; subst. inversion S2; subst.
  econstructor; [|constructor].
  assert (X : exists a b d, c1 = declustered a b d c) by (destruct P as [P|P]; subst j; [now apply gk_sets|now apply af_sets]).
  destruct X as (a & b & d & ->). eapply af_forgets; eauto.
Qed.

Lemma append_shape : forall l p q, append_jobs p l = Ok q -> exists d, q = p ++ d /\ (forall p', append_jobs p' l = Ok (p' ++ d)) /\
  forall j, In j d -> exists n, In n l /\ map_job_callable n = Some j.
Proof.
  induction l as [|n l IH]; intros p q H; cbn [append_jobs] in *.
  - injection H as <-. exists []. split; [now rewrite app_nil_r|]. split; [intros; now rewrite app_nil_r|]. contradiction.
  - destruct (map_job_callable n) as [a|] eqn:M; [|discriminate H]. destruct (IH _ _ H) as (d & -> & A & B). exists (a :: d).
    split; [now rewrite <- app_assoc|]. split; [intros p'; rewrite A; now rewrite <- app_assoc|].
    intros j [<-|I]; [exists n; split; [now left|exact M]|]. destruct (B j I) as (n' & I' & M'). exists n'. split; [now right|exact M'].
Qed.
Lemma append_app : forall l1 l2 p q, append_jobs p (l1 ++ l2) = Ok q -> exists r, append_jobs p l1 = Ok r /\ append_jobs r l2 = Ok q.
Proof.
  induction l1 as [|n l1 IH]; intros l2 p q H; cbn [append_jobs app] in *; [eauto|].
  destruct (map_job_callable n) as [a|]; [|discriminate H]. eauto.
Qed.

(** The pipelines. *)
Lemma restart_build : forall cf cf' l1 l2 pre, same_but_preprocessing cf cf' ->
  cf_preprocessing_jobs cf = Given (l1 ++ "Afteran"%string :: l2) -> cf_preprocessing_jobs cf' = Given ("Afteran"%string :: l2) ->
  Forall declusters l1 -> preprocessing_build cf = Ok pre ->
  exists b d r, pre = b ++ d ++ [J_afteran] ++ r /\ preprocessing_build cf' = Ok (b ++ [J_afteran] ++ r) /\
    Forall (fun j => j = J_gardner_knopoff \/ j = J_afteran) d.
Proof.
  intros cf cf' l1 l2 pre SB E E' D H. destruct SB as (B1 & B2 & B3 & B4 & _).
  unfold preprocessing_build in *. rewrite B2, B3, E'. rewrite E in H.
  destruct (truth no_text (cf_source_model_file cf)) as [sm|]; [|discriminate H]. cbn [bind] in *.
  match type of H with context [append_jobs ?x _] => set (base := x) in * end.
  assert (T1 : truth no_jobs (Given (l1 ++ "Afteran"%string :: l2)) = Ok true) by (destruct l1; reflexivity).
  rewrite T1 in H. change (truth no_jobs (Given ("Afteran"%string :: l2))) with (@Ok bool true). cbn [bind listed] in *.
  destruct (append_jobs base (l1 ++ "Afteran"%string :: l2)) as [p|] eqn:A; [|discriminate H].
  apply append_app in A. destruct A as (r1 & A1 & A2). apply append_shape in A1. destruct A1 as (d & -> & _ & IN).
  change ("Afteran"%string :: l2) with (["Afteran"%string] ++ l2) in A2. apply append_app in A2. destruct A2 as (r2 & A2 & A3).
  change (append_jobs (base ++ d) ["Afteran"%string]) with (@Ok (list jobname) ((base ++ d) ++ [J_afteran])) in A2. injection A2 as <-.
  apply append_shape in A3. destruct A3 as (d2 & -> & A3 & _).
  assert (AP : append_jobs base ("Afteran"%string :: l2) = Ok ((base ++ [J_afteran]) ++ d2)) by exact (A3 (base ++ [J_afteran])).
  rewrite AP. cbn [bind] in *.
  assert (FD : Forall (fun j => j = J_gardner_knopoff \/ j = J_afteran) d).
  { rewrite Forall_forall in *. intros j I. destruct (IN j I) as (n & I' & M). destruct (D n I') as [-> | ->]; injection M as <-; auto. }
  destruct (truth no_text (cf_pprocessing_result_file cf)) as [[|]|]; [| |discriminate H]; cbn [bind] in *; injection H as <-.
  - eexists base, d, _. split; [|split; [|exact FD]]; [rewrite <- !app_assoc; reflexivity|rewrite <- !app_assoc; reflexivity].
  - eexists base, d, _. split; [|split; [|exact FD]]; [rewrite <- !app_assoc; reflexivity|rewrite <- !app_assoc; reflexivity].
Qed.

Lemma restart_all : forall b d r c c', Forall (fun j => j = J_gardner_knopoff \/ j = J_afteran) d ->
  steps W (b ++ d ++ [J_afteran] ++ r) c c' -> steps W (b ++ [J_afteran] ++ r) c c'.
Proof.
  intros b d r c c' F S. apply steps_app in S. destruct S as (c1 & S1 & S2). rewrite app_assoc in S2. apply steps_app in S2. destruct S2 as (c2 & S2 & S3).
  apply steps_app. exists c1. split; [exact S1|]. apply steps_app. exists c2. split; [eapply restart_steps; eauto|exact S3].
Qed.

Theorem C144_proof : forall cf cf' f c' l1 l2, same_but_preprocessing cf cf' ->
  cf_preprocessing_jobs cf = Given (l1 ++ "Afteran"%string :: l2) -> cf_preprocessing_jobs cf' = Given ("Afteran"%string :: l2) ->
  Forall declusters l1 -> run_config W cf f = (c', None) ->
  exists c'', run_config W cf' f = (c'', None) /\ cx_files c'' = cx_files c' /\ cx_sms c'' = cx_sms c' /\ cx_working c'' = cx_working c'.
Proof.
  intros cf cf' f c' l1 l2 SB E E' D R.
  pose proof SB as (B1 & B2 & B3 & B4 & B5 & B6 & B7 & B8 & B9 & B10 & B11 & B12).
  assert (CB : choose_filter cf' = choose_filter cf) by (unfold choose_filter; now rewrite B2).
  assert (PB : processing_build cf' = processing_build cf) by (unfold processing_build; now rewrite B5).
  assert (RS : forall js, Forall (reads_same cf cf') js) by (intros js; rewrite Forall_forall; intros [] _; cbn; auto).
  unfold run_config in *. rewrite PB, CB.
  destruct (preprocessing_build cf) as [pre|] eqn:Q; [|discriminate R].
  destruct (restart_build cf cf' l1 l2 pre SB E E' D Q) as (b & d & r & -> & Q' & FD). rewrite Q'. cbn [bind] in *.
  destruct (processing_build cf) as [js|]; [|discriminate R]. cbn [bind] in *.
  destruct (choose_filter cf) as [flt|]; [|discriminate R]. cbn [bind] in *.
  change (init_context cf' f) with (recf cf' (init_context cf f)). rewrite (start_recf W cf cf') by auto.
  assert (X : start W (b ++ [J_afteran] ++ r) js flt (init_context cf f) = start W (b ++ d ++ [J_afteran] ++ r) js flt (init_context cf f)).
  { unfold start in *. destruct (pipeline_run W (b ++ d ++ [J_afteran] ++ r) (init_context cf f)) as (c1, [x|]) eqn:P; [discriminate R|].
    apply run_steps in P. apply restart_all in P; [|exact FD]. now rewrite (steps_run W _ _ _ P). }
  rewrite X. pose proof (start_config W (b ++ d ++ [J_afteran] ++ r) js flt (init_context cf f)) as K.
  destruct (start W (b ++ d ++ [J_afteran] ++ r) js flt (init_context cf f)) as (c1, [x|]); [discriminate R|].
  unfold recfp; cbn [fst snd] in *. rewrite (result_recf W cf cf') by auto. rewrite R. unfold recfp; cbn [fst snd].
  eexists. split; [reflexivity|]. auto.
Qed.
End Restart.
