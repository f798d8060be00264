(** Proofs of C155. *)
From Coq Require Import Bool String List.
From Verif Require Import Base Ops PyStr World Jobs Workflow FlowSpec FlowPipe Pipeline PlanSpec.
Import ListNotations.
Local Open Scope string_scope.

Lemma job_eqb_eq : forall a b, job_eqb a b = true <-> a = b.
Proof. intros a b. destruct a, b; cbn; split; intros H; (reflexivity || discriminate). Qed.

Lemma pipeline_eq_eq : forall p q, pipeline_eq p q = true <-> p = q.
Proof.
  induction p as [|a p IH]; intros [|b q]; cbn; split; intros H; try reflexivity; try discriminate.
  - apply andb_true_iff in H. destruct H as (A & B). apply job_eqb_eq in A. apply IH in B. congruence.
  - injection H as -> ->. apply andb_true_iff. split; [now apply job_eqb_eq|now apply IH].
Qed.

Lemma names_fun : forall s a b, names s a -> names s b -> a = b.
Proof. intros s a b A B. apply map_job_names in A, B. congruence. Qed.
Lemma names_inj : forall s s' j, names s j -> names s' j -> s = s'.
Proof. intros s s' j A B. destruct A; inversion B; reflexivity. Qed.
Lemma all_names_fun : forall l a b, Forall2 names l a -> Forall2 names l b -> a = b.
Proof. intros l a b H. revert b. induction H; intros b K; inversion K; subst; [reflexivity|]. f_equal; [eapply names_fun; eauto|auto]. Qed.
Lemma all_names_inj : forall l l' a, Forall2 names l a -> Forall2 names l' a -> l = l'.
Proof. intros l l' a H. revert l'. induction H; intros b K; inversion K; subst; [reflexivity|]. f_equal; [eapply names_inj; eauto|auto]. Qed.

Lemma three : Forall2 names ["Create_eq_vector"; "Store_eq_catalog"; "Store_completeness_table"]
  [J_create_selected_eq_vector; J_store_preprocessed_catalog; J_store_completeness_table].
Proof. repeat constructor. Qed.

Section P.
Context {AR : Ops}.

Lemma truth_cases : forall v b, truth no_text v = Ok b -> (b = true /\ file_set v) \/ (b = false /\ file_unset v).
Proof.
  intros [| |[|c s]] b H; cbn in H; try discriminate; injection H as <-.
  - right. split; [reflexivity|now left].
  - right. split; [reflexivity|now right].
  - left. split; [reflexivity|]. exists (c :: s). split; [reflexivity|discriminate].
Qed.

Lemma truth_job_cases : forall v b, truth no_jobs v = Ok b -> (b = true /\ jobs_set v (listed v)) \/ (b = false /\ jobs_unset v).
Proof.
  intros [| |[|c s]] b H; cbn in H; try discriminate; injection H as <-.
  - right. split; [reflexivity|now left].
  - right. split; [reflexivity|now right].
  - left. split; [reflexivity|]. split; [reflexivity|discriminate].
Qed.

(** What a builder that succeeds has built. *)
Lemma built : forall (cf : config AR) p, preprocessing_build cf = Ok p ->
  exists sj l js, source_job (cf_source_model_file cf) sj /\ plan cf l /\ Forall2 names l js /\
    p = (J_read_eq_catalog :: sj :: J_create_catalog_matrix :: J_create_default_values :: js)%list.
Proof.
  intros cf p H. unfold preprocessing_build in H.
  destruct (truth no_text (cf_source_model_file cf)) as [sm|] eqn:S; [|discriminate]. cbn [bind] in H.
  assert (SJ : source_job (cf_source_model_file cf) (if sm then J_read_source_model else J_create_default_source_model)).
  { destruct (truth_cases _ _ S) as [(-> & F)|(-> & F)]; constructor; exact F. }
  exists (if sm then J_read_source_model else J_create_default_source_model).
  destruct (truth no_jobs (cf_preprocessing_jobs cf)) as [hj|] eqn:J; [|discriminate]. cbn [bind] in H.
  destruct (truth_job_cases _ _ J) as [(-> & L)|(-> & L)].
  - destruct (append_inv (listed (cf_preprocessing_jobs cf)) [J_read_eq_catalog; if sm then J_read_source_model else J_create_default_source_model;
      J_create_catalog_matrix; J_create_default_values] _ eq_refl) as [(js & F & E)|(_ & E)]; rewrite E in H; [|discriminate].
    cbn [bind] in H. destruct (truth no_text (cf_pprocessing_result_file cf)) as [st|] eqn:T; [|discriminate]. cbn [bind] in H.
    destruct (truth_cases _ _ T) as [(-> & R)|(-> & R)]; injection H as <-.
    + eexists; eexists. split; [exact SJ|]. split; [apply plan_stored; [exact L|exact R]|].
      split; [apply Forall2_app; [exact F|exact three]|]. cbn [app]. rewrite <- ?app_assoc. reflexivity.
    + eexists; eexists. split; [exact SJ|]. split; [apply plan_listed; [exact L|exact R]|]. split; [exact F|reflexivity].
  - destruct (truth no_text (cf_completeness_table_file cf)) as [ta|] eqn:T; [|discriminate]. cbn [bind] in H.
    destruct (truth_cases _ _ T) as [(-> & R)|(-> & R)]; injection H as <-.
    + exists ["Retrieve_completeness_table"], [J_retrieve_completeness_table]. split; [exact SJ|].
      split; [now apply plan_table|]. split; [repeat constructor|reflexivity].
    + exists [], []. split; [exact SJ|]. split; [now apply plan_none|]. split; [constructor|reflexivity].
Qed.

Lemma set_unset : forall v, file_set v -> file_unset v -> False.
Proof. intros v (p & -> & N) [U|U]; [discriminate|]. injection U as ->. now apply N. Qed.
Lemma jobs_set_unset : forall v l, jobs_set v l -> jobs_unset v -> False.
Proof. intros v l (-> & N) [U|U]; [discriminate|]. injection U as ->. now apply N. Qed.

Lemma plan_fun : forall (cf : config AR) l l', plan cf l -> plan cf l' -> l = l'.
Proof.
  intros cf l l' A B.
  destruct A as [l A1 A2|l A1 A2|A1 A2|A1 A2]; destruct B as [l' B1 B2|l' B1 B2|B1 B2|B1 B2];
    try (exfalso; first [eapply set_unset; eassumption | eapply jobs_set_unset; eassumption]);
    try (assert (l = l') by (destruct A1, B1; congruence); subst); reflexivity.
Qed.

Lemma source_fun : forall v v' a b, source_job v a -> source_job v' b -> (a = b <-> (file_set v <-> file_set v')).
Proof.
  intros v v' a b A B. destruct A as [v A|v A]; destruct B as [v' B|v' B]; split; intros H; try discriminate; try reflexivity; try tauto.
  - exfalso. eapply set_unset; [|exact B]. tauto.
  - exfalso. eapply set_unset; [|exact A]. tauto.
  - split; intros X; exfalso; eapply set_unset; eassumption.
Qed.

Lemma C155_proof : forall (cf cf' : config AR) p p', preprocessing_build cf = Ok p -> preprocessing_build cf' = Ok p' ->
  exists l l', plan cf l /\ plan cf' l' /\ (forall k, plan cf k -> k = l) /\ (forall k, plan cf' k -> k = l') /\
    (pipeline_eq p p' = true <-> ((file_set (cf_source_model_file cf) <-> file_set (cf_source_model_file cf')) /\ l = l')) /\
    (pipeline_ne p p' = true <-> ~ ((file_set (cf_source_model_file cf) <-> file_set (cf_source_model_file cf')) /\ l = l')).
Proof.
  intros cf cf' p p' B B'. destruct (built cf p B) as (sj & l & js & S & P & N & ->). destruct (built cf' p' B') as (sj' & l' & js' & S' & P' & N' & ->).
  exists l, l'. do 2 (split; [assumption|]). split; [intros k K; eapply plan_fun; eauto|]. split; [intros k K; eapply plan_fun; eauto|].
  match goal with |- ?A /\ _ => assert (E : A) end.
  { rewrite pipeline_eq_eq. rewrite <- (source_fun _ _ _ _ S S'). split.
    - intros E. injection E as E1 E2. split; [exact E1|]. subst js'. eapply all_names_inj; eauto.
    - intros (E1 & E2). subst. rewrite (all_names_fun _ _ _ N N'). reflexivity. }
  split; [exact E|]. rewrite <- E. unfold pipeline_ne. destruct (pipeline_eq _ _); cbn; split; intros X; try discriminate; try reflexivity.
  now elim X.
Qed.

Lemma C155_same_proof : forall (W : world AR) p q c, pipeline_eq p q = true -> pipeline_run W p c = pipeline_run W q c.
Proof. intros W p q c H. apply pipeline_eq_eq in H. now subst. Qed.

Lemma C155_queue_proof : forall l, pipeline_init (Some l) = fold_left add_job l (pipeline_init None) /\
  (forall (W : world AR) j c, pipeline_run W (add_job l j) c =
     match pipeline_run W l c with (c1, None) => run_job W j c1 | r => r end) /\
  (forall p i j, pipeline_eq (add_job l i) (add_job p j) = true <-> l = p /\ i = j).
Proof.
  intros l. split; [|split].
  - cbn. assert (G : forall l q, fold_left add_job l q = (q ++ l)%list).
    { clear l. induction l as [|j l IH]; intros q; cbn [fold_left]; [now rewrite app_nil_r|]. rewrite IH. unfold add_job. now rewrite <- app_assoc. }
    now rewrite G.
  - intros W j. unfold add_job. induction l as [|i l IH]; intros c; cbn [app pipeline_run].
    + destruct (run_job W j c) as (c' & [e|]); reflexivity.
    + destruct (run_job W i c) as (c' & [e|]); [reflexivity|apply IH].
  - intros p i j. rewrite pipeline_eq_eq. unfold add_job. split; [apply app_inj_tail|intros (-> & ->); reflexivity].
Qed.
End P.
