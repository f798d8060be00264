(** Building and running pipelines; processing of the sources. *)
From Coq Require Import ZArith Bool String List Lia.
From Verif Require Import Base Ops BaseFacts CatUtil PyStr PyStrProofs EqCatalog SourceModel Nrml World CatalogFilter
  Recurrence MaxMag Jobs Workflow Main FlowSpec.
Import ListNotations.
Local Open Scope res_scope.
Local Open Scope string_scope.

Lemma map_job_names : forall s j, map_job_callable s = Some j <-> names s j.
Proof.
  intros s j. split.
  - unfold map_job_callable. intros H.
    repeat match type of H with
    | (if String.eqb s ?x then _ else _) = _ =>
        destruct (String.eqb s x) eqn:?E;
        [match goal with E : String.eqb _ _ = true |- _ => apply String.eqb_eq in E; subst s end; injection H as <-; constructor|]
    end. discriminate.
  - intros H. destruct H; reflexivity.
Qed.

Lemma append_ok : forall l p js, Forall2 names l js -> append_jobs p l = Ok (p ++ js)%list.
Proof.
  intros l p js H. revert p. induction H as [|n j l js N H IH]; intros p.
  - now rewrite app_nil_r.
  - cbn [append_jobs]. apply map_job_names in N. rewrite N, IH. now rewrite <- app_assoc.
Qed.

Lemma append_inv : forall l p r, append_jobs p l = r ->
  (exists js, Forall2 names l js /\ r = Ok (p ++ js)%list) \/ ((exists n, In n l /\ forall j, ~ names n j) /\ r = Err RuntimeError).
Proof.
  induction l as [|n l IH]; intros p r H; cbn [append_jobs] in H.
  - left. exists []. rewrite app_nil_r. split; [constructor|now symmetry].
  - destruct (map_job_callable n) as [j|] eqn:N.
    + destruct (IH _ _ H) as [(js & F & E)|((m & I & M) & E)].
      * left. exists (j :: js). split; [constructor; auto; now apply map_job_names|]. rewrite E, <- app_assoc. reflexivity.
      * right. split; auto. exists m. split; auto. now right.
    + right. split; [|now symmetry]. exists n. split; [now left|]. intros j J. apply map_job_names in J. congruence.
Qed.

Lemma append_err : forall l p, (exists n, In n l /\ forall j, ~ names n j) -> append_jobs p l = Err RuntimeError.
Proof.
  intros l p (n & I & N). destruct (append_inv l p _ eq_refl) as [(js & F & E)|(_ & E)]; auto. exfalso.
  clear E. induction F as [|m j l js M F IH]; [contradiction|]. destruct I as [->|I]; [now apply (N j)|auto].
Qed.

Lemma forall2_impl : forall {A B : Type} (P Q : A -> B -> Prop) l l', (forall a b, P a b -> Q a b) -> Forall2 P l l' -> Forall2 Q l l'.
Proof. intros A B P Q l l' I H. induction H; constructor; auto. Qed.

Section FlowPipe.
Context {AR : Ops}.
Variable W : world AR.

Lemma truth_set : forall v, file_set v -> truth no_text v = Ok true.
Proof. intros v (p & -> & N). destruct p; [contradiction|reflexivity]. Qed.
Lemma truth_unset : forall v, file_unset v -> truth no_text v = Ok false.
Proof. intros v [->| ->]; reflexivity. Qed.
Lemma truth_jobs : forall v l, jobs_set v l -> truth no_jobs v = Ok true /\ listed v = l.
Proof. intros v l (-> & N). destruct l; [contradiction|split; reflexivity]. Qed.
Lemma truth_nojobs : forall v, jobs_unset v -> truth no_jobs v = Ok false.
Proof. intros v [->| ->]; reflexivity. Qed.

(** C63. *)
Theorem C63_proof : forall (cf : config AR) sj, source_job (cf_source_model_file cf) sj ->
  let base := [J_read_eq_catalog; sj; J_create_catalog_matrix; J_create_default_values] in
  let stores := [J_create_selected_eq_vector; J_store_preprocessed_catalog; J_store_completeness_table] in
  (forall l js, jobs_set (cf_preprocessing_jobs cf) l -> Forall2 names l js ->
     (file_set (cf_pprocessing_result_file cf) -> preprocessing_build cf = Ok (base ++ js ++ stores)%list) /\
     (file_unset (cf_pprocessing_result_file cf) -> preprocessing_build cf = Ok (base ++ js)%list)) /\
  (forall l, jobs_set (cf_preprocessing_jobs cf) l -> (exists n, In n l /\ forall j, ~ names n j) ->
     preprocessing_build cf = Err RuntimeError) /\
  (jobs_unset (cf_preprocessing_jobs cf) ->
     (file_set (cf_completeness_table_file cf) -> preprocessing_build cf = Ok (base ++ [J_retrieve_completeness_table])%list) /\
     (file_unset (cf_completeness_table_file cf) -> preprocessing_build cf = Ok base)).
Proof.
  intros cf sj H base stores.
  assert (B : truth no_text (cf_source_model_file cf) = Ok (match sj with J_read_source_model => true | _ => false end) /\
     (if match sj with J_read_source_model => true | _ => false end then J_read_source_model else J_create_default_source_model) = sj).
  { destruct H as [v H|v H]; [now rewrite (truth_set v H)|now rewrite (truth_unset v H)]. }
  destruct B as (B & B'). unfold preprocessing_build. rewrite B. cbn [bind]. rewrite B'. fold base. split; [|split].
  - intros l js J F. destruct (truth_jobs _ _ J) as (J1 & J2). rewrite J1, J2. cbn [bind]. rewrite (append_ok _ _ _ F). cbn [bind].
    split; intros R; [rewrite (truth_set _ R)|rewrite (truth_unset _ R)]; cbn [bind]; [now rewrite <- app_assoc|reflexivity].
  - intros l J N. destruct (truth_jobs _ _ J) as (J1 & J2). rewrite J1, J2. cbn [bind]. now rewrite append_err.
  - intros J. rewrite (truth_nojobs _ J). cbn [bind].
    split; intros R; [rewrite (truth_set _ R)|rewrite (truth_unset _ R)]; reflexivity.
Qed.

Theorem C63_processing_proof : forall cf : config AR,
  (forall l js, jobs_set (cf_processing_jobs cf) l -> Forall2 names l js -> processing_build cf = Ok js) /\
  (forall l, jobs_set (cf_processing_jobs cf) l -> (exists n, In n l /\ forall j, ~ names n j) -> processing_build cf = Err RuntimeError) /\
  (jobs_unset (cf_processing_jobs cf) -> processing_build cf = Ok []).
Proof.
  intros cf. unfold processing_build. split; [|split].
  - intros l js J F. destruct (truth_jobs _ _ J) as (-> & ->). cbn [bind]. now rewrite (append_ok _ _ _ F).
  - intros l J N. destruct (truth_jobs _ _ J) as (-> & ->). cbn [bind]. now apply append_err.
  - intros J. rewrite (truth_nojobs _ J). reflexivity.
Qed.

(** A pipeline that cannot be built: nothing is run and no file changes. *)
Theorem C63_nothing_runs_proof : forall (cf : config AR) (f : files) e,
  preprocessing_build cf = Err e \/ processing_build cf = Err e ->
  exists e', run_config W cf f = (init_context cf f, Some e').
Proof.
  intros cf f e H. unfold run_config. destruct (preprocessing_build cf) as [pre|e1]; cbn [bind]; [|eauto].
  destruct H as [H|H]; [discriminate|]. rewrite H. cbn [bind]. eauto.
Qed.

(** A missing key is a KeyError and nothing runs. *)
Theorem C63_missing_key_proof : forall (cf : config AR) f,
  cf_source_model_file cf = Absent \/ (source_job (cf_source_model_file cf) J_read_source_model /\ cf_preprocessing_jobs cf = Absent) ->
  run_config W cf f = (init_context cf f, Some KeyError).
Proof.
  intros cf f [H|(H & H')]; unfold run_config, preprocessing_build.
  - rewrite H. reflexivity.
  - inversion H as [v S1 E|]. subst v. rewrite (truth_set _ S1). cbn [bind]. rewrite H'. reflexivity.
Qed.

(** C64. *)
Lemma steps_run : forall js c c', steps W js c c' -> pipeline_run W js c = (c', None).
Proof. intros js c c' H. induction H as [c|j js c c1 c2 R H IH]; auto. cbn [pipeline_run]. now rewrite R. Qed.

Theorem C64_proof : forall js c,
  (exists c', steps W js c c' /\ pipeline_run W js c = (c', None)) \/
  (exists pre j post c1 c' e, js = (pre ++ j :: post)%list /\ steps W pre c c1 /\ run_job W j c1 = (c', Some e) /\
     pipeline_run W js c = (c', Some e)).
Proof.
  induction js as [|j js IH]; intros c.
  - left. exists c. split; [constructor|reflexivity].
  - cbn [pipeline_run]. destruct (run_job W j c) as (c1, [e|]) eqn:R.
    + right. exists [], j, js, c, c1, e. split; auto. split; [constructor|]. auto.
    + destruct (IH c1) as [(c' & S1 & P)|(pre & j' & post & c2 & c' & e & -> & S1 & R' & P)].
      * left. exists c'. split; auto. econstructor; eauto.
      * right. exists (j :: pre), j', post, c2, c', e. split; auto. split; [econstructor; eauto|]. auto.
Qed.

Lemma steps_det : forall js c c1 c2, steps W js c c1 -> steps W js c c2 -> c1 = c2.
Proof. intros js c c1 c2 A B. apply steps_run in A, B. congruence. Qed.

Lemma run_steps : forall js c c', pipeline_run W js c = (c', None) -> steps W js c c'.
Proof.
  intros js c c' H. destruct (C64_proof js c) as [(c1 & S1 & P)|(pre & j & post & c1 & c2 & e & _ & _ & _ & P)]; rewrite H in P; [|discriminate].
  now injection P as <-.
Qed.

Lemma steps_app : forall a b c c', steps W (a ++ b)%list c c' <-> exists c1, steps W a c c1 /\ steps W b c1 c'.
Proof.
  induction a as [|j a IH]; intros b c c'.
  - split; [intros H; exists c; split; [constructor|exact H]|]. intros (c1 & A & B). inversion A; subst. exact B.
  - split.
    + intros H. inversion H as [|? ? ? c1 ? R S1]; subst. apply IH in S1. destruct S1 as (c2 & A & B). exists c2. split; auto. econstructor; eauto.
    + intros (c2 & A & B). inversion A as [|? ? ? c1 ? R S1]; subst. econstructor; eauto. apply IH. eauto.
Qed.

(** A failing job other than the source model reader and the default values leaves the context
    as it was. *)
Lemma finish_err : forall (c : context AR) r c' e, finish c r = (c', Some e) -> c' = c.
Proof. intros c [c1|e1] c' e H; cbn in H; [discriminate|]. now injection H as <- _. Qed.

Theorem C64_failing_job_proof : forall j c c' e, run_job W j c = (c', Some e) ->
  j <> J_read_source_model -> j <> J_create_default_values -> c' = c.
Proof.
  intros j c c' e H N1 N2. destruct j; try contradiction; cbn [run_job] in H; try (now apply finish_err in H).
  unfold create_default_source_model in H. discriminate.
Qed.

(** ** Processing *)

Lemma picks_filter : forall {A : Type} (f : A -> bool) l, picks (fun a => f a = true) l (filter f l).
Proof.
  intros A f. induction l as [|a l IH]; [constructor|]. cbn [filter]. destruct (f a) eqn:E; constructor; auto. now rewrite E.
Qed.

Lemma picks_unique : forall {A : Type} (P : A -> Prop) l l1 l2, picks P l l1 -> picks P l l2 -> l1 = l2.
Proof.
  intros A P l l1 l2 H. revert l2. induction H as [|a l l' Pa H IH|a l l' Pa H IH]; intros l2 H2; inversion H2; subst; auto; try contradiction.
  f_equal. auto.
Qed.

(** C73. *)
Theorem C73_proof : forall f s cat eqs, filter_eqs W f s cat = Ok eqs <-> events_of W f s cat eqs.
Proof.
  intros [|] s cat eqs; cbn [filter_eqs].
  - unfold source_filter_eqs. split.
    + intros H. apply bind_ok in H. destruct H as ([] & P & E). injection E as <-. constructor; auto. apply picks_filter.
    + intros H. inversion H as [|? ? ? P K]; subst. rewrite P. cbn [bind]. f_equal.
      eapply picks_unique; [apply picks_filter|exact K].
  - split; [intros E; injection E as <-; constructor|]. intros H. now inversion H.
Qed.

Theorem C73_invalid_proof : forall s cat e, w_polygon W (ab_pos (as_boundary s)) = Err e ->
  filter_eqs W SourceModelCatalogFilter s cat = Err e.
Proof. intros s cat e H. unfold filter_eqs, source_filter_eqs. now rewrite H. Qed.

(** The parts of the context a processing job leaves alone. *)
Definition frame (c c' : context AR) : Prop :=
  cx_config c' = cx_config c /\ cx_eq_catalog c' = cx_eq_catalog c /\ cx_matrix c' = cx_matrix c /\
  cx_working c' = cx_working c /\ cx_flag c' = cx_flag c /\ cx_table c' = cx_table c /\
  cx_cur c' = cx_cur c /\ cx_filtered c' = cx_filtered c /\ cx_files c' = cx_files c.

Lemma frame_refl : forall c, frame c c.
Proof. intros c. unfold frame. auto 10. Qed.
Lemma frame_trans : forall a b c, frame a b -> frame b c -> frame a c.
Proof. unfold frame. intros a b c. intuition congruence. Qed.

Lemma update_cur_ok : forall c (f : area_source AR -> area_source AR) i ss s c',
  cx_cur c = Some i -> cx_sms c = Some ss -> nth_error ss i = Some s ->
  update_cur c f = Ok c' -> cx_sms c' = Some (set_nth i (f s) ss) /\ frame c c'.
Proof.
  intros c f i ss s c' C S1 N H. unfold update_cur in H. rewrite C, S1 in H. cbn [have bind] in H. rewrite N in H.
  injection H as <-. split; [reflexivity|]. unfold frame. cbn. auto 10.
Qed.

Lemma columns_ok : forall (l m : list (event AR)), columns l = Ok m -> m = l /\ l <> [].
Proof. intros [|e l] m H; cbn in H; [discriminate|]. injection H as <-. split; [auto|discriminate]. Qed.

Lemma nth_set_nth_same : forall {A} i (a b : A) l, nth_error l i = Some b -> nth_error (set_nth i a l) i = Some a.
Proof. induction i as [|i IH]; intros a b [|x l] H; cbn in *; try discriminate; eauto. Qed.
Lemma nth_set_nth_other : forall {A} i j (a : A) l, i <> j -> nth_error (set_nth i a l) j = nth_error l j.
Proof. induction i as [|i IH]; intros [|j] a [|x l] H; cbn; auto; try contradiction. Qed.
Lemma set_nth_twice : forall {A} i (a b : A) l, set_nth i a (set_nth i b l) = set_nth i a l.
Proof. induction i as [|i IH]; intros a b [|x l]; cbn; auto. now rewrite IH. Qed.
Lemma set_nth_id : forall {A} i (a : A) l, nth_error l i = Some a -> set_nth i a l = l.
Proof. induction i as [|i IH]; intros a [|x l] H; cbn in *; try discriminate; auto. - now injection H as ->. - now rewrite IH. Qed.
Lemma length_set_nth : forall {A} i (a : A) l, length (set_nth i a l) = length l.
Proof. induction i as [|i IH]; intros a [|x l]; cbn; auto. Qed.

(** Processing jobs on the current source. *)
Lemma run_processing : forall js c c' i ss s eqs, Forall processing_job js ->
  cx_cur c = Some i -> cx_sms c = Some ss -> nth_error ss i = Some s -> cx_filtered c = Some eqs ->
  pipeline_run W js c = (c', None) ->
  exists s', processed W (cx_config c) (cx_table c) eqs js s s' /\ cx_sms c' = Some (set_nth i s' ss) /\ frame c c'.
Proof.
  induction js as [|j js IH]; intros c c' i ss s eqs F C S1 N E R.
  - injection R as <-. exists s. split; [constructor|]. split; [now rewrite set_nth_id|apply frame_refl].
  - inversion F as [|? ? P F']; subst. cbn [pipeline_run] in R.
    destruct (run_job W j c) as (c1, [e|]) eqn:J; [discriminate|].
    destruct P as [-> | ->]; cbn [run_job] in J.
    + unfold recurrence in J. destruct (bind _ _) as [c1'|] eqn:B in J; [|discriminate]. injection J as ->.
      rewrite E in B. cbn [have bind] in B. apply bind_ok in B. destruct B as (eqs' & Q1 & B). apply columns_ok in Q1. destruct Q1 as (-> & NE).
      apply bind_ok in B. destruct B as (tab & Q2 & B). destruct (cx_table c) as [tab'|] eqn:TB; [|discriminate]. injection Q2 as ->.
      apply bind_ok in B. destruct B as (k & Q3 & B). apply bind_ok in B. destruct B as ((((b, sb), a), sa) & Q4 & B).
      destruct (update_cur_ok c _ i ss s c1 C S1 N B) as (S2 & FR).
      assert (FR' := FR). destruct FR' as (G1 & _ & _ & _ & _ & G6 & G7 & G8 & _).
      destruct (IH c1 c' i _ _ eqs F' (eq_trans G7 C) S2 (nth_set_nth_same i _ _ _ N) (eq_trans G8 E) R) as (s' & P & S3 & FR2).
      exists s'. split; [|split].
      * econstructor; eauto. rewrite G1, G6, TB in P. exact P.
      * now rewrite set_nth_twice in S3.
      * eapply frame_trans; eauto.
    + unfold maximum_magnitude in J. destruct (bind _ _) as [c1'|] eqn:B in J; [|discriminate]. injection J as ->.
      rewrite E in B. cbn [have bind] in B. apply bind_ok in B. destruct B as (eqs' & Q1 & B). apply columns_ok in Q1. destruct Q1 as (-> & NE).
      apply bind_ok in B. destruct B as (k & Q3 & B). apply bind_ok in B. destruct B as ((mx, sg) & Q4 & B).
      destruct (update_cur_ok c _ i ss s c1 C S1 N B) as (S2 & FR).
      assert (FR' := FR). destruct FR' as (G1 & _ & _ & _ & _ & G6 & G7 & G8 & _).
      destruct (IH c1 c' i _ _ eqs F' (eq_trans G7 C) S2 (nth_set_nth_same i _ _ _ N) (eq_trans G8 E) R) as (s' & P & S3 & FR2).
      exists s'. split; [|split].
      * econstructor; eauto. rewrite G1, G6 in P. exact P.
      * now rewrite set_nth_twice in S3.
      * eapply frame_trans; eauto.
Qed.

Lemma set_nth_app : forall {A} (p : list A) a b r, set_nth (length p) b (p ++ a :: r)%list = (p ++ b :: r)%list.
Proof. induction p as [|x p IH]; intros a b r; cbn; auto. now rewrite IH. Qed.

Lemma loop_ok : forall f js w rest dn c c', Forall processing_job js ->
  cx_sms c = Some (dn ++ rest)%list ->
  process_sources W f js w (length rest) (length dn) c = (c', None) ->
  exists rest', cx_sms c' = Some (dn ++ rest')%list /\ only_sources c c' /\
    Forall2 (fun s s' => exists eqs, events_of W f s w eqs /\ processed W (cx_config c) (cx_table c) eqs js s s') rest rest'.
Proof.
  intros f js w. induction rest as [|s rest IH]; intros dn c c' F S1 R; cbn [length process_sources] in R.
  - injection R as <-. exists []. split; auto. split; [unfold only_sources; auto 10|constructor].
  - rewrite S1 in R. rewrite nth_error_app2 in R by lia. rewrite Nat.sub_diag in R. cbn [nth_error] in R.
    destruct (filter_eqs W f s w) as [eqs|] eqn:Q; [|discriminate].
    set (c0 := set_filtered (Some eqs) (set_cur (Some (length dn)) c)) in R.
    destruct (pipeline_run W js c0) as (c1, [e|]) eqn:P; [discriminate|].
    destruct (run_processing js c0 c1 (length dn) (dn ++ s :: rest)%list s eqs F eq_refl S1) as (s' & PR & S2 & FR); auto.
    { rewrite nth_error_app2 by lia. now rewrite Nat.sub_diag. }
    rewrite set_nth_app in S2.
    destruct FR as (G1 & G2 & G3 & G4 & G5 & G6 & _ & _ & G9).
    destruct (IH (dn ++ [s'])%list c1 c' F) as (rest' & S3 & F0 & L).
    { rewrite S2, <- app_assoc. reflexivity. }
    { rewrite app_length. cbn [length]. replace (length dn + 1)%nat with (S (length dn)) by lia. exact R. }
    exists (s' :: rest'). split; [rewrite S3, <- app_assoc; reflexivity|]. split.
    + unfold only_sources in *. change (cx_config c0) with (cx_config c) in G1. change (cx_eq_catalog c0) with (cx_eq_catalog c) in G2.
      change (cx_matrix c0) with (cx_matrix c) in G3. change (cx_working c0) with (cx_working c) in G4. change (cx_flag c0) with (cx_flag c) in G5.
      change (cx_table c0) with (cx_table c) in G6. change (cx_files c0) with (cx_files c) in G9. intuition congruence.
    + constructor.
      * exists eqs. split; [now apply C73_proof|exact PR].
      * rewrite G1, G6 in L. exact L.
Qed.

Lemma set_rates_self : forall s : area_source AR, exists a b mn mx sb sa mm, s = set_rates s a b mn mx sb sa mm.
Proof.
  intros [n1 n2 n3 n4 n5 bd [[a b mn mx ty] st di ra] dd h sb sa mm]. exists a, b, mn, mx, sb, sa, mm. reflexivity.
Qed.

Lemma processed_rates : forall cf tab eqs js s s', processed W cf tab eqs js s s' -> same_but_rates s s'.
Proof.
  intros cf tab eqs js s s' H. induction H as [s|js s s' k tb b sb a sa _ _ _ _ H IH|js s s' k mx sg _ _ _ H IH].
  - apply set_rates_self.
  - destruct IH as (a' & b' & mn & mx & sb' & sa' & mm & ->). exists a', b', mn, mx, sb', sa', mm. reflexivity.
  - destruct IH as (a' & b' & mn & mx' & sb' & sa' & mm & ->). exists a', b', mn, mx', sb', sa', mm. reflexivity.
Qed.

(** C65. *)
Theorem C65_proof : forall pre pro flt c c', Forall processing_job pro ->
  start W pre pro flt c = (c', None) -> 
  exists c1, steps W pre c c1 /\
    ((cf_apply_processing_jobs (cx_config c1) = Null /\ c' = c1) \/
     exists u ss w ss', cf_apply_processing_jobs (cx_config c1) = Given u /\ cx_sms c1 = Some ss /\ (ss <> [] -> cx_working c1 = Some w) /\
       cx_sms c' = Some ss' /\ only_sources c1 c' /\
       Forall2 (fun s s' => exists eqs, events_of W flt s w eqs /\
         processed W (cx_config c1) (cx_table c1) eqs pro s s' /\ same_but_rates s s') ss ss').
Proof.
  intros pre pro flt c c' F H. unfold start in H. destruct (pipeline_run W pre c) as (c1, [e|]) eqn:P; [discriminate|].
  exists c1. split; [now apply run_steps|].
  destruct (cf_apply_processing_jobs (cx_config c1)) as [| |u] eqn:A; [discriminate|injection H as <-; now left|]. right.
  destruct (cx_sms c1) as [ss|] eqn:S1; [|discriminate].
  destruct ss as [|s0 ss].
  - injection H as <-. exists u, [], [], []. split; auto. split; auto. split; [contradiction|]. split; auto.
    split; [unfold only_sources; auto 10|constructor].
  - destruct (cx_working c1) as [w|] eqn:W1; [|discriminate].
    destruct (loop_ok flt pro w (s0 :: ss) [] c1 c' F S1 H) as (ss' & S2 & FR & L).
    exists u, (s0 :: ss), w, ss'. split; auto. split; auto. split; auto. split; auto. split; auto.
    eapply forall2_impl; [|exact L]. intros s s' (eqs & E & PR). exists eqs. split; auto. split; auto. eapply processed_rates; eauto.
Qed.

(** C66. *)
Lemma processed_fun : forall cf tab eqs js s s1 s2,
  processed W cf tab eqs js s s1 -> processed W cf tab eqs js s s2 -> s1 = s2.
Proof.
  intros cf tab eqs js s s1 s2 H. revert s2. induction H as [s|js s s' k tb b sb a sa NE TB K R H IH|js s s' k mx sg NE K R H IH]; intros s2 H2.
  - now inversion H2.
  - inversion H2 as [|? ? ? k' tb' b' sb' a' sa' NE' TB' K' R' H'|]; subst. rewrite K in K'. injection K' as <-. injection TB' as <-.
    rewrite R in R'. injection R' as <- <- <- <-. now apply IH.
  - inversion H2 as [| |? ? ? k' mx' sg' NE' K' R' H']; subst. rewrite K in K'. injection K' as <-.
    rewrite R in R'. injection R' as <- <-. now apply IH.
Qed.

Lemma events_fun : forall f s cat e1 e2, events_of W f s cat e1 -> events_of W f s cat e2 -> e1 = e2.
Proof. intros f s cat e1 e2 A B. apply C73_proof in A, B. congruence. Qed.

Lemma forall2_nth : forall {A B : Type} (P : A -> B -> Prop) l l' i a, Forall2 P l l' -> nth_error l i = Some a ->
  exists b, nth_error l' i = Some b /\ P a b.
Proof.
  intros A B P l l' i a H. revert i. induction H as [|x y l l' Q H IH]; intros [|i] N; cbn in *; try discriminate; eauto.
  injection N as ->. eauto.
Qed.

Theorem C66_proof : forall pre1 pre2 pro flt c1 c2 d1 d2 c1' c2' ss1 ss2 i j s, Forall processing_job pro ->
  steps W pre1 c1 d1 -> steps W pre2 c2 d2 ->
  start W pre1 pro flt c1 = (c1', None) -> start W pre2 pro flt c2 = (c2', None) ->
  cx_config d1 = cx_config d2 -> cx_table d1 = cx_table d2 -> cx_working d1 = cx_working d2 ->
  cx_sms d1 = Some ss1 -> cx_sms d2 = Some ss2 -> nth_error ss1 i = Some s -> nth_error ss2 j = Some s ->
  exists ss1' ss2' s', cx_sms c1' = Some ss1' /\ cx_sms c2' = Some ss2' /\ nth_error ss1' i = Some s' /\ nth_error ss2' j = Some s'.
Proof.
  intros pre1 pre2 pro flt c1 c2 d1 d2 c1' c2' ss1 ss2 i j s F T1 T2 H1 H2 EC ET EW S1 S2 N1 N2.
  destruct (C65_proof _ _ _ _ _ F H1) as (x1 & X1 & K1). destruct (C65_proof _ _ _ _ _ F H2) as (x2 & X2 & K2).
  rewrite (steps_det _ _ _ _ X1 T1) in *. rewrite (steps_det _ _ _ _ X2 T2) in *. clear X1 X2 x1 x2.
  destruct K1 as [(A1 & ->)|(u1 & l1 & w1 & l1' & A1 & L1 & Y1 & R1 & _ & F1)];
  destruct K2 as [(A2 & ->)|(u2 & l2 & w2 & l2' & A2 & L2 & Y2 & R2 & _ & F2)].
  - exists ss1, ss2, s. auto.
  - rewrite EC in A1. congruence.
  - rewrite EC in A1. congruence.
  - rewrite S1 in L1. injection L1 as <-. rewrite S2 in L2. injection L2 as <-.
    destruct (forall2_nth _ _ _ _ _ F1 N1) as (s1 & M1 & e1 & E1 & P1 & _).
    destruct (forall2_nth _ _ _ _ _ F2 N2) as (s2 & M2 & e2 & E2 & P2 & _).
    assert (NE1 : ss1 <> []) by (intros ->; destruct i; discriminate).
    assert (NE2 : ss2 <> []) by (intros ->; destruct j; discriminate).
    rewrite (Y1 NE1), (Y2 NE2) in EW. injection EW as <-. rewrite EC, ET in P1.
    rewrite (events_fun _ _ _ _ _ E1 E2) in P1.
    exists l1', l2', s1. split; auto. split; auto. split; auto. rewrite M2. f_equal. symmetry. eapply processed_fun; eauto.
Qed.

(** The two processing jobs may be given in either order. *)
Theorem C66_swap_proof : forall cf tab eqs s s',
  processed W cf tab eqs [J_recurrence; J_maximum_magnitude] s s' <->
  processed W cf tab eqs [J_maximum_magnitude; J_recurrence] s s'.
Proof.
  intros cf tab eqs s s'. split; intros H.
  - inversion H as [|? ? ? k tb b sb a sa NE TB K R H1|]; subst. inversion H1 as [| |? ? ? k' mx sg NE' K' R' H2]; subst.
    inversion H2; subst. econstructor; eauto. econstructor; eauto; apply PR_none.
  - inversion H as [| |? ? ? k' mx sg NE' K' R' H1]; subst. inversion H1 as [|? ? ? k tb b sb a sa NE TB K R H2|]; subst.
    inversion H2; subst. econstructor; eauto. econstructor; eauto; apply PR_none.
Qed.

(** Swapping the jobs of a run that succeeds. *)
Lemma processing_runs : forall js c i ss s eqs s',
  cx_cur c = Some i -> cx_sms c = Some ss -> nth_error ss i = Some s -> cx_filtered c = Some eqs ->
  processed W (cx_config c) (cx_table c) eqs js s s' ->
  exists c', pipeline_run W js c = (c', None) /\ cx_sms c' = Some (set_nth i s' ss) /\ frame c c'.
Proof.
  intros js c i ss s eqs s' C S1 N E P. remember (cx_config c) as cf. remember (cx_table c) as tab.
  revert c ss C S1 N E Heqcf Heqtab.
  induction P as [s|js s s' k tb b sb a sa NE TB K R P IH|js s s' k mx sg NE K R P IH]; intros c ss C S1 N E Heqcf Heqtab.
  - exists c. split; [reflexivity|]. split; [now rewrite set_nth_id|apply frame_refl].
  - set (g := apply_recurrence k (b, sb, a, sa)).
    set (c1 := set_sms (Some (set_nth i (g s) ss)) c).
    assert (J : run_job W J_recurrence c = (c1, None)).
    { cbn [run_job]. unfold recurrence. rewrite E. cbn [have bind]. destruct eqs as [|e0 eqs]; [contradiction|]. cbn [columns bind].
      rewrite <- Heqtab, TB. cbn [have bind]. rewrite <- Heqcf, K. cbn [bind]. unfold recurrence_of. rewrite R. cbn [bind].
      unfold update_cur. rewrite C, S1. cbn [have bind]. rewrite N. reflexivity. }
    destruct (IH c1 (set_nth i (g s) ss)) as (c' & R' & S' & F'); auto.
    { eapply nth_set_nth_same; eauto. }
    exists c'. cbn [pipeline_run]. rewrite J. split; auto. split; [now rewrite set_nth_twice in S'|].
    eapply frame_trans; [|exact F']. unfold frame, c1. cbn. auto 10.
  - set (g := apply_maximum_magnitude (mx, sg)).
    set (c1 := set_sms (Some (set_nth i (g s) ss)) c).
    assert (J : run_job W J_maximum_magnitude c = (c1, None)).
    { cbn [run_job]. unfold maximum_magnitude. rewrite E. cbn [have bind]. destruct eqs as [|e0 eqs]; [contradiction|]. cbn [columns bind].
      rewrite <- Heqcf, K. cbn [bind]. unfold maximum_magnitude_of. rewrite R. cbn [bind].
      unfold update_cur. rewrite C, S1. cbn [have bind]. rewrite N. reflexivity. }
    destruct (IH c1 (set_nth i (g s) ss)) as (c' & R' & S' & F'); auto.
    { eapply nth_set_nth_same; eauto. }
    exists c'. cbn [pipeline_run]. rewrite J. split; auto. split; [now rewrite set_nth_twice in S'|].
    eapply frame_trans; [|exact F']. unfold frame, c1. cbn. auto 10.
Qed.

(** The loop succeeds when every source can be processed. *)
Lemma loop_runs : forall f js w rest rest' dn c,
  cx_sms c = Some (dn ++ rest)%list ->
  Forall2 (fun s s' => exists eqs, events_of W f s w eqs /\ processed W (cx_config c) (cx_table c) eqs js s s') rest rest' ->
  exists c', process_sources W f js w (length rest) (length dn) c = (c', None) /\ cx_sms c' = Some (dn ++ rest')%list /\ only_sources c c'.
Proof.
  intros f js w rest rest' dn c S1 H. remember (cx_config c) as cf. remember (cx_table c) as tab. revert dn c S1 Heqcf Heqtab.
  induction H as [|s s' rest rest' (eqs & E & P) H IH]; intros dn c S1 Heqcf Heqtab; cbn [length process_sources].
  - exists c. split; auto. split; auto. unfold only_sources. auto 10.
  - rewrite S1. rewrite nth_error_app2 by lia. rewrite Nat.sub_diag. cbn [nth_error]. apply C73_proof in E. rewrite E.
    set (c0 := set_filtered (Some eqs) (set_cur (Some (length dn)) c)).
    assert (N0 : nth_error (dn ++ s :: rest)%list (length dn) = Some s) by (rewrite nth_error_app2 by lia; now rewrite Nat.sub_diag).
    subst cf tab.
    destruct (processing_runs js c0 (length dn) (dn ++ s :: rest)%list s eqs s' eq_refl S1 N0 eq_refl P) as (c1 & R & S2 & FR).
    rewrite R. rewrite set_nth_app in S2. destruct FR as (G1 & G2 & G3 & G4 & G5 & G6 & _ & _ & G9).
    destruct (IH (dn ++ [s'])%list c1) as (c' & R' & S3 & F0).
    { rewrite S2, <- app_assoc. reflexivity. }
    { now rewrite G1. }
    { now rewrite G6. }
    exists c'. split; [|split].
    + rewrite app_length in R'. cbn [length] in R'. replace (length dn + 1)%nat with (S (length dn)) in R' by lia. exact R'.
    + rewrite S3, <- app_assoc. reflexivity.
    + unfold only_sources in *. change (cx_config c0) with (cx_config c) in G1. change (cx_eq_catalog c0) with (cx_eq_catalog c) in G2.
      change (cx_matrix c0) with (cx_matrix c) in G3. change (cx_working c0) with (cx_working c) in G4. change (cx_flag c0) with (cx_flag c) in G5.
      change (cx_table c0) with (cx_table c) in G6. change (cx_files c0) with (cx_files c) in G9. intuition congruence.
Qed.

(** Swapping the two processing jobs gives a run that also succeeds, with the same sources. *)
Theorem C66_swap_run_proof : forall pre flt c c',
  start W pre [J_recurrence; J_maximum_magnitude] flt c = (c', None) ->
  exists c'', start W pre [J_maximum_magnitude; J_recurrence] flt c = (c'', None) /\
    cx_sms c'' = cx_sms c' /\ only_sources c' c''.
Proof.
  intros pre flt c c' H.
  assert (F : Forall processing_job [J_recurrence; J_maximum_magnitude]) by (repeat constructor; unfold processing_job; auto).
  unfold start in *. destruct (pipeline_run W pre c) as (c1, [e|]) eqn:P; [discriminate|].
  destruct (cf_apply_processing_jobs (cx_config c1)) as [| |u] eqn:A; [discriminate| |].
  { injection H as <-. exists c1. split; auto. split; auto. unfold only_sources. auto 10. }
  destruct (cx_sms c1) as [[|s0 ss]|] eqn:S1; [| |discriminate].
  { injection H as <-. exists c1. split; auto. split; auto. unfold only_sources. auto 10. }
  destruct (cx_working c1) as [w|] eqn:W1; [|discriminate].
  destruct (loop_ok flt _ w (s0 :: ss) [] c1 c' F S1 H) as (ss' & S2 & FR & L).
  destruct (loop_runs flt [J_maximum_magnitude; J_recurrence] w (s0 :: ss) ss' [] c1 S1) as (c'' & R & S3 & FR').
  { eapply forall2_impl; [|exact L]. intros s s' (eqs & E & PR). exists eqs. split; auto. now apply C66_swap_proof. }
  exists c''. split; [exact R|]. split; [now rewrite S2, S3|]. unfold only_sources in *. intuition congruence.
Qed.

End FlowPipe.
