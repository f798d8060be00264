(** Proof of C148. *)
From Coq Require Import ZArith Arith Bool Ascii String List.
From Verif Require Import Base Ops CatUtil PyStr Csv EqCatalog SourceModel Nrml World CatalogFilter Jobs Workflow Main FlowSpec FlowPipe InputSpec.
Import ListNotations.
Local Open Scope list_scope.
Local Open Scope res_scope.

Section InputProofs.
Context {AR : Ops}.
Variable W : world AR.

(** The first jobs of every pipeline. *)
Lemma build_base : forall (cf : config AR) pre, preprocessing_build cf = Ok pre ->
  exists sj rest, source_job (cf_source_model_file cf) sj /\
    pre = J_read_eq_catalog :: sj :: J_create_catalog_matrix :: J_create_default_values :: rest.
Proof.
  intros cf pre H. unfold preprocessing_build in H.
  destruct (truth no_text (cf_source_model_file cf)) as [b|] eqn:ES; [|discriminate H]. cbn [bind] in H.
  assert (SJ : source_job (cf_source_model_file cf) (if b then J_read_source_model else J_create_default_source_model)).
  { unfold truth in ES. destruct (cf_source_model_file cf) as [| |[|x p]]; try discriminate ES; injection ES as <-.
    - apply SJ_default. left. reflexivity.
    - apply SJ_default. right. reflexivity.
    - apply SJ_file. exists (x :: p). split; [reflexivity|discriminate]. }
  eexists. exists (skipn 4 pre). split; [exact SJ|].
  destruct (truth no_jobs (cf_preprocessing_jobs cf)) as [hj|]; [|discriminate H]. cbn [bind] in H. destruct hj.
  - match type of H with bind ?a _ = _ => destruct a as [p|] eqn:EA; [|discriminate H] end. cbn [bind] in H.
    assert (AI := append_inv _ _ _ EA). cbn beta in AI.
    destruct AI as [(js & _ & Q)|(_ & Q)]; [|discriminate Q].
    injection Q as ->.
    destruct (truth no_text (cf_pprocessing_result_file cf)) as [st|]; [|discriminate H]. cbn [bind] in H.
    destruct st; injection H as <-; reflexivity.
  - destruct (truth no_text (cf_completeness_table_file cf)) as [st|]; [|discriminate H]. cbn [bind] in H.
    destruct st; injection H as <-; reflexivity.
Qed.

Lemma bad_input_stops : forall (cf : config AR) f e pre, bad_input W cf f e -> preprocessing_build cf = Ok pre ->
  exists c, pipeline_run W pre (init_context cf f) = (c, Some e) /\ cx_files c = f.
Proof.
  intros cf f e pre B P. destruct (build_base cf pre P) as (sj & rest & SJ & ->). clear P.
  assert (CG : forall r, catalogue_gives W cf f r ->
    run_job W J_read_eq_catalog (init_context cf f) =
    finish (init_context cf f) (let* es := r in Ok (set_eq_catalog (Some es) (init_context cf f)))).
  { intros r (p & content & E1 & E2 & <-). unfold run_job, read_eq_catalog_job. cbn [cx_config cx_files init_context].
    rewrite E1. cbn [lookup_file bind]. unfold open_read. rewrite E2. reflexivity. }
  assert (SM : forall p, cf_source_model_file cf = Given p -> p <> [] -> sj = J_read_source_model).
  { intros p E N. destruct SJ as [v _|v [U|U]]; [reflexivity|congruence|]. rewrite U in E. injection E as <-. contradiction. }
  destruct B as [p E1 E2|e CE|es p CE E1 N E2|es p content CE E1 N E2 X|es p content d ss e CE E1 N E2 X RD|es p content d CE E1 N E2 X RD|CE U|p content d ss CE E1 N E2 X RD NS].
  - exists (init_context cf f). split; [|reflexivity]. cbn [pipeline_run]. unfold run_job at 1, read_eq_catalog_job.
    cbn [cx_config cx_files init_context]. rewrite E1. cbn [lookup_file bind]. unfold open_read. rewrite E2. reflexivity.
  - exists (init_context cf f). split; [|reflexivity]. cbn [pipeline_run]. rewrite (CG _ CE). reflexivity.
  - rewrite (SM p E1 N). cbn [pipeline_run]. rewrite (CG _ CE). cbn [bind finish]. unfold run_job, read_source_model at 1.
    cbn. rewrite E1. cbn. unfold open_read. rewrite E2. eexists. split; reflexivity.
  - rewrite (SM p E1 N). cbn [pipeline_run]. rewrite (CG _ CE). cbn [bind finish]. unfold run_job, read_source_model at 1.
    cbn. rewrite E1. cbn. unfold open_read. rewrite E2, X. eexists. split; reflexivity.
  - rewrite (SM p E1 N). cbn [pipeline_run]. rewrite (CG _ CE). cbn [bind finish]. unfold run_job, read_source_model at 1.
    cbn. rewrite E1. cbn. unfold open_read. rewrite E2, X, RD. destruct ss; eexists; split; reflexivity.
  - rewrite (SM p E1 N). cbn [pipeline_run]. rewrite (CG _ CE). cbn [bind finish]. unfold run_job, read_source_model at 1.
    cbn. rewrite E1. cbn. unfold open_read. rewrite E2, X, RD. cbn. eexists; split; reflexivity.
  - assert (sj = J_create_default_source_model) as ->.
    { destruct SJ as [v (p & F & N)|v _]; [|reflexivity]. destruct U; [congruence|]. rewrite H in F. injection F as <-. contradiction. }
    cbn [pipeline_run]. rewrite (CG _ CE). cbn. eexists; split; reflexivity.
  - rewrite (SM p E1 N). cbn [pipeline_run]. rewrite (CG _ CE). cbn [bind finish]. unfold run_job, read_source_model at 1.
    cbn. rewrite E1. cbn. unfold open_read. rewrite E2, X, RD. destruct ss as [|s ss]; [contradiction|]. cbn. eexists; split; reflexivity.
Qed.

Lemma usable_builds : forall cf : config AR, usable cf -> exists pre pro flt,
  preprocessing_build cf = Ok pre /\ processing_build cf = Ok pro /\ choose_filter cf = Ok flt.
Proof.
  intros cf (S & P & Q).
  assert (exists sj, source_job (cf_source_model_file cf) sj) as (sj & SJ).
  { destruct S; [exists J_read_source_model; now constructor|exists J_create_default_source_model; now constructor]. }
  assert (exists pre, preprocessing_build cf = Ok pre) as (pre & E1).
  { destruct (C63_proof cf sj SJ) as (A & _ & B).
    destruct P as [(l & js & J & F & R)|(U & R)].
    - destruct (A l js J F) as (A1 & A2). destruct R; eauto.
    - destruct (B U) as (B1 & B2). destruct R; eauto. }
  assert (exists pro, processing_build cf = Ok pro) as (pro & E2).
  { destruct (C63_processing_proof cf) as (A & _ & B). destruct Q as [(l & js & J & F)|U]; eauto. }
  assert (exists flt, choose_filter cf = Ok flt) as (flt & E3).
  { unfold choose_filter. destruct S as [S|S]; [rewrite truth_set by exact S|rewrite truth_unset by exact S]; cbn [bind]; eauto. }
  eauto 10.
Qed.

Theorem C148_proof : forall (cf : config AR) f e, usable cf -> bad_input W cf f e ->
  exists c, run_config W cf f = (c, Some e) /\ cx_files c = f.
Proof.
  intros cf f e U B. destruct (usable_builds cf U) as (pre & pro & flt & E1 & E2 & E3).
  destruct (bad_input_stops cf f e pre B E1) as (c & R & F).
  exists c. split; [|exact F]. unfold run_config. rewrite E1, E2, E3. cbn [bind]. unfold start. rewrite R. reflexivity.
Qed.

Theorem C148_nothing_proof : forall (cf : config AR) f e, bad_input W cf f e ->
  exists c e', run_config W cf f = (c, Some e') /\ cx_files c = f.
Proof.
  intros cf f e B. unfold run_config.
  destruct (preprocessing_build cf) as [pre|x] eqn:E1; cbn [bind]; [|exists (init_context cf f); eauto].
  destruct (processing_build cf) as [pro|x]; cbn [bind]; [|exists (init_context cf f); eauto].
  destruct (choose_filter cf) as [flt|x]; cbn [bind]; [|exists (init_context cf f); eauto].
  destruct (bad_input_stops cf f e pre B E1) as (c & R & F). unfold start. rewrite R. eauto.
Qed.

(** ** The completeness table *)
Lemma finish_files : forall (c c' : context AR) r x, (forall v, r = Ok v -> cx_files v = cx_files c) -> finish c r = (c', x) -> cx_files c' = cx_files c.
Proof. intros c c' [v|e] x H E; cbn in E; injection E as <- <-; auto. Qed.

Lemma base_keeps : forall j (c c' : context AR) x,
  In j [J_read_eq_catalog; J_read_source_model; J_create_default_source_model; J_create_catalog_matrix; J_create_default_values] ->
  run_job W j c = (c', x) -> cx_files c' = cx_files c /\ cx_config c' = cx_config c.
Proof.
  intros j c c' x I H. repeat (destruct I as [<-|I]); try contradiction; unfold run_job in H.
  - unfold read_eq_catalog_job in H. destruct (lookup_file _ _) as [p|]; cbn in H; [|now injection H as <- <-].
    destruct (open_read _ p) as [t|]; cbn in H; [|now injection H as <- <-].
    destruct (read_eq_catalog _ _ _ t); cbn in H; now injection H as <- <-.
  - unfold read_source_model in H. destruct (lookup_file _ _) as [p|]; cbn in H; [|now injection H as <- <-].
    destruct (open_read _ p) as [t|]; cbn in H; [|now injection H as <- <-].
    destruct (w_xml_parse W t) as [d|]; [|now injection H as <- <-].
    destruct (read_doc _ d) as ([|s ss], [e|]); cbn in H; try (now injection H as <- <-).
    destruct (cx_sms c); now injection H as <- <-.
  - unfold create_default_source_model in H. now injection H as <- <-.
  - unfold create_catalog_matrix in H. destruct (have _ _) as [p|]; cbn in H; [|now injection H as <- <-].
    destruct (mapM _ p) as [t|]; cbn in H; now injection H as <- <-.
  - unfold create_default_values in H. destruct (cx_working c) as [w|]; [|now injection H as <- <-].
    destruct (columns w) as [w'|]; cbn in H; [|now injection H as <- <-].
    destruct (minv _) as [y|]; cbn in H; [|now injection H as <- <-].
    destruct (minv _) as [m|]; cbn in H; now injection H as <- <-.
Qed.

Lemma base_run_keeps : forall js (c c' : context AR) x,
  incl js [J_read_eq_catalog; J_read_source_model; J_create_default_source_model; J_create_catalog_matrix; J_create_default_values] ->
  pipeline_run W js c = (c', x) -> cx_files c' = cx_files c /\ cx_config c' = cx_config c.
Proof.
  induction js as [|j js IH]; intros c c' x I H; cbn [pipeline_run] in H; [now injection H as <- <-|].
  destruct (run_job W j c) as (c1, [e|]) eqn:E.
  - injection H as <- <-. eapply base_keeps; [|exact E]. apply I. now left.
  - destruct (base_keeps j c c1 None) as (A & B); auto; [apply I; now left|].
    destruct (IH c1 c' x) as (A' & B'); auto; [intros y Y; apply I; now right|]. split; congruence.
Qed.

Lemma run_append : forall js j (c : context AR),
  pipeline_run W (js ++ [j]) c = match pipeline_run W js c with (c', None) => run_job W j c' | r => r end.
Proof.
  induction js as [|i js IH]; intros j c; cbn [pipeline_run app].
  - destruct (run_job W j c) as (c', [e|]); reflexivity.
  - destruct (run_job W i c) as (c', [e|]); auto.
Qed.

Lemma pairs_odd : forall n (l : list (@T AR)), (length l <= n)%nat -> Nat.odd (length l) = true -> pairs l = Err ValueError.
Proof.
  induction n as [|n IH]; intros [|a [|b l]] L O; try reflexivity; try discriminate O; [inversion L|].
  cbn [pairs]. rewrite (IH l); [reflexivity| |exact O]. cbn in L. apply le_S_n in L. apply Nat.lt_le_incl. exact L.
Qed.

Lemma concat_length : forall n (rows : list (list (@T AR))), (forall r, In r rows -> length r = n) -> length (concat rows) = (n * length rows)%nat.
Proof.
  induction rows as [|r rows IH]; intros H; cbn; [now rewrite Nat.mul_0_r|].
  rewrite app_length, IH by (intros; apply H; now right). rewrite (H r) by now left. rewrite Nat.mul_succ_r. apply Nat.add_comm.
Qed.

Lemma bad_table_stops : forall (c : context AR) p e, cf_completeness_table_file (cx_config c) = Given p -> bad_table (cx_files c) p e ->
  run_job W J_retrieve_completeness_table c = (c, Some e).
Proof.
  intros c p e E B. unfold run_job, retrieve_completeness_table. rewrite E. cbn [lookup_file bind]. unfold open_read.
  set (row := fun l => map (table_cell W) (split_on chr_comma l)).
  assert (TR : forall content, table_rows W content =
    match map row (table_lines content) with [] => Err IOError
    | r0 :: _ => if forallb (fun r => Nat.eqb (length r) (length r0)) (map row (table_lines content)) then Ok (map row (table_lines content)) else Err ValueError end)
    by reflexivity.
  assert (LC : forall l, length (row l) = cells l) by (intros l; unfold row, cells; apply map_length).
  destruct B as [N|content F L|content l l' F I I' D|content n F U O].
  - rewrite N. reflexivity.
  - rewrite F. cbn [bind]. rewrite TR, L. reflexivity.
  - rewrite F. cbn [bind]. rewrite TR. destruct (table_lines content) as [|l0 ls]; [contradiction|].
    cbn [map]. match goal with |- context [forallb ?g ?h] => destruct (forallb g h) eqn:Q end; [|reflexivity].
    exfalso. rewrite forallb_forall in Q. apply D.
    assert (X : forall k, In k (l0 :: ls) -> cells k = cells l0).
    { intros k K. rewrite <- !LC. apply Nat.eqb_eq. apply Q. exact (in_map row _ _ K). }
    rewrite (X l I), (X l' I'). reflexivity.
  - rewrite F. cbn [bind]. rewrite TR. destruct (table_lines content) as [|l0 ls] eqn:TL; [rewrite Nat.mul_0_r in O; discriminate O|].
    rewrite <- TL in *. assert (forallb (fun r => Nat.eqb (length r) (length (row l0))) (map row (table_lines content)) = true) as Q.
    { apply forallb_forall. intros r R. apply in_map_iff in R. destruct R as (k & <- & K). apply Nat.eqb_eq. rewrite !LC, (U k K).
      symmetry. apply U. rewrite TL. now left. }
    destruct (map row (table_lines content)) as [|r0 rs] eqn:M; [rewrite TL in M; discriminate M|].
    assert (r0 = row l0) as -> by (rewrite TL in M; cbn [map] in M; congruence).
    rewrite Q. cbn [bind]. rewrite (pairs_odd (length (concat (row l0 :: rs)))); [reflexivity|apply le_n|].
    rewrite (concat_length n).
    + rewrite <- M, map_length. exact O.
    + rewrite <- M. intros r R. apply in_map_iff in R. destruct R as (k & <- & K). rewrite LC. auto.
Qed.

Theorem C148_table_proof : forall (cf : config AR) f p e, jobs_unset (cf_preprocessing_jobs cf) ->
  cf_completeness_table_file cf = Given p -> p <> [] -> bad_table f p e ->
  exists c e', run_config W cf f = (c, Some e') /\ cx_files c = f /\
    forall sj c0, usable cf -> source_job (cf_source_model_file cf) sj ->
      pipeline_run W [J_read_eq_catalog; sj; J_create_catalog_matrix; J_create_default_values] (init_context cf f) = (c0, None) -> e' = e.
Proof.
  intros cf f p e U E N B. destruct (preprocessing_build cf) as [pre|x] eqn:E1.
  - assert (FS : file_set (cf_completeness_table_file cf)) by (exists p; auto).
    destruct (build_base cf pre E1) as (sj & rest & SJ & _).
    destruct (C63_proof cf sj SJ) as (_ & _ & P). destruct (P U) as (P1 & _). specialize (P1 FS).
    assert (Q := eq_trans (eq_sym E1) P1). injection Q as ->.
    assert (UNI : forall sj', source_job (cf_source_model_file cf) sj' -> sj' = sj).
    { intros sj' S'. destruct SJ as [v (q & F & NE)|v V], S' as [v' (q' & F' & NE')|v' V']; try reflexivity;
        [destruct V'|destruct V]; congruence. }
    unfold run_config. rewrite E1. cbn [bind].
    destruct (processing_build cf) as [pro|x] eqn:E2; cbn [bind].
    2:{ exists (init_context cf f), x. do 2 (split; [reflexivity|]). intros sj' c0 US. destruct (usable_builds cf US) as (? & ? & ? & _ & X & _). congruence. }
    destruct (choose_filter cf) as [flt|x] eqn:E3; cbn [bind].
    2:{ exists (init_context cf f), x. do 2 (split; [reflexivity|]). intros sj' c0 US. destruct (usable_builds cf US) as (? & ? & ? & _ & _ & X). congruence. }
    unfold start. set (base := [J_read_eq_catalog; sj; J_create_catalog_matrix; J_create_default_values]).
    match goal with |- context [pipeline_run W ?l (init_context cf f)] => change l with (base ++ [J_retrieve_completeness_table]) end.
    rewrite run_append. destruct (pipeline_run W base (init_context cf f)) as (c1, o) eqn:R.
    assert (K : incl base [J_read_eq_catalog; J_read_source_model; J_create_default_source_model; J_create_catalog_matrix; J_create_default_values]).
    { intros y Y. unfold base in Y. cbn [In] in Y |- *. destruct SJ; intuition. }
    destruct (base_run_keeps base _ c1 o K R) as (KF & KC). cbn in KF, KC. destruct o as [x|].
    + exists c1, x. do 2 (split; [assumption || reflexivity|]). intros sj' c0 _ S' R'. rewrite (UNI sj' S') in R'. fold base in R'. congruence.
    + rewrite (bad_table_stops c1 p e) by (rewrite ?KC, ?KF; assumption). exists c1, e. auto.
  - exists (init_context cf f), x. unfold run_config. rewrite E1. do 2 (split; [reflexivity|]).
    intros sj c0 US. destruct (usable_builds cf US) as (? & ? & ? & X & _). congruence.
Qed.

Theorem C75_log_proof : forall detailed,
  (log_file_opened detailed = true <-> detailed = true) /\ (log_level detailed <= 20)%Z /\ (log_level false = 20)%Z.
Proof. intros []; cbn; repeat split; auto; discriminate. Qed.

End InputProofs.
