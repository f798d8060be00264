(** Proof of C151. *)
From Coq Require Import ZArith Arith Bool Ascii String List Lia.
From Verif Require Import Base Ops BaseFacts RFacts CatUtil PyStr Csv EqCatalog EqCatSpec EqCatProofs EqCatRow EqCatFile SourceModel
  Nrml World CatalogFilter Jobs Workflow Main FlowSpec FlowPipe FlowPre FlowOrder MatrixSpec FlowMatrix FlowZones InputSpec InputProofs RunsSpec.
Import ListNotations.
Local Open Scope list_scope.
Local Open Scope res_scope.

Section RunsProofs.
Context {AR : Ops}.
Variable W : world AR.
Hypothesis order_ok : rearranges (w_dict_order W).

Lemma rows_matrix : forall content es,
  read_eq_catalog (w_parse_float W) (w_now_year W) (w_dict_order W) content = Ok es ->
  exists m, mapM matrix_row es = Ok m /\ length m = length es.
Proof.
  intros content es XR. destruct (C06_all_proof _ _ _ _ _ XR) as (_ & rows & CS & F).
  revert F. generalize 0%nat. generalize (nonblank rows). clear -order_ok. intros l. revert es.
  induction l as [|row l IH]; intros es k F; cbn [length seq combine] in F; inversion F; subst.
  - exists []. split; reflexivity.
  - destruct (row_event W order_ok _ _ _ H1) as (r & MR & RE). destruct (IH _ _ H3) as (m & MM & L).
    exists (r :: m). split; [|cbn; congruence]. cbn [mapM]. rewrite MR, MM. reflexivity.
Qed.

Lemma good_base : forall (cf : config AR) f sj q, cf_eq_catalog_file cf = Given q -> source_job (cf_source_model_file cf) sj ->
  (forall e, ~ bad_input W cf f e) ->
  exists c ss, pipeline_run W [J_read_eq_catalog; sj; J_create_catalog_matrix; J_create_default_values] (init_context cf f) = (c, None) /\
    cx_sms c = Some ss /\ run_sources W cf f ss /\ cx_files c = f /\ cx_config c = cf.
Proof.
  intros cf f sj q Q SJ N.
  destruct (f q) as [content|] eqn:F; [|exfalso; exact (N _ (BI_no_catalogue W cf f q Q F))].
  destruct (read_eq_catalog (w_parse_float W) (w_now_year W) (w_dict_order W) content) as [es|e] eqn:R.
  2:{ exfalso. apply (N e). apply BI_bad_catalogue. exists q, content. auto. }
  assert (CG : catalogue_gives W cf f (Ok es)) by (exists q, content; auto).
  destruct (rows_matrix content es R) as (m & MM & LM).
  assert (S : exists ss, run_sources W cf f ss /\ ss <> [] /\ forall c : context AR, cx_config c = cf -> cx_files c = f -> run_job W sj c = (set_sms (Some ss) c, None)).
  { remember (cf_source_model_file cf) as sm eqn:SME. destruct SJ as [v (p & E & NE)|v U]; rewrite SME in *.
    - destruct (f p) as [ct|] eqn:FP; [|exfalso; exact (N _ (BI_no_model W _ _ es p CG E NE FP))].
      destruct (w_xml_parse W ct) as [d|] eqn:X; [|exfalso; exact (N _ (BI_not_xml W _ _ es p ct CG E NE FP X))].
      destruct (read_doc (w_parse_float W) d) as (ss, [e|]) eqn:RD; [exfalso; exact (N _ (BI_bad_source W _ _ es p ct d ss e CG E NE FP X RD))|].
      destruct ss as [|s ss]; [exfalso; exact (N _ (BI_no_source W _ _ es p ct d CG E NE FP X RD))|].
      exists (s :: ss). split; [left; exists p, ct, d; auto 6|]. split; [discriminate|].
      intros c C1 C2. unfold run_job, read_source_model. rewrite C1, C2, E. cbn [lookup_file bind]. unfold open_read. rewrite FP, X, RD. reflexivity.
    - exists [default_area_source]. split; [right; auto|]. split; [discriminate|]. reflexivity. }
  destruct S as (ss & RS & NS & SR).
  assert (NE : es <> []).
  { intros ->. destruct RS as [(p & ct & d & E & NP & FP & X & RD)|(U & _)].
    - exact (N _ (BI_no_event_model W _ _ p ct d ss CG E NP FP X RD NS)).
    - exact (N _ (BI_no_event W _ _ CG U)). }
  assert (NM : m <> []) by (intros ->; destruct es; [contradiction|discriminate LM]).
  assert (Y : exists y0, minv (map ev_year m) = Ok y0) by (apply minv_some; destruct m; [contradiction|discriminate]).
  assert (Z : exists m0, minv (map ev_mw m) = Ok m0) by (apply minv_some; destruct m; [contradiction|discriminate]).
  destruct Y as (y0 & MY). destruct Z as (m0 & MZ).
  cbn [pipeline_run]. unfold run_job at 1, read_eq_catalog_job. cbn [cx_config cx_files init_context]. rewrite Q. cbn [lookup_file bind].
  unfold open_read. rewrite F. cbn [bind]. rewrite R. cbn [bind finish]. rewrite SR by reflexivity.
  unfold run_job at 1, create_catalog_matrix. cbn [cx_eq_catalog set_sms set_eq_catalog have bind]. rewrite MM. cbn [bind finish].
  unfold run_job, create_default_values. cbn [cx_working set_working].
  replace (columns m) with (Ok m) by (destruct m; [contradiction|reflexivity]). cbn [bind]. rewrite MY. cbn [bind]. rewrite MZ. cbn [bind finish].
  do 2 eexists. split; [reflexivity|]. cbn. auto.
Qed.

Lemma pairs_even : forall n (l : list (@T AR)), (length l <= n)%nat -> Nat.odd (length l) = false -> exists ps, pairs l = Ok ps.
Proof.
  induction n as [|n IH]; intros [|a [|b l]] L O; try discriminate O; cbn [pairs]; eauto; [inversion L|].
  destruct (IH l) as (ps & ->); [cbn in L; lia|exact O|]. cbn. eauto.
Qed.

Lemma good_table : forall (c : context AR) p, cf_completeness_table_file (cx_config c) = Given p -> (forall e, ~ bad_table (cx_files c) p e) ->
  exists tab, run_job W J_retrieve_completeness_table c = (set_table (Some tab) c, None).
Proof.
  intros c p E B. unfold run_job, retrieve_completeness_table. rewrite E. cbn [lookup_file bind]. unfold open_read.
  destruct (cx_files c p) as [content|] eqn:F; [|exfalso; exact (B _ (BT_missing _ _ F))]. cbn [bind].
  set (row := fun l => map (table_cell W) (split_on chr_comma l)).
  assert (TR : table_rows W content =
    match map row (table_lines content) with [] => Err IOError
    | r0 :: _ => if forallb (fun r => Nat.eqb (length r) (length r0)) (map row (table_lines content)) then Ok (map row (table_lines content)) else Err ValueError end)
    by reflexivity.
  assert (LC : forall l, length (row l) = cells l) by (intros l; unfold row, cells; apply map_length).
  rewrite TR. clear TR.
  destruct (table_lines content) as [|l0 ls] eqn:TL; [exfalso; exact (B _ (BT_blank _ _ content F TL))|].
  rewrite <- TL. remember (table_lines content) as L eqn:HL.
  destruct (forallb (fun r => Nat.eqb (length r) (length (row l0))) (map row L)) eqn:Q.
  - rewrite forallb_forall in Q.
    assert (U : forall l, In l L -> cells l = cells l0).
    { intros l I. rewrite <- !LC. apply Nat.eqb_eq. apply Q. now apply in_map. }
    destruct (Nat.odd (cells l0 * length L)) eqn:O.
    { exfalso. apply (B ValueError). rewrite HL in U, O. exact (BT_odd _ _ content (cells l0) F U O). }
    destruct (pairs_even (length (concat (map row L))) (concat (map row L)) (le_n _)) as (ps & PS).
    { rewrite (concat_length (cells l0)), map_length; [exact O|]. intros r R. apply in_map_iff in R. destruct R as (k & <- & K). rewrite LC. auto. }
    assert (Q' : forallb (fun r => Nat.eqb (length r) (length (row l0))) (map row L) = true) by (now apply forallb_forall).
    exists ps. destruct (map row L) as [|r0 rs] eqn:M; [rewrite TL in M; discriminate M|].
    assert (r0 = row l0) as -> by (rewrite TL in M; cbn [map] in M; congruence).
    rewrite Q'. cbn [bind]. rewrite PS. reflexivity.
  - exfalso. assert (X : exists l, In l L /\ cells l <> cells l0).
    { clear - Q LC. induction L as [|l L IH]; [discriminate Q|]. cbn [map forallb] in Q. apply andb_false_iff in Q. destruct Q as [Q|Q].
      - exists l. split; [now left|]. apply Nat.eqb_neq in Q. now rewrite !LC in Q.
      - destruct (IH Q) as (k & I & D). exists k. split; [now right|exact D]. }
    destruct X as (l & I & D). apply (B ValueError). apply (BT_ragged _ _ content l l0 F); [now rewrite <- HL|rewrite <- HL, TL; now left|exact D].
Qed.

Lemma sources_unique : forall (cf : config AR) f ss ss', run_sources W cf f ss -> run_sources W cf f ss' -> ss = ss'.
Proof.
  intros cf f ss ss' [(p & ct & d & E & NE & F & X & R)|(U & E)] [(p' & ct' & d' & E' & NE' & F' & X' & R')|(U' & E')].
  - congruence.
  - destruct U'; congruence.
  - destruct U; congruence.
  - congruence.
Qed.

Theorem C151_proof : forall (cf : config AR) f q, usable cf -> jobs_unset (cf_preprocessing_jobs cf) ->
  cf_apply_processing_jobs cf = Null -> cf_eq_catalog_file cf = Given q ->
  ((exists c, run_config W cf f = (c, None)) <-> input_good W cf f /\ result_possible W cf f).
Proof.
  intros cf f q U PJ AP Q.
  destruct (usable_builds cf U) as (pre & pro & flt & E1 & E2 & E3).
  destruct (build_base cf pre E1) as (sj & rest & SJ & _).
  set (base := [J_read_eq_catalog; sj; J_create_catalog_matrix; J_create_default_values]).
  destruct (C63_proof cf sj SJ) as (_ & _ & P). destruct (P PJ) as (P1 & P2). clear P.
  assert (RUN : run_config W cf f = match pipeline_run W pre (init_context cf f) with
    | (c', Some e) => (c', Some e) | (c', None) => match cf_apply_processing_jobs (cx_config c') with Null => write_result W c' | _ => run_config W cf f end end).
  { unfold run_config at 1. rewrite E1, E2, E3. cbn [bind]. unfold start. destruct (pipeline_run W pre (init_context cf f)) as (c', [e|]) eqn:R; [reflexivity|].
    destruct (cf_apply_processing_jobs (cx_config c')) eqn:AC; auto; unfold run_config; rewrite E1, E2, E3; cbn [bind]; unfold start; rewrite R, AC; reflexivity. }
  assert (G : input_good W cf f -> exists c ss, pipeline_run W pre (init_context cf f) = (c, None) /\ cx_sms c = Some ss /\ run_sources W cf f ss /\ cx_config c = cf).
  { intros (GI & GT). destruct (good_base cf f sj q Q SJ GI) as (c & ss & R & S1 & S2 & S3 & S4).
    destruct (proj1 (proj2 U)) as [(l & js & J & _)|(_ & [(p & TF & NP)|TU])].
    - exfalso. destruct J as (J & NL). destruct PJ; congruence.
    - assert (pre = base ++ [J_retrieve_completeness_table]) as -> by (assert (X := P1 (ex_intro _ p (conj TF NP))); assert (Y := eq_trans (eq_sym E1) X); now injection Y).
      rewrite run_append. unfold base. rewrite R. rewrite <- S4 in TF.
      destruct (good_table c p TF) as (tab & RT). { intros e. rewrite S3. apply GT; congruence. }
      rewrite RT. exists (set_table (Some tab) c), ss. cbn. auto 6.
    - assert (pre = base) as -> by (assert (X := P2 TU); assert (Y := eq_trans (eq_sym E1) X); now injection Y).
      unfold base. rewrite R. eauto 8. }
  split.
  - intros (c & H). assert (GI : input_good W cf f).
    { split.
      - intros e B. destruct (C148_proof W cf f e U B) as (c' & R & _). congruence.
      - intros p e TF NP B. destruct (C148_table_proof W cf f p e PJ TF NP B) as (c' & e' & R & _). congruence. }
    split; [exact GI|]. destruct (G GI) as (c1 & ss & R & S1 & S2 & S3).
    rewrite RUN, R, S3, AP in H. unfold write_result in H. rewrite S3, S1 in H.
    destruct (cf_result_file cf) as [| |p] eqn:RF; try discriminate H. cbn [lookup_file bind] in H.
    destruct (w_exists W (dirname p)) eqn:X1; [|discriminate H]. cbn [bind have] in H.
    destruct (write_doc (w_str_float W) (w_xml_ok W) ss) as [d|] eqn:WD; [|discriminate H]. cbn [bind] in H.
    destruct (w_can_write W p) eqn:X2; [|discriminate H]. exists p, ss, d. auto 6.
  - intros (GI & (p & ss' & d & RF & X1 & X2 & RS & WD)). destruct (G GI) as (c1 & ss & R & S1 & S2 & S3).
    rewrite (sources_unique cf f ss' ss RS S2) in WD.
    rewrite RUN, R, S3, AP. unfold write_result. rewrite S3, S1, RF. cbn [lookup_file bind]. rewrite X1. cbn [bind have]. rewrite WD. cbn [bind].
    rewrite X2. cbn [bind finish]. eauto.
Qed.

End RunsProofs.
