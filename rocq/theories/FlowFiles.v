(** Whole runs: which files change, when the result is written, empty zones, the command
    line. *)
From Coq Require Import ZArith Bool Ascii String List Lia.
From Verif Require Import Base Ops BaseFacts CatUtil PyStr PyStrProofs EqCatalog SourceModel Nrml World CatalogFilter
  Recurrence MaxMag Jobs Workflow Main FlowSpec FlowPipe.
Import ListNotations.
Local Open Scope res_scope.

Section FlowFiles.
Context {AR : Ops}.
Variable W : world AR.

Lemma write_file_other : forall p c f q, p <> q -> write_file p c f q = f q.
Proof.
  intros p c f q N. unfold write_file. destruct (text_eqb p q) eqn:E; auto. apply text_eqb_eq in E. contradiction.
Qed.
Lemma write_file_same : forall p c f, write_file p c f p = Some c.
Proof. intros p c f. unfold write_file. now rewrite (proj2 (text_eqb_eq p p) eq_refl). Qed.

(** What every job leaves alone: the configuration, and the files but the two it may store. *)
Definition keeps (c c' : context AR) : Prop :=
  cx_config c' = cx_config c /\
  forall q, cf_pprocessing_result_file (cx_config c) <> Given q -> cf_completeness_table_file (cx_config c) <> Given q ->
    cx_files c' q = cx_files c q.

Lemma keeps_refl : forall c, keeps c c.
Proof. split; auto. Qed.
Lemma keeps_trans : forall a b c, keeps a b -> keeps b c -> keeps a c.
Proof.
  intros a b c (A1 & A2) (B1 & B2). split; [congruence|]. intros q N1 N2. rewrite B2; [now apply A2| |]; now rewrite A1.
Qed.
Lemma finish_keeps : forall c r c' x, (forall c1, r = Ok c1 -> keeps c c1) -> finish c r = (c', x) -> keeps c c'.
Proof. intros c [c1|e] c' x H E; cbn in E; injection E as <- _; [now apply H|apply keeps_refl]. Qed.

Ltac unbind := repeat match goal with
  | H : bind _ _ = Ok _ |- _ => apply bind_ok in H; destruct H as (? & ? & H)
  | H : Ok _ = Ok _ |- _ => injection H as <-
  | p : (_ * _)%type |- _ => destruct p
  end.

Lemma job_keeps : forall j c c' x, run_job W j c = (c', x) -> keeps c c'.
Proof.
  intros j c c' x H. destruct j; cbn [run_job] in H.
  - apply finish_keeps in H; auto. intros c1 R. unbind. split; auto.
  - unfold read_source_model in H. destruct (bind _ _) as [ct|e] in H; [|injection H as <- _; apply keeps_refl].
    destruct (w_xml_parse W ct) as [d|]; [|injection H as <- _; apply keeps_refl].
    destruct (read_doc (w_parse_float W) d) as (ss, y).
    set (c1 := match ss with [] => c | _ => set_sms (Some ss) c end) in H.
    assert (K : keeps c c1) by (unfold c1; destruct ss; [apply keeps_refl|split; auto]).
    destruct y as [e|]; [now injection H as <- _|]. destruct (cx_sms c1); now injection H as <- _.
  - unfold create_default_source_model in H. injection H as <- _. split; auto.
  - apply finish_keeps in H; auto. intros c1 R. unbind. split; auto.
  - unfold create_default_values in H. destruct (cx_working c) as [w|]; [|injection H as <- _; apply keeps_refl].
    apply finish_keeps in H.
    + destruct H as (H1 & H2). split; auto.
    + intros c1 R. unbind. split; auto.
  - apply finish_keeps in H; auto. intros c1 R. unbind. split; auto.
  - apply finish_keeps in H; auto. intros c1 R. unbind. split; auto.
  - apply finish_keeps in H; auto. intros c1 R. unbind. split; auto.
  - apply finish_keeps in H; auto. intros c1 R. unbind.
    unfold update_cur in R. unbind. destruct (nth_error _ _); [|discriminate]. unbind. split; auto.
  - apply finish_keeps in H; auto. intros c1 R. unbind. split; auto.
  - apply finish_keeps in H; auto. intros c1 R. unbind. split; auto. intros q N1 _. cbn. apply write_file_other.
    intros E. match goal with L : lookup_file _ _ = Ok _ |- _ => unfold lookup_file in L; destruct (cf_pprocessing_result_file (cx_config c)); try discriminate; injection L as -> end.
    now subst.
  - apply finish_keeps in H; auto. intros c1 R. unbind. split; auto. intros q _ N2. cbn. apply write_file_other.
    intros E. match goal with L : lookup_file _ _ = Ok _ |- _ => unfold lookup_file in L; destruct (cf_completeness_table_file (cx_config c)); try discriminate; injection L as -> end.
    now subst.
  - apply finish_keeps in H; auto. intros c1 R. unbind. split; auto.
  - apply finish_keeps in H; auto. intros c1 R. unbind.
    unfold update_cur in R. unbind. destruct (nth_error _ _); [|discriminate]. unbind. split; auto.
Qed.

Lemma pipeline_keeps : forall js c c' x, pipeline_run W js c = (c', x) -> keeps c c'.
Proof.
  induction js as [|j js IH]; intros c c' x H; cbn [pipeline_run] in H.
  - injection H as <- _. apply keeps_refl.
  - destruct (run_job W j c) as (c1, [e|]) eqn:J; apply job_keeps in J.
    + now injection H as <- _.
    + eapply keeps_trans; eauto.
Qed.

Lemma loop_keeps : forall f js w n i c c' x, process_sources W f js w n i c = (c', x) -> keeps c c'.
Proof.
  intros f js w. induction n as [|n IH]; intros i c c' x H; cbn [process_sources] in H.
  - injection H as <- _. apply keeps_refl.
  - destruct (cx_sms c) as [ss|]; [|injection H as <- _; apply keeps_refl].
    destruct (nth_error ss i) as [s|]; [|injection H as <- _; apply keeps_refl].
    destruct (filter_eqs W f s w) as [eqs|e]; [|injection H as <- _; apply keeps_refl].
    destruct (pipeline_run W js _) as (c1, [e|]) eqn:P in H; apply pipeline_keeps in P.
    + now injection H as <- _.
    + eapply keeps_trans; [|eapply IH; eauto]. exact P.
Qed.

Lemma start_keeps : forall pre pro f c c' x, start W pre pro f c = (c', x) -> keeps c c'.
Proof.
  intros pre pro f c c' x H. unfold start in H. destruct (pipeline_run W pre c) as (c1, [e|]) eqn:P; apply pipeline_keeps in P.
  - now injection H as <- _.
  - destruct (cf_apply_processing_jobs (cx_config c1)); try (now injection H as <- _).
    destruct (cx_sms c1) as [[|s ss]|]; try (now injection H as <- _).
    destruct (cx_working c1); try (now injection H as <- _).
    eapply keeps_trans; [exact P|]. eapply loop_keeps; eauto.
Qed.

(** ** C86: no other file changes *)
Theorem C86_proof : forall cf f c' x q, run_config W cf f = (c', x) -> ~ output_path cf q ->
  cx_files c' q = f q.
Proof.
  intros cf f c' x q H N. unfold run_config in H. destruct (bind _ _) as [((pre, pro), flt)|e] in H.
  2:{ now injection H as <- _. }
  assert (N1 : cf_pprocessing_result_file cf <> Given q) by (intros E; apply N; now left).
  assert (N2 : cf_completeness_table_file cf <> Given q) by (intros E; apply N; right; now left).
  assert (N3 : cf_result_file cf <> Given q) by (intros E; apply N; right; now right).
  destruct (start W pre pro flt (init_context cf f)) as (c1, [e|]) eqn:P; apply start_keeps in P; destruct P as (P1 & P2).
  - injection H as <- _. now apply (P2 q).
  - unfold write_result in H. destruct (bind _ _) as [c2|e] eqn:B in H; injection H as <- _.
    + unbind. cbn. rewrite write_file_other; [now apply (P2 q)|]. intros ->.
      rewrite P1 in *. cbn in *. unfold lookup_file in *. destruct (cf_result_file cf); try discriminate. congruence.
    + now apply (P2 q).
Qed.

(** ** C72: the result file *)

(** The number of sources does not change while processing. *)
Definition same_count (c c' : context AR) : Prop :=
  option_map (@length _) (cx_sms c') = option_map (@length _) (cx_sms c).
Definition nameable (j : jobname) : Prop := exists n, names n j.

Lemma finish_count : forall c r c' x, (forall c1, r = Ok c1 -> same_count c c1) -> finish c r = (c', x) -> same_count c c'.
Proof. intros c [c1|e] c' x H E; cbn in E; injection E as <- _; [now apply H|reflexivity]. Qed.

Lemma update_count : forall (c c1 : context AR) g, update_cur c g = Ok c1 -> same_count c c1.
Proof.
  intros c c1 g H. unfold update_cur in H. unbind. destruct (cx_sms c) as [ss|] eqn:S1; [|discriminate].
  match goal with K : have _ (Some ss) = Ok _ |- _ => injection K as -> end.
  destruct (nth_error _ _); [|discriminate]. unbind. unfold same_count. cbn. rewrite S1. cbn. now rewrite length_set_nth.
Qed.

Lemma job_count : forall j c c' x, nameable j -> run_job W j c = (c', x) -> same_count c c'.
Proof.
  intros j c c' x (n & N) H. destruct N; cbn [run_job] in H; apply finish_count in H; auto; intros c1 R; unbind;
    try reflexivity; eapply update_count; eauto.
Qed.

Lemma steps_count : forall js c c', Forall nameable js -> steps W js c c' -> same_count c c'.
Proof.
  intros js c c' F H. induction H as [c|j js c c1 c2 R H IH]; [reflexivity|]. inversion F; subst.
  apply job_count in R; auto. unfold same_count in *. rewrite IH; auto.
Qed.

Lemma loop_done : forall f js w n i c c' ss, Forall nameable js -> cx_sms c = Some ss -> length ss = (i + n)%nat ->
  process_sources W f js w n i c = (c', None) -> sources_done W f js w i c c'.
Proof.
  intros f js w. induction n as [|n IH]; intros i c c' ss F S1 LN H; cbn [process_sources] in H.
  - injection H as <-. econstructor; eauto. lia.
  - rewrite S1 in H. destruct (nth_error ss i) as [s|] eqn:N; [|apply nth_error_None in N; lia].
    destruct (filter_eqs W f s w) as [eqs|e] eqn:Q; [|discriminate].
    destruct (pipeline_run W js _) as (c1, [e|]) eqn:P in H; [discriminate|]. apply run_steps in P.
    pose proof (steps_count _ _ _ F P) as C1. unfold same_count in C1. cbn in C1. rewrite S1 in C1. cbn in C1.
    destruct (cx_sms c1) as [ss1|] eqn:S2; [|discriminate]. injection C1 as C1.
    eapply SD_next; eauto; [now apply C73_proof|]. eapply IH; eauto. lia.
Qed.

Lemma done_loop : forall f js w i c c', sources_done W f js w i c c' -> Forall nameable js ->
  forall ss n, cx_sms c = Some ss -> length ss = (i + n)%nat -> process_sources W f js w n i c = (c', None).
Proof.
  intros f js w i c c' H F. induction H as [i c ss0 S0 L|i c c1 c2 ss0 s eqs S0 N E ST D IH]; intros ss n S1 LN.
  - rewrite S0 in S1. injection S1 as ->. assert (n = 0%nat) by lia. subst n. reflexivity.
  - rewrite S0 in S1. injection S1 as ->. destruct n as [|n].
    { assert (i < length ss)%nat by (apply nth_error_Some; congruence). lia. }
    cbn [process_sources]. rewrite S0, N. apply C73_proof in E. rewrite E.
    pose proof (steps_count _ _ _ F ST) as C1. unfold same_count in C1. cbn in C1. rewrite S0 in C1. cbn in C1.
    rewrite (steps_run _ _ _ _ ST). destruct (cx_sms c1) as [ss1|] eqn:S2; [|discriminate]. injection C1 as C1.
    apply (IH ss1); auto. lia.
Qed.

Lemma start_done : forall pre pro flt c c', Forall nameable pro ->
  start W pre pro flt c = (c', None) -> workflow_done W pre pro flt c c'.
Proof.
  intros pre pro flt c c' F H. unfold start in H. destruct (pipeline_run W pre c) as (c1, [e|]) eqn:P; [discriminate|].
  apply run_steps in P. destruct (cf_apply_processing_jobs (cx_config c1)) as [| |u] eqn:A; [discriminate| |].
  - injection H as <-. now apply WD_pre.
  - destruct (cx_sms c1) as [[|s ss]|] eqn:S1; [| |discriminate].
    + injection H as <-. eapply WD_none; eauto.
    + destruct (cx_working c1) as [w|] eqn:W1; [|discriminate]. apply (WD_pro W pre pro flt c c1 c' u w); auto.
      apply (loop_done flt pro w (length (s :: ss)) 0 c1 c' (s :: ss)); auto.
Qed.

Lemma processing_nameable : forall cf pro, processing_build (AR := AR) cf = Ok pro -> Forall nameable pro.
Proof.
  intros cf pro H. unfold processing_build in H. apply bind_ok in H. destruct H as ([|] & _ & H).
  - destruct (append_inv _ _ _ H) as [(js & F & E)|(_ & E)]; [|discriminate]. injection E as ->. cbn [app].
    clear H. induction F as [|n j l js N F IH]; constructor; auto. now exists n.
  - injection H as <-. constructor.
Qed.

Lemma names_processing : forall cf pro, processing_build (AR := AR) cf = Ok pro -> only_processing cf -> Forall processing_job pro.
Proof.
  intros cf pro H O. unfold processing_build in H. apply bind_ok in H. destruct H as ([|] & _ & H).
  - destruct (append_inv _ _ _ H) as [(js & F & E)|(_ & E)]; [|discriminate]. injection E as ->. cbn [app].
    assert (A : forall n, In n (listed (cf_processing_jobs cf)) -> n = "Recurrence"%string \/ n = "MaximumMagnitude"%string).
    { intros n I. unfold listed in I. destruct (cf_processing_jobs cf) as [| |l] eqn:Q; try contradiction. now apply (O l). }
    clear H O. induction F as [|n j l js N F IH]; constructor.
    + destruct (A n (or_introl eq_refl)) as [-> | ->]; inversion N; subst; [now left|now right].
    + apply IH. intros n' I. apply A. now right.
  - injection H as <-. constructor.
Qed.

Lemma choose_filter_for : forall cf flt, choose_filter (AR := AR) cf = Ok flt -> filter_for cf flt.
Proof.
  intros cf flt H. unfold choose_filter in H. apply bind_ok in H. destruct H as (b & T1 & H). injection H as <-.
  unfold truth in T1. unfold filter_for. destruct (cf_source_model_file cf) as [| |p]; [discriminate| |].
  - injection T1 as <-. right. split; auto. now left.
  - injection T1 as <-. destruct p as [|a p]; cbn; [right; split; auto; now right|left]. split; auto. exists (a :: p). split; auto. discriminate.
Qed.

Theorem C72_success_proof : forall cf f c', run_config W cf f = (c', None) ->
  exists pre pro flt c1 p d ss,
    preprocessing_build cf = Ok pre /\ processing_build cf = Ok pro /\ filter_for cf flt /\
    workflow_done W pre pro flt (init_context cf f) c1 /\
    cf_result_file cf = Given p /\ cx_sms c1 = Some ss /\ write_doc (w_str_float W) (w_xml_ok W) ss = Ok d /\
    cx_files c' p = Some (w_xml_print W d) /\ (forall q, q <> p -> cx_files c' q = cx_files c1 q).
Proof.
  intros cf f c' H. unfold run_config in H. destruct (bind _ _) as [((pre, pro), flt)|e] eqn:B in H; [|discriminate].
  apply bind_ok in B. destruct B as (pre' & B1 & B). apply bind_ok in B. destruct B as (pro' & B2 & B).
  apply bind_ok in B. destruct B as (flt' & B3 & B). injection B as -> -> ->.
  destruct (start W pre pro flt (init_context cf f)) as (c1, [e|]) eqn:P; [discriminate|].
  pose proof (start_keeps _ _ _ _ _ _ P) as (K & _). cbn in K.
  unfold write_result in H. destruct (bind _ _) as [c2|e] eqn:B in H; [|discriminate]. injection H as ->.
  apply bind_ok in B. destruct B as (p & L & B). unbind.
  unfold lookup_file in L. rewrite K in L. destruct (cf_result_file cf) as [| |p'] eqn:R; try discriminate. injection L as ->.
  destruct (cx_sms c1) as [ss|] eqn:S1; [|discriminate].
  match goal with X : have _ (Some ss) = Ok _ |- _ => injection X as <- end.
  exists pre, pro, flt, c1, p, x1, ss. split; auto. split; auto. split; [now apply choose_filter_for|].
  split; [apply start_done; auto; eapply processing_nameable; eauto|]. split; auto. split; auto. split; auto.
  cbn. split; [apply write_file_same|]. intros q N. apply write_file_other. auto.
Qed.

Theorem C72_failure_proof : forall cf f c' e p, run_config W cf f = (c', Some e) -> cf_result_file cf = Given p ->
  cf_pprocessing_result_file cf <> Given p -> cf_completeness_table_file cf <> Given p ->
  cx_files c' p = f p.
Proof.
  intros cf f c' e p H R N1 N2. unfold run_config in H. destruct (bind _ _) as [((pre, pro), flt)|e'] in H.
  2:{ now injection H as <- _. }
  destruct (start W pre pro flt (init_context cf f)) as (c1, [e'|]) eqn:P; apply start_keeps in P; destruct P as (P1 & P2).
  - injection H as <- _. now apply (P2 p).
  - unfold write_result in H. destruct (bind _ _) as [c2|e'] in H; [discriminate|]. injection H as <- _. now apply (P2 p).
Qed.

(** ** C87: a result file without a directory *)
Lemma bare_reverse : forall p, bare_name p -> bare_name (rev p).
Proof. intros p H I. apply H. now apply in_rev. Qed.
Lemma bare_drop : forall p, bare_name p -> drop_to_slash p = [].
Proof.
  induction p as [|a p IH]; intros H; auto. cbn [drop_to_slash]. destruct (Ascii.eqb a "/") eqn:E.
  - apply Ascii.eqb_eq in E. elim H. now left.
  - apply IH. intros I. apply H. now right.
Qed.
Lemma bare_dirname : forall p, bare_name p -> dirname p = [].
Proof. intros p H. unfold dirname. now rewrite (bare_drop _ (bare_reverse _ H)). Qed.

Theorem C87_proof : forall cf f p, cf_result_file cf = Given p -> bare_name p -> w_exists W [] = false ->
  (forall c', run_config W cf f <> (c', None)) /\
  (forall pre pro flt c1, preprocessing_build cf = Ok pre -> processing_build cf = Ok pro -> filter_for cf flt ->
     start W pre pro flt (init_context cf f) = (c1, None) -> run_config W cf f = (c1, Some IOError)).
Proof.
  intros cf f p R B X.
  assert (K : forall c1, cx_config c1 = cf -> write_result W c1 = (c1, Some IOError)).
  { intros c1 E. unfold write_result. rewrite E, R. cbn [lookup_file bind]. rewrite (bare_dirname _ B), X. reflexivity. }
  split.
  - intros c' H. unfold run_config in H. destruct (bind _ _) as [((pre, pro), flt)|e'] in H; [|discriminate].
    destruct (start W pre pro flt (init_context cf f)) as (c1, [e'|]) eqn:P; [discriminate|].
    apply start_keeps in P. destruct P as (P & _). rewrite K in H by exact P. discriminate.
  - intros pre pro flt c1 B1 B2 FF P. unfold run_config. rewrite B1, B2. cbn [bind].
    assert (C : choose_filter cf = Ok flt).
    { unfold choose_filter. destruct FF as [(S1 & ->)|(S1 & ->)]; [rewrite (truth_set _ S1)|rewrite (truth_unset _ S1)]; reflexivity. }
    rewrite C. cbn [bind]. rewrite P. apply K. apply start_keeps in P. now destruct P.
Qed.

(** ** C71: a source with no events *)

(** The first processing job of a source without events raises IndexError. *)
Lemma empty_job : forall j c, processing_job j -> cx_filtered c = Some [] -> run_job W j c = (c, Some IndexError).
Proof.
  intros j c [-> | ->] E; cbn [run_job]; unfold recurrence, maximum_magnitude; rewrite E; reflexivity.
Qed.

Theorem C71_loop_proof : forall flt j js w dn s rest dn' c,
  processing_job j ->
  cx_sms c = Some (dn ++ s :: rest) ->
  Forall2 (fun s s' => exists eqs, events_of W flt s w eqs /\ processed W (cx_config c) (cx_table c) eqs (j :: js) s s') dn dn' ->
  events_of W flt s w [] ->
  exists c', process_sources W flt (j :: js) w (length (dn ++ s :: rest)) 0 c = (c', Some IndexError) /\
    cx_sms c' = Some (dn' ++ s :: rest) /\ cx_files c' = cx_files c.
Proof.
  intros flt j js w dn s rest dn' c PJ S1 F E.
  assert (G : forall dn dn' pre c, cx_sms c = Some (pre ++ dn ++ s :: rest) ->
    Forall2 (fun s s' => exists eqs, events_of W flt s w eqs /\ processed W (cx_config c) (cx_table c) eqs (j :: js) s s') dn dn' ->
    exists c', process_sources W flt (j :: js) w (length (dn ++ s :: rest)) (length pre) c = (c', Some IndexError) /\
      cx_sms c' = Some (pre ++ dn' ++ s :: rest) /\ cx_files c' = cx_files c).
  2:{ exact (G dn dn' [] c S1 F). }
  clear c dn dn' S1 F. intros dn dn' pre c S1 F. remember (cx_config c) as cf. remember (cx_table c) as tab. revert pre c S1 Heqcf Heqtab.
  induction F as [|a a' dn dn' (eqs & EA & PA) F IH]; intros pre c S1 Heqcf Heqtab.
  - rewrite app_nil_l in *. cbn [length process_sources]. rewrite S1. rewrite nth_error_app2 by lia. rewrite Nat.sub_diag. cbn [nth_error].
    apply C73_proof in E. rewrite E. cbn [pipeline_run]. rewrite empty_job; auto.
    eexists. split; [reflexivity|]. split; auto.
  - rewrite <- app_comm_cons in *. cbn [length process_sources]. rewrite S1. rewrite nth_error_app2 by lia. rewrite Nat.sub_diag. cbn [nth_error].
    apply C73_proof in EA. rewrite EA.
    set (c0 := set_filtered (Some eqs) (set_cur (Some (length pre)) c)).
    assert (N0 : nth_error (pre ++ a :: dn ++ s :: rest) (length pre) = Some a) by (rewrite nth_error_app2 by lia; now rewrite Nat.sub_diag).
    subst cf tab.
    destruct (processing_runs W (j :: js) c0 (length pre) _ a eqs a' eq_refl S1 N0 eq_refl PA) as (c1 & R & S2 & FR).
    rewrite R. rewrite set_nth_app in S2. destruct FR as (G1 & _ & _ & _ & _ & G6 & _ & _ & G9).
    destruct (IH (pre ++ [a']) c1) as (c' & R' & S3 & F3).
    { rewrite S2, <- app_assoc. reflexivity. }
    { now rewrite G1. }
    { now rewrite G6. }
    exists c'. split; [|split].
    + assert (LP : length (pre ++ [a']) = S (length pre)) by (rewrite app_length; cbn; lia). rewrite LP in R'. exact R'.
    + rewrite S3, <- app_assoc. reflexivity.
    + rewrite F3, G9. reflexivity.
Qed.

(** The whole run: sources before the empty one are processed in memory, nothing is written. *)
Theorem C71_run_proof : forall cf f pre j js flt c1 u w dn s rest dn',
  preprocessing_build cf = Ok pre -> processing_build cf = Ok (j :: js) -> filter_for cf flt ->
  steps W pre (init_context cf f) c1 -> cf_apply_processing_jobs cf = Given u -> cx_working c1 = Some w ->
  processing_job j ->
  cx_sms c1 = Some (dn ++ s :: rest) ->
  Forall2 (fun s s' => exists eqs, events_of W flt s w eqs /\ processed W cf (cx_table c1) eqs (j :: js) s s') dn dn' ->
  events_of W flt s w [] ->
  exists c', run_config W cf f = (c', Some IndexError) /\ cx_sms c' = Some (dn' ++ s :: rest) /\ cx_files c' = cx_files c1.
Proof.
  intros cf f pre j js flt c1 u w dn s rest dn' B1 B2 FF P A W1 PJ S1 F E.
  assert (CF : cx_config c1 = cf).
  { apply steps_run, pipeline_keeps in P. now destruct P. }
  destruct (C71_loop_proof flt j js w dn s rest dn' c1 PJ S1) as (c' & R & S2 & FL); auto.
  { rewrite CF. exact F. }
  exists c'. split; auto. unfold run_config. rewrite B1, B2. cbn [bind].
  assert (C : choose_filter cf = Ok flt).
  { unfold choose_filter. destruct FF as [(S0 & ->)|(S0 & ->)]; [rewrite (truth_set _ S0)|rewrite (truth_unset _ S0)]; reflexivity. }
  rewrite C. cbn [bind]. unfold start. rewrite (steps_run _ _ _ _ P), CF, A, S1, W1.
  destruct (dn ++ s :: rest) as [|s0 ss] eqn:D; [destruct dn; discriminate|]. now rewrite R.
Qed.

(** Without processing jobs a source without events is no obstacle and keeps its values. *)
Theorem C71_no_jobs_proof : forall flt w c ss, cx_sms c = Some ss ->
  Forall (fun s => exists eqs, events_of W flt s w eqs) ss ->
  exists c', process_sources W flt [] w (length ss) 0 c = (c', None) /\ cx_sms c' = Some ss.
Proof.
  intros flt w c ss S1 F.
  destruct (loop_runs W flt [] w ss ss [] c S1) as (c' & R & S2 & _).
  - clear S1. induction F as [|s ss (eqs & E) F IH]; constructor; auto. exists eqs. split; auto. constructor.
  - exists c'. auto.
Qed.

(** ** C75: the command line *)
Variable yaml_load : text -> res (config AR).

Theorem C75_proof : forall a f,
  (main W yaml_load a f = HelpShown <-> a = NoArguments) /\
  (forall c x, main W yaml_load a f = Ran c x <->
     exists p d content cf, a = Options (Some p) d /\ f p = Some content /\ yaml_load content = Ok cf /\
       run_config W cf f = (c, x)).
Proof.
  intros a f. split.
  - split; [|intros ->; reflexivity]. destruct a as [| |[p|] d]; cbn; auto; try discriminate.
    destruct (f p) as [ct|]; [|discriminate]. destruct (yaml_load ct) as [cf|]; [|discriminate]. destruct (run_config W cf f); discriminate.
  - intros c x. split.
    + destruct a as [| |[p|] d]; cbn; try discriminate. destruct (f p) as [ct|] eqn:E; [|discriminate].
      destruct (yaml_load ct) as [cf|] eqn:Y; [|discriminate]. destruct (run_config W cf f) as (c1, x1) eqn:R.
      intros H. injection H as -> ->. exists p, d, ct, cf. auto.
    + intros (p & d & ct & cf & -> & E & Y & R). cbn. now rewrite E, Y, R.
Qed.

(** The other outcomes: a missing file is announced with the help text and ends in IOError; no
    -i is a TypeError; nothing is read or written. *)
Theorem C75_errors_proof : forall f,
  (forall p d, f p = None -> main W yaml_load (Options (Some p) d) f = Raised IOError /\ prints_help (Options (Some p) d) f = true) /\
  (forall d, main W yaml_load (Options None d) f = Raised TypeError) /\
  (forall p d content e, f p = Some content -> yaml_load content = Err e -> main W yaml_load (Options (Some p) d) f = Raised e).
Proof.
  intros f. split; [|split].
  - intros p d E. cbn. rewrite E. auto.
  - reflexivity.
  - intros p d ct e E Y. cbn. now rewrite E, Y.
Qed.

End FlowFiles.
