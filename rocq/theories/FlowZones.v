(** Runs of the same configuration with different catalogues (C114, C115). *)
From Coq Require Import ZArith Bool Ascii String List Lia.
From Verif Require Import Base Ops BaseFacts CatUtil Decluster DeclusterSpec Completeness
  PyStr PyStrProofs EqCatalog EqCatSpec EqCatProofs EqCatRow EqCatFile SourceModel Nrml World CatalogFilter
  Recurrence MaxMag Jobs Workflow Main FlowSpec FlowPipe FlowFiles FlowPre FlowInterfere ZoneSpec.
From Coq Require Import List.
Import ListNotations.
Local Open Scope nat_scope.
Local Open Scope res_scope.

Ltac unb2 := repeat match goal with
  | H : bind _ _ = Ok _ |- _ => apply bind_ok in H; destruct H as (? & ? & H)
  | H : Ok _ = Ok _ |- _ => injection H as <-
  | p : (_ * _)%type |- _ => destruct p
  end.

Section Zones.
Context {AR : Ops}.
Variable W : world AR.

Lemma steps_config : forall js a b, steps W js a b -> cx_config b = cx_config a.
Proof. intros js a b ST. induction ST as [|j js a b b3 R0 ST IH]; auto. pose proof (job_keeps W _ _ _ _ R0) as (KC & _). congruence. Qed.

Lemma steps_one : forall j a b, steps W [j] a b -> run_job W j a = (b, None).
Proof. intros j a b H. inversion H as [|? ? ? x ? R0 H']; subst. inversion H'; subst. exact R0. Qed.
Lemma steps_none : forall a b, steps W [] a b -> b = a.
Proof. intros a b H. now inversion H. Qed.

(** After preprocessing with the same sources and table and catalogues that give every source
    the same events, the rest of the run is the same. *)
Lemma rest_follows : forall cf f1 f2 pre d1 d2 flt (K : text -> Prop) c1, only_processing cf ->
  preprocessing_build cf = Ok pre -> choose_filter cf = Ok flt ->
  steps W pre (init_context cf f1) d1 -> steps W pre (init_context cf f2) d2 ->
  cx_sms d2 = cx_sms d1 -> cx_table d2 = cx_table d1 ->
  (forall ss w1, cx_sms d1 = Some ss -> cx_working d1 = Some w1 -> exists w2, cx_working d2 = Some w2 /\
     forall s eqs, In s ss -> events_of W flt s w1 eqs -> events_of W flt s w2 eqs) ->
  (forall q, ~ K q -> cx_files d2 q = cx_files d1 q) ->
  run_config W cf f1 = (c1, None) ->
  exists c2, run_config W cf f2 = (c2, None) /\ cx_sms c2 = cx_sms c1 /\
    forall q, ~ K q \/ cf_result_file cf = Given q -> cx_files c2 q = cx_files c1 q.
Proof.
  intros cf f1 f2 pre d1 d2 flt K c1 OP B1 B3 S1 S2 ES ET EW EF H.
  unfold run_config in H |- *. rewrite B1, B3 in *. cbn [bind] in H |- *. destruct (processing_build cf) as [pro|e] eqn:B2; [|discriminate]. cbn [bind] in H |- *.
  destruct (start W pre pro flt (init_context cf f1)) as (a1, [e|]) eqn:P1; [discriminate|].
  pose proof (names_processing _ _ B2 OP) as PJ.
  destruct (C65_proof W pre pro flt _ _ PJ P1) as (d1' & S1' & ALT). rewrite (steps_det W _ _ _ _ S1' S1) in *. clear d1' S1'.
  pose proof (steps_config _ _ _ S1) as C1. pose proof (steps_config _ _ _ S2) as C2. cbn in C1, C2.
  assert (ST2 : exists a2, start W pre pro flt (init_context cf f2) = (a2, None) /\ cx_sms a2 = cx_sms a1 /\ cx_config a2 = cf /\ cx_config a1 = cf /\ cx_files a1 = cx_files d1 /\ cx_files a2 = cx_files d2).
  { unfold start. rewrite (steps_run W _ _ _ S2), C2. destruct ALT as [(N & ->)|(u & ss & w & ss' & G & SS & WK & SS' & OS & F)].
    - rewrite C1 in N. rewrite N. exists d2. auto 10.
    - rewrite C1 in G, F. rewrite G, ES, SS. destruct OS as (O1 & _ & _ & _ & _ & _ & O7). destruct ss as [|z ss].
      + inversion F; subst. exists d2. rewrite ES, SS'. repeat split; congruence.
      + specialize (WK ltac:(discriminate)). destruct (EW _ _ SS WK) as (w2 & W2 & EV). rewrite W2.
        destruct (loop_runs W flt pro w2 (z :: ss) ss' [] d2) as (a2 & RN & SA & OS2).
        { cbn. congruence. }
        { rewrite C2, ET. clear - F EV. revert EV. induction F as [|s s' l l' (eqs & E & P & _) F IH]; intros EV; constructor.
          - exists eqs. split; auto. apply EV; auto. now left.
          - apply IH. intros s0 e0 I. apply EV. now right. }
        cbn [length] in RN. exists a2. destruct OS2 as (Q1 & _ & _ & _ & _ & _ & Q7). split; [exact RN|]. split; [cbn in SA; congruence|]. repeat split; congruence. }
  destruct ST2 as (a2 & ST & SA & CA & CA1 & FA1 & FA2). rewrite ST.
  unfold write_result in H |- *. apply finish_ok in H. rewrite CA, SA. rewrite CA1 in H.
  apply bind_ok in H. destruct H as (p & LP & H). apply bind_ok in H. destruct H as (u1 & EX & H).
  apply bind_ok in H. destruct H as (ss1 & SS1 & H). apply bind_ok in H. destruct H as (d & WD & H). apply bind_ok in H. destruct H as (u2 & CW & H).
  assert (EC : c1 = set_files (write_file p (w_xml_print W d) (cx_files a1)) a1) by congruence. clear H.
  rewrite LP. cbn [bind]. rewrite EX. cbn [bind]. rewrite SS1. cbn [bind]. rewrite WD. cbn [bind]. rewrite CW. cbn [bind finish].
  eexists. split; [reflexivity|]. rewrite EC. cbn [cx_files cx_sms set_files]. split; [exact SA|].
  intros q Q. unfold write_file. destruct (text_eqb p q) eqn:E; auto. destruct Q as [Q|Q].
  - rewrite FA1, FA2. auto.
  - exfalso. rewrite Q in LP. cbn in LP. assert (p = q) by congruence. subst q. assert (X : text_eqb p p = true) by (now apply text_eqb_eq). congruence.
Qed.

(** ** C114 *)

Lemma outside_filter : forall {A : Type} (inside : A -> Prop) (p : A -> bool) l l', (forall a, p a = true -> inside a) ->
  differ_outside inside l l' -> filter p l = filter p l'.
Proof.
  intros A inside p l l' I D. induction D as [|a l l' D IH|a l l' N D IH|a l l' N D IH]; cbn; auto.
  - now rewrite IH.
  - destruct (p a) eqn:E; auto. destruct (N (I a E)).
  - destruct (p a) eqn:E; auto. destruct (N (I a E)).
Qed.

Lemma minv_some : forall l : list T, l <> [] -> exists x, minv l = Ok x.
Proof. intros [|x l] N; [contradiction|]. cbn. eauto. Qed.

Lemma base_runs : forall cf f es m ss, catalogue_read W cf f es -> mapM matrix_row es = Ok m -> m <> [] -> sources_read W cf f ss -> ss <> [] ->
  exists c y0 m0, steps W [J_read_eq_catalog; J_read_source_model; J_create_catalog_matrix; J_create_default_values] (init_context cf f) c /\
    minv (map ev_year m) = Ok y0 /\ minv (map ev_mw m) = Ok m0 /\
    cx_sms c = Some ss /\ cx_working c = Some m /\ cx_table c = Some [(y0, m0)] /\ cx_config c = cf /\ cx_files c = f.
Proof.
  intros cf f es m ss (p & ct & C1 & C2 & C3) MR NM (q & xt & d & X1 & X2 & X3 & X4 & X5) NS.
  assert (Y : exists y0, minv (map ev_year m) = Ok y0) by (apply minv_some; destruct m; [contradiction|discriminate]).
  assert (Z : exists m0, minv (map ev_mw m) = Ok m0) by (apply minv_some; destruct m; [contradiction|discriminate]).
  destruct Y as (y0 & MY). destruct Z as (m0 & MM).
  eexists. exists y0, m0. split.
  { econstructor; [cbn [run_job]; unfold read_eq_catalog_job; cbn [cx_config init_context cx_files]; rewrite C1; cbn [lookup_file bind]; unfold open_read; rewrite C2; cbn [bind]; rewrite C3; cbn [bind finish]; reflexivity|].
    econstructor; [cbn [run_job]; unfold read_source_model; cbn [cx_config init_context cx_files set_eq_catalog]; rewrite X1; cbn [lookup_file bind]; unfold open_read; rewrite X3; rewrite X4, X5; destruct ss; [contradiction|]; cbn; reflexivity|].
    econstructor; [cbn [run_job]; unfold create_catalog_matrix; cbn [cx_eq_catalog set_sms set_eq_catalog have bind]; rewrite MR; cbn [bind finish]; reflexivity|].
    econstructor; [|constructor]. cbn [run_job]. unfold create_default_values. cbn [cx_working set_working]. 
    replace (columns m) with (Ok m) by (destruct m; [contradiction|reflexivity]). cbn [bind]. rewrite MY. cbn [bind]. rewrite MM. cbn [bind finish]. reflexivity. }
  cbn. auto 10.
Qed.

Theorem C114_proof : forall cf f1 f2 cat ss es1 es2 m1 m2 c1, only_processing cf -> jobs_unset (cf_preprocessing_jobs cf) ->
  cf_eq_catalog_file cf = Given cat -> cf_source_model_file cf <> Given cat -> cf_completeness_table_file cf <> Given cat ->
  (forall q, q <> cat -> f2 q = f1 q) -> sources_read W cf f1 ss ->
  catalogue_read W cf f1 es1 -> mapM matrix_row es1 = Ok m1 -> catalogue_read W cf f2 es2 -> mapM matrix_row es2 = Ok m2 -> m2 <> [] ->
  differ_outside (in_some_zone W ss) m1 m2 ->
  (file_set (cf_completeness_table_file cf) \/ (minv (map ev_year m2) = minv (map ev_year m1) /\ minv (map ev_mw m2) = minv (map ev_mw m1))) ->
  run_config W cf f1 = (c1, None) ->
  exists c2, run_config W cf f2 = (c2, None) /\ cx_sms c2 = cx_sms c1 /\
    forall q, q <> cat \/ cf_result_file cf = Given q -> cx_files c2 q = cx_files c1 q.
Proof.
  intros cf f1 f2 cat ss es1 es2 m1 m2 c1 OP JU CA NS NT EF SR CR1 MR1 CR2 MR2 NE2 DO TB H.
  assert (PB : exists pre flt d1, preprocessing_build cf = Ok pre /\ choose_filter cf = Ok flt /\ steps W pre (init_context cf f1) d1).
  { pose proof H as H0. unfold run_config in H0. destruct (preprocessing_build cf) as [pre|] eqn:B1; [|discriminate]. cbn [bind] in H0.
    destruct (processing_build cf) as [pro|] eqn:B2; [|discriminate]. cbn [bind] in H0. destruct (choose_filter cf) as [flt|] eqn:B3; [|discriminate]. cbn [bind] in H0.
    destruct (start W pre pro flt (init_context cf f1)) as (a1, [e|]) eqn:P1; [discriminate|].
    unfold start in P1. destruct (pipeline_run W pre (init_context cf f1)) as (d1, [e|]) eqn:P; [discriminate|]. exists pre, flt, d1. split; auto. split; auto. now apply run_steps. }
  destruct PB as (pre & flt & d1 & B1 & B3 & S1).
  assert (FS : file_set (cf_source_model_file cf)) by (destruct SR as (p & _ & _ & X & Y & _); exists p; auto).
  assert (flt = SourceModelCatalogFilter) as -> by (unfold choose_filter in B3; rewrite (truth_set _ FS) in B3; cbn in B3; congruence).
  assert (NSS : ss <> []).
  { intros ->. destruct (build_shape cf pre B1) as (sj & js & tail & SJ & E & _). subst pre.
    inversion SJ as [v X Y|v X Y]; subst v sj; [|exfalso; destruct FS as (p & A & B); destruct X as [X|X]; congruence].
    apply steps_split in S1. destruct S1 as (c & S & _). inversion S as [|? ? ? x ? R1 S']; subst. inversion S' as [|? ? ? y ? R2 S'']; subst.
    cbn [run_job] in R1. apply finish_ok in R1. unb2. cbn [run_job] in R2. unfold read_source_model in R2. destruct SR as (p & xt & d & X1 & X2 & X3 & X4 & X5).
    cbn [cx_config init_context cx_files set_eq_catalog] in R2. rewrite X1 in R2. cbn [lookup_file bind] in R2. unfold open_read in R2. rewrite X3, X4, X5 in R2. discriminate. }
  assert (SR2 : sources_read W cf f2 ss).
  { destruct SR as (p & xt & d & X1 & X2 & X3 & X4). exists p, xt, d. rewrite EF by congruence. auto. }
  destruct (base_runs cf f2 es2 m2 ss CR2 MR2 NE2 SR2 NSS) as (b2 & y2 & k2 & BS2 & MY2 & MM2 & BM2 & BW2 & BT2 & BC2 & BF2).
  destruct (build_shape cf pre B1) as (sj & js & tail & SJ & E & FN & ALT).
  assert (sj = J_read_source_model) as -> by (inversion SJ as [v X Y|v X Y]; auto; exfalso; destruct FS as (p & A & B); destruct X as [X|X]; congruence).
  assert (js = []) as -> by (destruct JU as [J|J]; rewrite J in FN; cbn in FN; inversion FN; auto).
  pose proof S1 as S1'. rewrite E in S1'. apply steps_split in S1'. destruct S1' as (b1 & BS1 & TS1). 
  destruct (base_state W cf f1 _ b1 SJ BS1) as (e1' & m1' & y1 & k1 & CR1' & _ & MR1' & NE1 & BX1 & BW1 & _ & MY1 & MM1 & BT1 & BC1 & _ & _ & BF1).
  assert (e1' = es1) as ->. { destruct CR1 as (p & ct & A1 & A2 & A3). destruct CR1' as (p' & ct' & A1' & A2' & A3'). congruence. }
  assert (m1' = m1) as -> by congruence.
  assert (BM1 : cx_sms b1 = Some ss).
  { destruct (base_runs cf f1 es1 m1 ss CR1 MR1 NE1 SR NSS) as (b & ? & ? & BS & _ & _ & BM & _). now rewrite (steps_det W _ _ _ _ BS1 BS). }
  assert (T2 : exists d2, steps W tail b2 d2 /\ cx_sms d2 = cx_sms d1 /\ cx_table d2 = cx_table d1 /\ cx_working d2 = Some m2 /\ cx_working d1 = Some m1 /\ cx_files d1 = f1 /\ cx_files d2 = f2 /\ cx_sms d1 = Some ss).
  { cbn [app] in TS1. destruct ALT as [(l & (A & B) & _)|(_ & [(FT & ->)|(FU & ->)])].
    - exfalso. destruct JU as [J|J]; congruence.
    - pose proof (steps_one _ _ _ TS1) as R1. cbn [run_job] in R1. apply finish_ok in R1. unb2.
      rewrite BC1 in *. match goal with L : lookup_file _ _ = Ok _ |- _ => pose proof (lookup_given _ _ _ L) end.
      eexists. split.
      { econstructor; [|constructor]. cbn [run_job]. unfold retrieve_completeness_table. rewrite BC2.
        match goal with L : lookup_file _ _ = Ok _ |- _ => rewrite L end. cbn [bind].
        rewrite (open_agree cat (cx_files b1) (cx_files b2)); [|rewrite BF1, BF2; auto|congruence].
        repeat match goal with L : _ = Ok _ |- context [bind ?r _] => rewrite L; cbn [bind] end. cbn [finish]. reflexivity. }
      cbn. repeat split; try congruence; auto.
    - rewrite (steps_none _ _ TS1). exists b2. split; [constructor|]. rewrite BM1, BM2, BT1, BT2, BW1, BW2. repeat split; auto.
      destruct TB as [(p & A & B)|(TY & TM)]; [destruct FU; congruence|]. congruence. }
  destruct T2 as (d2 & ST2 & E1 & E2 & E3 & E4 & E5 & E6 & E7).
  assert (S2 : steps W pre (init_context cf f2) d2).
  { rewrite E. apply steps_app. exists b2. auto. }
  destruct (rest_follows cf f1 f2 pre d1 d2 _ (fun q => q = cat) c1 OP B1 B3 S1 S2 E1 E2) as (c2 & R2 & RS & RF); auto.
  - intros l w1 A B. exists m2. split; auto. assert (l = ss) as -> by congruence. assert (w1 = m1) as -> by congruence.
    intros s eqs I EV. inversion EV; subst. constructor; auto.
    match goal with P : picks _ m1 eqs |- _ => rename P into PK end.
    pose proof (picks_filter (fun e => w_contains W (ab_pos (as_boundary s)) (ev_lon e) (ev_lat e)) m1) as P1.
    rewrite (picks_unique _ _ _ _ PK P1). rewrite (outside_filter (in_some_zone W ss) _ m1 m2); [apply picks_filter| |exact DO].
    intros a C. exists s. auto.
  - intros q N. rewrite E5, E6. auto.
  - exists c2. auto.
Qed.

(** ** C115 *)

Lemma item_find : forall f (a b : entry AR),
  map snd (filter (fun kv => key_eqb (Some f) (fst kv)) a) = map snd (filter (fun kv => key_eqb (Some f) (fst kv)) b) ->
  entry_item f a = entry_item f b.
Proof.
  intros f a b E. assert (X : forall e : entry AR, entry_item f e = match map snd (filter (fun kv => key_eqb (Some f) (fst kv)) e) with v :: _ => Ok v | [] => Err KeyError end).
  { induction e as [|kv e IH]; auto. unfold entry_item in *. cbn [find filter]. destruct (key_eqb (Some f) (fst kv)); auto. }
  now rewrite !X, E.
Qed.

Lemma same_row : forall a b : entry AR, same_used a b -> matrix_row a = matrix_row b.
Proof.
  intros a b S. unfold matrix_row.
  rewrite (item_find "year" a b), (item_find "month" a b), (item_find "day" a b), (item_find "longitude" a b), (item_find "latitude" a b), (item_find "Mw" a b), (item_find "sigmaMw" a b);
    auto; apply S; cbn; auto 10.
Qed.

Lemma same_rows : forall es1 es2 : list (entry AR), Forall2 same_used es1 es2 -> mapM matrix_row es1 = mapM matrix_row es2.
Proof. intros es1 es2 F. induction F as [|a b l l' S F IH]; auto. cbn [mapM]. now rewrite (same_row _ _ S), IH. Qed.

Lemma entries_at_ok : forall (es1 es2 : list (entry AR)) idx l, length es1 = length es2 -> entries_at es1 idx = Ok l ->
  exists l', entries_at es2 idx = Ok l' /\ incl l' es2.
Proof.
  intros es1 es2 idx. induction idx as [|i idx IH]; intros l LN H.
  - exists []. split; auto. intros x [].
  - unfold entries_at in *. cbn [mapM] in H |- *. apply bind_ok in H. destruct H as (x & X & H). apply bind_ok in H. destruct H as (y & Y & H).
    destruct (IH y LN Y) as (l' & E & I). destruct (nth_error es1 i) as [u|] eqn:N; [|discriminate].
    assert (i < length es2) by (rewrite <- LN; apply nth_error_Some; congruence). destruct (nth_error es2 i) as [v|] eqn:N2; [|apply nth_error_None in N2; lia].
    cbn [bind]. rewrite E. cbn [bind]. exists (v :: l'). split; auto. intros z [<-|Z]; auto. eapply nth_error_In; eauto.
Qed.

Section Entries.
Variables (cf : config AR) (cat : text) (es1 es2 : list (entry AR)).
Hypothesis SAME : Forall2 same_used es1 es2.
Hypothesis WROK : forall l, incl l es2 -> exists out, write_rows (w_repr_float W) l = Ok out.
Hypothesis NSM : cf_source_model_file cf <> Given cat.
Hypothesis NTB : cf_completeness_table_file cf <> Given cat.
Hypothesis NPP : forall q, cf_completeness_table_file cf = Given q -> cf_pprocessing_result_file cf <> Given q.

Definition other_file (q : text) : Prop := q = cat \/ cf_pprocessing_result_file cf = Given q.

(** The same context but for the entries and the two files. *)
Definition other_entries (c d : context AR) : Prop :=
  exists fd, d = set_files fd (set_eq_catalog (Some es2) c) /\ cx_eq_catalog c = Some es1 /\ cx_config c = cf /\
    (forall q, ~ other_file q -> fd q = cx_files c q).

Lemma write_both : forall p x (f g : files), (forall q, ~ other_file q -> g q = f q) ->
  forall q, ~ other_file q -> write_file p x g q = write_file p x f q.
Proof. intros p x f g H q N. unfold write_file. destruct (text_eqb p q); auto. Qed.

Lemma open_both : forall (f g : files) p, (forall q, ~ other_file q -> g q = f q) -> ~ other_file p -> open_read g p = open_read f p.
Proof. intros f g p H N. unfold open_read. now rewrite H. Qed.

Ltac useall := repeat match goal with L : ?r = Ok _ |- context [bind ?r _] => rewrite L; cbn [bind] end.

(** In every job but the two that read or write them, the entries are not used. *)
Lemma job_entries : forall j c d c', j <> J_read_eq_catalog -> 
  other_entries c d -> run_job W j c = (c', None) -> (j = J_read_source_model -> cx_files c = cx_files c /\ forall q, q <> cat -> cx_files d q = cx_files c q) ->
  exists d', run_job W j d = (d', None) /\ other_entries c' d' /\ (j = J_read_source_model -> True).
Proof.
  intros j c d c' NJ (fd & -> & EC & CF & FF) H SMF. unfold other_entries.
  destruct j; try contradiction; cbn [run_job] in H |- *.
  - (* source model *) destruct (SMF eq_refl) as (_ & SF). cbn [cx_files set_files] in SF. unfold read_source_model in H |- *. cbn [cx_config set_files set_eq_catalog cx_files].
    destruct (lookup_file TypeError (cf_source_model_file (cx_config c))) as [p|] eqn:LP; [|discriminate]. cbn [bind] in H |- *.
    pose proof (lookup_given _ _ _ LP). assert (p <> cat) by congruence. unfold open_read in H |- *. rewrite SF by auto.
    destruct (cx_files c p) as [ct|]; [|discriminate]. destruct (w_xml_parse W ct) as [dd|]; [|discriminate]. destruct (read_doc (w_parse_float W) dd) as (ss, x).
    destruct x as [e|]; [discriminate|]. destruct ss as [|s0 ss]; cbn [cx_sms set_files set_eq_catalog set_sms] in H |- *.
    + destruct (cx_sms c) eqn:S; [|discriminate]. injection H as <-. eexists. split; [reflexivity|]. split; auto. exists fd. auto.
    + injection H as <-. eexists. split; [reflexivity|]. split; auto. exists fd. auto.
  - injection H as <-. eexists. split; [reflexivity|]. split; auto. exists fd. auto.
  - (* matrix *) apply finish_ok in H. unb2. rewrite EC in *. unfold create_catalog_matrix. cbn [cx_eq_catalog set_files set_eq_catalog have bind].
    match goal with L : have _ _ = Ok _ |- _ => injection L as <- end. rewrite <- (same_rows _ _ SAME). useall. cbn [finish].
    eexists. split; [reflexivity|]. split; auto. exists fd. auto.
  - unfold create_default_values in *. cbn [cx_working set_files set_eq_catalog]. destruct (cx_working c) as [w|]; [|discriminate]. apply finish_ok in H. unb2. useall. cbn [finish].
    eexists. split; [reflexivity|]. split; auto. exists fd. auto.
  - apply finish_ok in H. unb2. unfold gardner_knopoff. cbn [cx_working cx_config set_files set_eq_catalog]. useall. cbn [finish].
    eexists. split; [reflexivity|]. split; auto. exists fd. auto.
  - apply finish_ok in H. unb2. unfold afteran. cbn [cx_matrix cx_config set_files set_eq_catalog]. useall. cbn [finish].
    eexists. split; [reflexivity|]. split; auto. exists fd. auto.
  - apply finish_ok in H. unb2. unfold stepp. cbn [cx_working cx_config set_files set_eq_catalog]. useall. cbn [finish].
    eexists. split; [reflexivity|]. split; auto. exists fd. auto.
  - apply finish_ok in H. unb2. unfold recurrence. cbn [cx_filtered cx_table cx_config set_files set_eq_catalog]. useall.
    unfold update_cur in H |- *. cbn [cx_cur cx_sms set_files set_eq_catalog]. destruct (cx_cur c) as [i|]; [|discriminate]. cbn [have bind] in H |- *. destruct (cx_sms c) as [ss|]; [|discriminate].
    cbn [have bind] in H |- *. destruct (nth_error ss i) as [s|]; [|discriminate]. injection H as <-. cbn [finish].
    eexists. split; [reflexivity|]. split; auto. exists fd. auto.
  - apply finish_ok in H. unb2. unfold create_selected_eq_vector. cbn [cx_matrix cx_table cx_flag set_files set_eq_catalog]. useall. cbn [finish].
    eexists. split; [reflexivity|]. split; auto. exists fd. auto.
  - (* store *) apply finish_ok in H. unb2. rewrite EC in *. match goal with L : have _ (Some es1) = Ok _ |- _ => injection L as <- end.
    unfold store_preprocessed_catalog. cbn [cx_config cx_selected cx_eq_catalog cx_matrix cx_files set_files set_eq_catalog].
    assert (LEN : length es1 = length es2) by (clear - SAME; induction SAME; cbn; auto).
    match goal with L : entries_at es1 _ = Ok _ |- _ => destruct (entries_at_ok es1 es2 _ _ LEN L) as (l' & EL & IL) end.
    destruct (WROK l' IL) as (out & WO). useall. cbn [have bind]. rewrite EL. cbn [bind]. useall. cbn [finish].
    match goal with L : lookup_file _ _ = Ok _ |- _ => pose proof (lookup_given _ _ _ L) as LG end.
    eexists. split; [reflexivity|]. split; auto. eexists. split; [reflexivity|]. split; [exact EC|]. split; [exact CF|].
    intros q N. cbn [cx_files set_files]. unfold write_file. match goal with |- context [text_eqb ?p q] => destruct (text_eqb p q) eqn:E; [|auto] end.
    apply text_eqb_eq in E. subst q. exfalso. apply N. right. congruence.
  - apply finish_ok in H. unb2. unfold store_completeness_table. cbn [cx_config cx_table cx_files set_files set_eq_catalog]. useall. cbn [finish].
    eexists. split; [reflexivity|]. split; auto. eexists. split; [reflexivity|]. split; [exact EC|]. split; [exact CF|]. cbn [cx_files set_files]. apply write_both. exact FF.
  - apply finish_ok in H. unb2. unfold retrieve_completeness_table. cbn [cx_config cx_files set_files set_eq_catalog].
    match goal with L : lookup_file _ _ = Ok ?p |- _ => pose proof (lookup_given _ _ _ L) as LG end. useall.
    rewrite (open_both (cx_files c) fd); [|exact FF|].
    2:{ rewrite CF in LG. intros [->|P]; [congruence|]. now apply (NPP _ LG). }
    useall. cbn [finish]. eexists. split; [reflexivity|]. split; auto. exists fd. auto.
  - apply finish_ok in H. unb2. unfold maximum_magnitude. cbn [cx_filtered cx_config set_files set_eq_catalog]. useall.
    unfold update_cur in H |- *. cbn [cx_cur cx_sms set_files set_eq_catalog]. destruct (cx_cur c) as [i|]; [|discriminate]. cbn [have bind] in H |- *. destruct (cx_sms c) as [ss|]; [|discriminate].
    cbn [have bind] in H |- *. destruct (nth_error ss i) as [s|]; [|discriminate]. injection H as <-. cbn [finish].
    eexists. split; [reflexivity|]. split; auto. exists fd. auto.
Qed.

Lemma steps_entries : forall js c d c', ~ In J_read_eq_catalog js -> ~ In J_read_source_model js -> other_entries c d -> steps W js c c' ->
  exists d', steps W js d d' /\ other_entries c' d'.
Proof.
  intros js c d c' N1 N2 O S. revert d O. induction S as [c|j js c c1 c2 R1 S IH]; intros d O.
  - exists d. split; auto. constructor.
  - destruct (job_entries j c d c1) as (d1 & R2 & O1 & _); auto.
    + intros ->. apply N1. now left.
    + intros ->. exfalso. apply N2. now left.
    + destruct (IH ltac:(intros X; apply N1; now right) ltac:(intros X; apply N2; now right) d1 O1) as (d2 & S2 & O2). exists d2. split; auto. econstructor; eauto.
Qed.

End Entries.

Lemma entries_writable : rearranges (w_dict_order W) -> forall cf f es, catalogue_read W cf f es ->
  forall l, incl l es -> exists out, write_rows (w_repr_float W) l = Ok out.
Proof.
  intros RO cf f es (p & ct & _ & _ & RD) l I.
  destruct (C06_all_proof (w_parse_float W) (w_now_year W) (w_dict_order W) ct es RD) as (_ & rows & _ & F).
  assert (PB : forall e, In e es -> exists line row, read_entry (w_parse_float W) (w_now_year W) (w_dict_order W) line row = Ok e).
  { clear - F. induction F as [|ir e irs es H F IH]; intros x X; [destruct X|]. destruct X as [<-|X]; eauto. }
  assert (M : exists rows, mapM (dict_row (w_repr_float W)) l = Ok rows).
  { clear F RD. induction l as [|e l IH]; [eexists; reflexivity|]. destruct IH as (rs & E); [intros x X; apply I; now right|].
    destruct (PB e) as (line & row & RE); [apply I; now left|]. cbn [mapM].
    assert (D : exists r, dict_row (w_repr_float W) e = Ok r).
    { destruct (C04_proof (w_parse_float W) (w_now_year W) (w_dict_order W) line row e RO (accepted_length _ _ _ _ _ _ RO RE) RE) as (KY & _).
      unfold dict_row. rewrite KY. destruct (order_facts (w_dict_order W) RO) as (N & C & _).
      assert (FB : forallb (fun k => match k with Some f => mem f FIELDNAMES | None => false end) (w_dict_order W (map Some EqCatSpec.columns)) = true).
      { apply forallb_forall. intros k Hk. destruct (C k Hk) as (g & -> & Hg). now apply mem_in. }
      rewrite FB. eauto. }
    destruct D as (r & D). rewrite D. cbn [bind]. rewrite E. cbn [bind]. eauto. }
  destruct M as (rs & M). unfold write_rows. rewrite M. cbn [bind]. eauto.
Qed.

Theorem C115_proof : rearranges (w_dict_order W) -> forall cf f1 f2 cat es1 es2 c1, only_processing cf ->
  cf_eq_catalog_file cf = Given cat -> cf_source_model_file cf <> Given cat -> cf_completeness_table_file cf <> Given cat ->
  (forall q, cf_completeness_table_file cf = Given q -> cf_pprocessing_result_file cf <> Given q) ->
  (forall q, q <> cat -> f2 q = f1 q) -> catalogue_read W cf f1 es1 -> catalogue_read W cf f2 es2 -> Forall2 same_used es1 es2 ->
  run_config W cf f1 = (c1, None) ->
  exists c2, run_config W cf f2 = (c2, None) /\ cx_sms c2 = cx_sms c1 /\
    forall q, (q <> cat /\ cf_pprocessing_result_file cf <> Given q) \/ cf_result_file cf = Given q -> cx_files c2 q = cx_files c1 q.
Proof.
  intros RO cf f1 f2 cat es1 es2 c1 OP CA NS NT NP EF CR1 CR2 SU H.
  assert (PB : exists pre flt d1, preprocessing_build cf = Ok pre /\ choose_filter cf = Ok flt /\ steps W pre (init_context cf f1) d1).
  { pose proof H as H0. unfold run_config in H0. destruct (preprocessing_build cf) as [pre|] eqn:B1; [|discriminate]. cbn [bind] in H0.
    destruct (processing_build cf) as [pro|] eqn:B2; [|discriminate]. cbn [bind] in H0. destruct (choose_filter cf) as [flt|] eqn:B3; [|discriminate]. cbn [bind] in H0.
    destruct (start W pre pro flt (init_context cf f1)) as (a1, [e|]) eqn:P1; [discriminate|].
    unfold start in P1. destruct (pipeline_run W pre (init_context cf f1)) as (d1, [e|]) eqn:P; [discriminate|]. exists pre, flt, d1. split; auto. split; auto. now apply run_steps. }
  destruct PB as (pre & flt & d1 & B1 & B3 & S1).
  destruct (build_shape cf pre B1) as (sj & js & tail & SJ & E & FN & ALT).
  pose proof S1 as S1'. rewrite E in S1'. cbn [app] in S1'. inversion S1' as [|? ? ? b1 ? R1 S1b]; subst j js0 c c2. inversion S1b as [|? ? ? b2 ? R2 S1c]; subst j js0 c c2.
  pose proof (entries_writable RO cf f2 es2 CR2) as WO.
  set (x1 := set_eq_catalog (Some es1) (init_context cf f1)). set (x2 := set_eq_catalog (Some es2) (init_context cf f2)).
  assert (J : forall f es, catalogue_read W cf f es -> run_job W J_read_eq_catalog (init_context cf f) = (set_eq_catalog (Some es) (init_context cf f), None)).
  { intros f es (p & ct & A1 & A2 & A3). cbn [run_job]. unfold read_eq_catalog_job. cbn [cx_config init_context cx_files]. rewrite A1. cbn [lookup_file bind]. unfold open_read. rewrite A2. cbn [bind]. rewrite A3. reflexivity. }
  rewrite (J f1 es1 CR1) in R1. assert (b1 = x1) as -> by (unfold x1; congruence).
  assert (O1 : other_entries cf cat es1 es2 x1 x2).
  { exists f2. split; [reflexivity|]. split; [reflexivity|]. split; [reflexivity|]. intros q N. apply EF. intros ->. apply N. now left. }
  assert (S2 : exists y2, run_job W sj x2 = (y2, None) /\ other_entries cf cat es1 es2 b2 y2).
  { destruct (job_entries cf cat es1 es2 SU WO NS NT NP sj x1 x2 b2) as (y2 & A & B & _); eauto.
    inversion SJ; subst; discriminate. }
  destruct S2 as (y2 & R2' & O2).
  destruct (steps_entries cf cat es1 es2 SU WO NS NT NP (J_create_catalog_matrix :: J_create_default_values :: js ++ tail) b2 y2 d1) as (d2 & S2 & O3); [| |exact O2|exact S1c|].
  { intros I. cbn [In] in I. destruct I as [I|[I|I]]; try discriminate. apply in_app_or in I. destruct I as [I|I].
    - pose proof (names_nameable _ _ FN) as NN. rewrite Forall_forall in NN. destruct (NN _ I) as (n & X). inversion X.
    - destruct ALT as [(l & _ & [(_ & ->)|(_ & ->)])|(_ & [(_ & ->)|(_ & ->)])]; cbn in I; intuition discriminate. }
  { intros I. cbn [In] in I. destruct I as [I|[I|I]]; try discriminate. apply in_app_or in I. destruct I as [I|I].
    - pose proof (names_nameable _ _ FN) as NN. rewrite Forall_forall in NN. destruct (NN _ I) as (n & X). inversion X.
    - destruct ALT as [(l & _ & [(_ & ->)|(_ & ->)])|(_ & [(_ & ->)|(_ & ->)])]; cbn in I; intuition discriminate. }
  assert (T2 : steps W pre (init_context cf f2) d2).
  { rewrite E. cbn [app]. econstructor; [exact (J f2 es2 CR2)|]. econstructor; [exact R2'|]. exact S2. }
  destruct O3 as (fd & -> & EC & CF & FF).
  destruct (rest_follows cf f1 f2 pre d1 _ flt (other_file cf cat) c1 OP B1 B3 S1 T2) as (c2 & RR & RS & RF); auto.
  - intros ss w1 A B. exists w1. auto.
  - exists c2. split; auto. split; auto. intros q [(Q1 & Q2)|Q]; apply RF; [left|now right]. intros [X|X]; contradiction.
Qed.

End Zones.
