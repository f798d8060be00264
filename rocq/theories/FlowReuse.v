(** The result of a run as the source model of the same run (C113). *)
From Coq Require Import ZArith Bool Ascii String List Lia.
From Verif Require Import Base Ops BaseFacts CatUtil Decluster DeclusterSpec Completeness
  PyStr PyStrProofs EqCatalog EqCatSpec SourceModel Nrml NrmlSpec NrmlRead NrmlRound NrmlFinal World CatalogFilter
  Recurrence MaxMag Jobs Workflow Main FlowSpec FlowPipe FlowFiles FlowPre FlowInterfere ReuseSpec.
From Coq Require Import List.
Import ListNotations.
Local Open Scope nat_scope.
Local Open Scope res_scope.

Ltac unb2 := repeat match goal with
  | H : bind _ _ = Ok _ |- _ => apply bind_ok in H; destruct H as (? & ? & H)
  | H : Ok _ = Ok _ |- _ => injection H as <-
  | p : (_ * _)%type |- _ => destruct p
  end.

Section Reuse.
Context {AR : Ops}.
Variable W : world AR.
Variable sm : text.

(** ** Preprocessing with other sources *)

Lemma job_follows : forall j c d c', cf_eq_catalog_file (cx_config c) <> Given sm -> cf_completeness_table_file (cx_config c) <> Given sm ->
  j <> J_read_source_model -> j <> J_create_default_source_model -> cx_cur c = None ->
  agree sm c d -> run_job W j c = (c', None) ->
  exists d', run_job W j d = (d', None) /\ agree sm c' d' /\ cx_sms d' = cx_sms d /\ cx_cur c' = None.
Proof.
  intros j c d c' NE NT N1 N2 CU (A1 & A2 & A3 & A4 & A5 & A6 & A7 & A8 & A9 & A10 & A11) H.
  destruct j; try contradiction; cbn [run_job] in H |- *.
  - apply finish_ok in H. unb2. match goal with L : lookup_file _ _ = Ok _ |- _ => pose proof (lookup_given _ _ _ L) end.
    unfold read_eq_catalog_job. rewrite A1. eexists. split.
    { match goal with L : lookup_file _ _ = Ok _ |- _ => rewrite L end. cbn [bind].
      rewrite (open_agree sm (cx_files c) (cx_files d)) by (auto; congruence).
      match goal with L : open_read _ _ = Ok _ |- _ => rewrite L end. cbn [bind].
      match goal with L : read_eq_catalog _ _ _ _ = Ok _ |- _ => rewrite L end. cbn [bind finish]. reflexivity. }
    unfold agree; cbn; auto 20.
  - apply finish_ok in H. unb2. unfold create_catalog_matrix. rewrite A2. eexists. split.
    { repeat match goal with L : ?a = Ok _ |- context [?a] => rewrite L; cbn [bind] end. cbn [finish]. reflexivity. }
    unfold agree; cbn; auto 20.
  - unfold create_default_values in H |- *. rewrite A4. destruct (cx_working c) as [w|] eqn:EW; [|discriminate].
    apply finish_ok in H. unb2. eexists. split.
    { repeat match goal with L : ?a = Ok _ |- context [?a] => rewrite L; cbn [bind] end. cbn [finish]. reflexivity. }
    unfold agree; cbn. rewrite EW. auto 20.
  - apply finish_ok in H. unb2. unfold gardner_knopoff. rewrite A1, A4. eexists. split.
    { repeat match goal with L : ?a = Ok _ |- context [?a] => rewrite L; cbn [bind] end. cbn [finish]. reflexivity. }
    unfold agree; cbn; auto 20.
  - apply finish_ok in H. unb2. unfold afteran. rewrite A1, A3. eexists. split.
    { repeat match goal with L : ?a = Ok _ |- context [?a] => rewrite L; cbn [bind] end. cbn [finish]. reflexivity. }
    unfold agree; cbn; auto 20.
  - apply finish_ok in H. unb2. unfold stepp. rewrite A1, A4. eexists. split.
    { repeat match goal with L : ?a = Ok _ |- context [?a] => rewrite L; cbn [bind] end. cbn [finish]. reflexivity. }
    unfold agree; cbn; auto 20.
  - apply finish_ok in H. unb2. unfold update_cur in H. rewrite CU in H. discriminate.
  - apply finish_ok in H. unb2. unfold create_selected_eq_vector. rewrite A3, A5, A7. eexists. split.
    { repeat match goal with L : ?a = Ok _ |- context [?a] => rewrite L; cbn [bind] end. cbn [finish]. reflexivity. }
    unfold agree; cbn; auto 20.
  - apply finish_ok in H. unb2. unfold store_preprocessed_catalog. rewrite A1, A2, A3, A8. eexists. split.
    { repeat match goal with L : ?a = Ok _ |- context [?a] => rewrite L; cbn [bind] end. cbn [finish]. reflexivity. }
    unfold agree; cbn. split; [repeat (split; auto)|auto]. now apply write_agree.
  - apply finish_ok in H. unb2. unfold store_completeness_table. rewrite A1, A7. eexists. split.
    { repeat match goal with L : ?a = Ok _ |- context [?a] => rewrite L; cbn [bind] end. cbn [finish]. reflexivity. }
    unfold agree; cbn. split; [repeat (split; auto)|auto]. now apply write_agree.
  - apply finish_ok in H. unb2. match goal with L : lookup_file _ _ = Ok _ |- _ => pose proof (lookup_given _ _ _ L) end.
    unfold retrieve_completeness_table. rewrite A1. eexists. split.
    { match goal with L : lookup_file _ _ = Ok _ |- _ => rewrite L end. cbn [bind].
      rewrite (open_agree sm (cx_files c) (cx_files d)) by (auto; congruence).
      repeat match goal with L : ?a = Ok _ |- context [?a] => rewrite L; cbn [bind] end. cbn [finish]. reflexivity. }
    unfold agree; cbn; auto 20.
  - apply finish_ok in H. unb2. unfold update_cur in H. rewrite CU in H. discriminate.
Qed.

Lemma steps_follow : forall js c d c', cf_eq_catalog_file (cx_config c) <> Given sm -> cf_completeness_table_file (cx_config c) <> Given sm ->
  ~ In J_read_source_model js -> ~ In J_create_default_source_model js -> cx_cur c = None ->
  agree sm c d -> steps W js c c' ->
  exists d', steps W js d d' /\ agree sm c' d' /\ cx_sms d' = cx_sms d.
Proof.
  intros js c d c' NE NT N1 N2 CU A H. revert d CU A. induction H as [c|j js c c1 c2 R H IH]; intros d CU A.
  - exists d. split; [constructor|auto].
  - destruct (job_follows j c d c1) as (d1 & R1 & A1 & S1 & C1); auto.
    { intros ->. apply N1. now left. } { intros ->. apply N2. now left. }
    pose proof (job_keeps W _ _ _ _ R) as (KC & _).
    destruct (IH ltac:(now rewrite KC) ltac:(now rewrite KC) ltac:(intros I; apply N1; now right) ltac:(intros I; apply N2; now right) d1 C1 A1) as (d' & ST & A' & S').
    exists d'. split; [econstructor; eauto|]. split; auto. congruence.
Qed.

(** The whole preprocessing pipeline with another source model. *)
Lemma preprocessing_follows : forall cf f1 f2 pre c ss2, preprocessing_build cf = Ok pre ->
  cf_source_model_file cf = Given sm -> cf_eq_catalog_file cf <> Given sm -> cf_completeness_table_file cf <> Given sm ->
  (forall q, q <> sm -> f2 q = f1 q) -> sources_read W cf f2 ss2 -> ss2 <> [] ->
  steps W pre (init_context cf f1) c ->
  exists d, steps W pre (init_context cf f2) d /\ agree sm c d /\ cx_sms d = Some ss2.
Proof.
  intros cf f1 f2 pre c ss2 B SM NE NT EF SR N2 H. pose proof SR as SR0.
  destruct SR as (p & ct & x & SM' & NP & FP & XP & RD). rewrite SM in SM'. injection SM' as <-.
  destruct (build_shape cf pre B) as (sj & js & tail & SJ & -> & F & K).
  destruct (tail_ok cf js tail F K) as (N1 & _).
  assert (SN : forall j, nameable j -> j <> J_read_source_model /\ j <> J_create_default_source_model).
  { intros j (n & Nj). split; intros ->; inversion Nj. }
  apply steps_split in H. destruct H as (c1 & H1 & H2).
  assert (sj = J_read_source_model).
  { inversion SJ as [v _|v U]; auto. subst. destruct U as [U|U]; rewrite U in SM; [discriminate|]. injection SM as <-. contradiction. }
  subst sj.
  inversion H1 as [|? ? ? a1 ? R1 H1']; subst. inversion H1' as [|? ? ? a2 ? R2 H3]; subst.
  destruct (job_follows J_read_eq_catalog (init_context cf f1) (init_context cf f2) a1) as (b1 & Q1 & A1 & S1 & C1); auto; try discriminate.
  { unfold agree; cbn; auto 20. }
  assert (A2 : run_job W J_read_source_model b1 = (set_sms (Some ss2) b1, None)).
  { cbn [run_job]. unfold read_source_model. 
    pose proof (job_keeps W _ _ _ _ Q1) as (KC & _). rewrite KC. change (cx_config (init_context cf f2)) with cf. rewrite SM. cbn [lookup_file bind].
    cbn [run_job] in Q1. apply finish_ok in Q1. unb2. cbn [cx_files set_eq_catalog]. unfold open_read. change (cx_files (init_context cf f2)) with f2. rewrite FP, XP, RD.
    destruct ss2 as [|s ss2]; [contradiction|]. reflexivity. }
  assert (G2 : agree sm a2 (set_sms (Some ss2) b1)).
  { assert (NE1 : cf_eq_catalog_file (cx_config a1) <> Given sm /\ cf_completeness_table_file (cx_config a1) <> Given sm).
    { pose proof (job_keeps W _ _ _ _ R1) as (KC & _). now rewrite KC. }
    destruct NE1 as (NE1 & NT1). exact (job_agree W sm _ _ _ _ _ NE1 NT1 A1 R2 A2). }
  assert (CF2 : cx_config a2 = cf /\ cx_cur a2 = None).
  { pose proof (job_keeps W _ _ _ _ R1) as (KC & _). pose proof (job_keeps W _ _ _ _ R2) as (KC2 & _). split; [now rewrite KC2, KC|].
    cbn [run_job] in R2. unfold read_source_model in R2. destruct (bind _ _) as [ct1|] in R2; [|discriminate].
    destruct (w_xml_parse W ct1) as [dd|]; [|discriminate]. destruct (read_doc _ dd) as (ss, y). destruct y; [discriminate|].
    destruct ss; destruct (cx_sms _) in R2; try discriminate; injection R2 as <-; exact C1. }
  destruct CF2 as (CF2 & CU2).
  destruct (steps_follow [J_create_catalog_matrix; J_create_default_values] a2 (set_sms (Some ss2) b1) c1) as (b2 & T1 & G3 & S3); auto; try (rewrite CF2; auto).
  { intros [X|[X|[]]]; discriminate. } { intros [X|[X|[]]]; discriminate. }
  assert (CU1 : cx_cur c1 = None).
  { inversion H3 as [|? ? ? a3 ? R3 H4]; subst. inversion H4 as [|? ? ? a4 ? R4 H5]; subst. inversion H5; subst.
    cbn [run_job] in R3, R4. apply finish_ok in R3. unb2. unfold create_default_values in R4. destruct (cx_working _) in R4; [|discriminate].
    apply finish_ok in R4. unb2. exact CU2. }
  assert (KC1 : cx_config c1 = cf).
  { assert (T : forall js a b, steps W js a b -> cx_config b = cx_config a).
    { intros js0 a b0 ST. induction ST as [|j0 js0 a b0 b3 R0 ST IH]; auto. pose proof (job_keeps W _ _ _ _ R0) as (KC & _). congruence. }
    rewrite (T _ _ _ H3). exact CF2. }
  destruct (steps_follow (js ++ tail) c1 b2 c) as (d & T2 & G4 & S4); auto; try (rewrite KC1; auto).
  { intros I. rewrite Forall_forall in N1. exact (proj1 (SN _ (N1 _ I)) eq_refl). }
  { intros I. rewrite Forall_forall in N1. exact (proj2 (SN _ (N1 _ I)) eq_refl). }
  exists d. split; [|split; [exact G4|]].
  - apply steps_app. exists b2. split; auto. econstructor; [exact Q1|]. econstructor; [exact A2|]. exact T1.
  - rewrite S4, S3. reflexivity.
Qed.

(** ** Processing *)

(** What processing puts into a source. *)
Definition put (ra : option (T * T * T * T * T)) (rm : option (T * T)) (s : area_source AR) : area_source AR :=
  let g := rm_tgr (as_rate s) in
  let '(a, b, mn, sb, sa) := match ra with Some (a, b, mn, sb, sa) => (a, b, mn, Some sb, Some sa) | None => (tg_a g, tg_b g, tg_min g, as_sigb s, as_siga s) end in
  let '(mx, mm) := match rm with Some (mx, mm) => (mx, Some mm) | None => (tg_max g, as_mmsig s) end in
  set_rates s a b mn mx sb sa mm.

Definition later_of {A} (x y : option A) : option A := match y with Some _ => y | None => x end.

Lemma put_put : forall ra rm ra' rm' s, put ra' rm' (put ra rm s) = put (later_of ra ra') (later_of rm rm') s.
Proof.
  intros [[[[[a b] mn] sb] sa]|] [[mx mm]|] [[[[[a' b'] mn'] sb'] sa']|] [[mx' mm']|] s; reflexivity.
Qed.

Lemma put_none : forall s, put None None s = s.
Proof. intros [? ? ? ? ? ? [[] ? ? ?] ? ? ? ? ?]. reflexivity. Qed.

Lemma processed_put : forall cf tab eqs js s s', processed W cf tab eqs js s s' ->
  exists ra rm, s' = put ra rm s /\ forall u, processed W cf tab eqs js u (put ra rm u).
Proof.
  intros cf tab eqs js s s' H. induction H as [s|js s s' k tb b sb a sa NE TB K Q P IH|js s s' k mx sg NE K Q P IH].
  - exists None, None. split; [now rewrite put_none|]. intros u. rewrite put_none. constructor.
  - destruct IH as (ra & rm & -> & IH). exists (later_of (Some (a, b, rc_reference k, sb, sa)) ra), (later_of None rm). split.
    + rewrite <- put_put. reflexivity.
    + intros u. rewrite <- put_put. econstructor; eauto.
  - destruct IH as (ra & rm & -> & IH). exists (later_of None ra), (later_of (Some (mx, sg)) rm). split.
    + rewrite <- put_put. reflexivity.
    + intros u. rewrite <- put_put. econstructor; eauto.
Qed.

(** Sources with the same element in the written document. *)
Definition alike (s t : area_source AR) : Prop :=
  let str := w_str_float W in let g := rm_tgr (as_rate s) in let h := rm_tgr (as_rate t) in
  (as_id t = as_id s /\ as_name t = as_name s /\ as_tect t = as_tect s /\ ab_srs (as_boundary t) = ab_srs (as_boundary s) /\
   tg_type h = tg_type g /\ dd_type (as_depth t) = dd_type (as_depth s)) /\
  (map str (flat_points (ab_pos (as_boundary t))) = map str (flat_points (ab_pos (as_boundary s))) /\
   map str (dd_mags (as_depth t)) = map str (dd_mags (as_depth s)) /\ map str (dd_depth (as_depth t)) = map str (dd_depth (as_depth s)) /\
   str (as_hypo t) = str (as_hypo s)) /\
  (str (rm_strike (as_rate t)) = str (rm_strike (as_rate s)) /\ str (rm_dip (as_rate t)) = str (rm_dip (as_rate s)) /\ str (rm_rake (as_rate t)) = str (rm_rake (as_rate s))) /\
  (str (tg_a h) = str (tg_a g) /\ str (tg_b h) = str (tg_b g) /\ str (tg_min h) = str (tg_min g) /\ str (tg_max h) = str (tg_max g)).

Lemma alike_put : forall ra rm s t, alike (put ra rm s) t -> alike (put ra rm s) (put ra rm t).
Proof.
  intros [[[[[a b] mn] sb] sa]|] [[mx mm]|] s t0 (A & B & C & D1 & D2 & D3 & D4); (split; [exact A|]; split; [exact B|]; split; [exact C|]);
  repeat split; auto.
Qed.

Lemma alike_elem : forall xml_ok s t, alike s t -> area_source_elem (w_str_float W) xml_ok t = area_source_elem (w_str_float W) xml_ok s.
Proof.
  intros xml_ok s t0 ((A1 & A2 & A3 & A4 & A5 & A6) & (B1 & B2 & B3 & B4) & (C1 & C2 & C3) & (D1 & D2 & D3 & D4)).
  unfold area_source_elem, write_area_boundary, write_rupture_rate_model, write_truncated_guten_richter, write_rupture_depth_distrib, num_leaf.
  unfold flat_points in B1. cbv zeta. now rewrite A1, A2, A3, A4, A5, A6, B1, B2, B3, B4, C1, C2, C3, D1, D2, D3, D4.
Qed.

Lemma alike_doc : forall xml_ok ss ts, Forall2 alike ss ts ->
  (forall s, hd_error ss = Some s -> exists u, hd_error ts = Some u /\ as_nrml_id u = as_nrml_id s /\ as_sm_id u = as_sm_id s) ->
  write_doc (w_str_float W) xml_ok ts = write_doc (w_str_float W) xml_ok ss.
Proof.
  intros xml_ok ss ts F H. unfold write_doc.
  assert (M : mapM (area_source_elem (w_str_float W) xml_ok) ts = mapM (area_source_elem (w_str_float W) xml_ok) ss).
  { clear H. induction F as [|s u ss ts A F IH]; auto. cbn [mapM]. now rewrite (alike_elem _ _ _ A), IH. }
  inversion F as [|s u ss' ts' A F' E1 E2]; subst; auto. destruct (H s eq_refl) as (u' & E & I1 & I2). injection E as <-.
  rewrite M, I1, I2. reflexivity.
Qed.

(** ** Reading the result back *)

Lemma forall2_app_inv : forall {A B} (P : A -> B -> Prop) a1 a2 b1 b2, Forall2 P (a1 ++ a2) (b1 ++ b2) -> length a1 = length b1 ->
  Forall2 P a1 b1 /\ Forall2 P a2 b2.
Proof.
  intros A B P. induction a1 as [|x a1 IH]; intros a2 [|y b1] b2 H L; try discriminate; [split; [constructor|exact H]|].
  cbn in H. inversion H as [|? ? ? ? PX H']; subst. injection L as L. destruct (IH _ _ _ H' L) as (X & Y). split; auto.
Qed.

Lemma flat_length : forall ps : list (T * T), length (flat_points ps) = (2 * length ps)%nat.
Proof. induction ps as [|p ps IH]; auto. cbn [flat_points flat_map app length] in *. unfold flat_points in IH. rewrite IH. lia. Qed.

Lemma flat_inj : forall ps qs : list (T * T), flat_points ps = flat_points qs -> ps = qs.
Proof.
  induction ps as [|(a, b) ps IH]; intros [|(c, d) qs] H; try discriminate; auto. cbn in H. injection H as -> -> H. f_equal. now apply IH.
Qed.

Lemma number_parts : forall (P : T -> T -> Prop) s u, source_shape u = source_shape s -> Forall2 P (source_numbers s) (source_numbers u) ->
  Forall2 P (flat_points (ab_pos (as_boundary s))) (flat_points (ab_pos (as_boundary u))) /\
  (let g := rm_tgr (as_rate s) in let h := rm_tgr (as_rate u) in P (tg_a g) (tg_a h) /\ P (tg_b g) (tg_b h) /\ P (tg_min g) (tg_min h) /\ P (tg_max g) (tg_max h)) /\
  (P (rm_strike (as_rate s)) (rm_strike (as_rate u)) /\ P (rm_dip (as_rate s)) (rm_dip (as_rate u)) /\ P (rm_rake (as_rate s)) (rm_rake (as_rate u))) /\
  Forall2 P (dd_mags (as_depth s)) (dd_mags (as_depth u)) /\ Forall2 P (dd_depth (as_depth s)) (dd_depth (as_depth u)) /\ P (as_hypo s) (as_hypo u).
Proof.
  intros P s u SH H. unfold source_shape in SH. injection SH as L1 L2 L3. unfold source_numbers in H.
  apply forall2_app_inv in H; [|now rewrite !flat_length, L1]. destruct H as (H1 & H). split; auto.
  apply forall2_app_inv in H; [|reflexivity]. destruct H as (H2 & H).
  apply forall2_app_inv in H; [|now rewrite L2]. destruct H as (H3 & H). apply forall2_app_inv in H; [|now rewrite L3]. destruct H as (H4 & H).
  repeat match goal with K : Forall2 _ (_ :: _) (_ :: _) |- _ => inversion K; clear K; subst end. cbv zeta. auto 20.
Qed.

Lemma forall2_str : forall (l m : list T), (forall x, In x l -> written_again (w_parse_float W) (w_str_float W) x) ->
  Forall2 (fun x y => w_parse_float W (w_str_float W x) = Some y) l m -> map (w_str_float W) m = map (w_str_float W) l.
Proof.
  intros l m H F. induction F as [|x y l m E F IH]; auto. cbn [map]. rewrite IH by (intros; apply H; now right). f_equal.
  destruct (H x (or_introl eq_refl)) as (z & Z1 & Z2). rewrite E in Z1. now injection Z1 as <-.
Qed.

Lemma forall2_same : forall (l m : list T), (forall x, In x l -> read_back (w_parse_float W) (w_str_float W) x) ->
  Forall2 (fun x y => w_parse_float W (w_str_float W x) = Some y) l m -> m = l.
Proof.
  intros l m H F. induction F as [|x y l m E F IH]; auto. rewrite IH by (intros; apply H; now right). f_equal.
  specialize (H x (or_introl eq_refl)). unfold read_back in H. congruence.
Qed.

Lemma result_again : forall indent s0 ss1 d, accepts_printable (w_xml_ok W) -> prints_words (w_str_float W) ->
  Forall (writable (w_xml_ok W)) (s0 :: ss1) -> write_doc (w_str_float W) (w_xml_ok W) (s0 :: ss1) = Ok d ->
  (forall s x, In s (s0 :: ss1) -> In x (flat_points (ab_pos (as_boundary s))) -> read_back (w_parse_float W) (w_str_float W) x) ->
  (forall s x, In s (s0 :: ss1) -> In x (source_numbers s) -> written_again (w_parse_float W) (w_str_float W) x) ->
  exists ss2, read_doc (w_parse_float W) (reparsed indent 0 d) = (ss2, None) /\
    Forall2 (fun s u => alike s u /\ ab_pos (as_boundary u) = ab_pos (as_boundary s) /\ as_nrml_id u = as_nrml_id s0 /\ as_sm_id u = as_sm_id s0) (s0 :: ss1) ss2.
Proof.
  intros indent s0 ss1 d XO SW WR WD RB WA.
  assert (NP : forall s x, In s (s0 :: ss1) -> In x (source_numbers s) -> exists y, w_parse_float W (w_str_float W x) = Some y).
  { intros s x I J. destruct (WA s x I J) as (y & Y & _). eauto. }
  destruct (C60_partial_proof (w_parse_float W) (w_str_float W) (w_xml_ok W) indent XO SW s0 ss1 WR NP) as (d1 & ss2 & D1 & RD1 & F1).
  destruct (C61_partial_proof (w_parse_float W) (w_str_float W) (w_xml_ok W) indent XO SW s0 ss1 WR NP) as (d2 & ss2' & D2 & RD2 & F2).
  rewrite WD in D1, D2. injection D1 as <-. injection D2 as <-. rewrite RD1 in RD2. injection RD2 as <-.
  exists ss2. split; auto. clear WD RD1 NP WR. remember (s0 :: ss1) as l eqn:El. clear El.
  revert F2 RB WA. induction F1 as [|s u l m (I1 & I2 & TX) F1 IH]; intros F2 RB WA; [constructor|].
  inversion F2 as [|? ? ? ? (SH & NM) F2']; subst. constructor.
  2:{ apply IH; auto; intros s' x I J; [apply (RB s')|apply (WA s')]; auto; now right. }
  destruct (number_parts _ _ _ SH NM) as (N1 & (N2 & N3 & N4 & N5) & (N6 & N7 & N8) & N9 & N10 & N11).
  assert (WAs : forall x, In x (source_numbers s) -> written_again (w_parse_float W) (w_str_float W) x) by (intros x J; apply (WA s); auto; now left).
  assert (ONE : forall x y, In x (source_numbers s) -> w_parse_float W (w_str_float W x) = Some y -> w_str_float W y = w_str_float W x).
  { intros x y J E. destruct (WAs x J) as (z & Z1 & Z2). rewrite E in Z1. now injection Z1 as <-. }
  unfold source_texts in TX. injection TX as T1 T2 T3 T4 T5 T6.
  assert (P : ab_pos (as_boundary u) = ab_pos (as_boundary s)).
  { apply flat_inj. apply forall2_same; auto. intros x J. apply (RB s); auto. now left. }
  split; [|auto]. split; [auto 10|]. split; [|split].
  - split; [now rewrite P|]. split; [|split].
    + apply forall2_str; auto. intros x J. apply WAs. unfold source_numbers. rewrite !in_app_iff. tauto.
    + apply forall2_str; auto. intros x J. apply WAs. unfold source_numbers. rewrite !in_app_iff. tauto.
    + apply ONE; auto. unfold source_numbers. rewrite !in_app_iff. cbn. tauto.
  - repeat split; apply ONE; auto; unfold source_numbers; rewrite !in_app_iff; cbn; tauto.
  - repeat split; apply ONE; auto; unfold source_numbers; rewrite !in_app_iff; cbn; tauto.
Qed.

(** ** The second run *)

Lemma rates_writable : forall xml_ok (s s' : area_source AR), same_but_rates s s' -> writable xml_ok s -> writable xml_ok s'.
Proof. intros xml_ok s s' (a & b & mn & mx & sb & sa & mm & ->) [H1 H2 H3]. constructor; cbn in *; auto. Qed.

Lemma process_alike : forall flt w cf tab js ss ss1 ss2,
  Forall2 (fun s s' => exists eqs, events_of W flt s w eqs /\ processed W cf tab eqs js s s' /\ same_but_rates s s') ss ss1 ->
  Forall2 (fun s u => alike s u /\ ab_pos (as_boundary u) = ab_pos (as_boundary s)) ss1 ss2 ->
  exists ss3, Forall2 (fun s s' => exists eqs, events_of W flt s w eqs /\ processed W cf tab eqs js s s') ss2 ss3 /\
    Forall2 (fun s u => as_nrml_id u = as_nrml_id s /\ as_sm_id u = as_sm_id s) ss2 ss3 /\ Forall2 alike ss1 ss3.
Proof.
  intros flt w cf tab js ss ss1 ss2 F. revert ss2. induction F as [|s s' ss ss1 (eqs & EV & P & SB) F IH]; intros ss2 G; inversion G as [|? u ? ss2' (A & B) G']; subst.
  - exists []. repeat split; constructor.
  - destruct (IH _ G') as (ss3 & X & Y & Z). destruct (processed_put _ _ _ _ _ _ P) as (ra & rm & -> & PU).
    exists (put ra rm u :: ss3). split; [|split]; constructor; auto.
    + exists eqs. split; [|apply PU]. assert (BD : ab_pos (as_boundary (put ra rm s)) = ab_pos (as_boundary s)).
      { destruct SB as (a & b & mn & mx & sb & sa & mm & E). rewrite E. reflexivity. }
      rewrite <- B in BD. inversion EV; subst; [constructor|]. constructor; rewrite BD; auto.
    + unfold put. destruct ra as [[[[[? ?] ?] ?] ?]|], rm as [[? ?]|]; split; reflexivity.
    + now apply alike_put.
Qed.

Theorem C113_proof : forall indent, accepts_printable (w_xml_ok W) -> prints_words (w_str_float W) ->
  forall cf f1 ss c1 ss1 d f2 ct, only_processing cf -> cf_source_model_file cf = Given sm ->
  cf_eq_catalog_file cf <> Given sm -> cf_completeness_table_file cf <> Given sm ->
  sources_read W cf f1 ss -> Forall (writable (w_xml_ok W)) ss -> run_config W cf f1 = (c1, None) ->
  cx_sms c1 = Some ss1 -> write_doc (w_str_float W) (w_xml_ok W) ss1 = Ok d ->
  (forall s x, In s ss -> In x (flat_points (ab_pos (as_boundary s))) -> read_back (w_parse_float W) (w_str_float W) x) ->
  (forall s x, In s ss1 -> In x (source_numbers s) -> written_again (w_parse_float W) (w_str_float W) x) ->
  (forall q, q <> sm -> f2 q = f1 q) -> f2 sm = Some ct -> w_xml_parse W ct = Some (reparsed indent 0 d) ->
  exists c2, run_config W cf f2 = (c2, None) /\
    forall q, q <> sm \/ cf_result_file cf = Given q -> cx_files c2 q = cx_files c1 q.
Proof.
  intros indent XO SW cf f1 ss c1 ss1 d f2 ct OP SM NE NT SR WB H SS1 WD RB WA EF F2 XP.
  unfold run_config in H |- *. destruct (bind _ _) as [((pre, pro), flt)|e] eqn:B in H; [|discriminate].
  rewrite B. apply bind_ok in B. destruct B as (pre' & B1 & B). apply bind_ok in B. destruct B as (pro' & B2 & B).
  apply bind_ok in B. destruct B as (flt' & B3 & B). injection B as -> -> ->.
  destruct (start W pre pro flt (init_context cf f1)) as (a1, [e|]) eqn:P1; [discriminate|].
  pose proof (names_processing _ _ B2 OP) as PJ.
  destruct (C65_proof W pre pro flt _ _ PJ P1) as (d1 & S1 & ALT1).
  pose proof (sources_kept W _ _ _ _ _ B1 SR S1) as K1.
  assert (KC : cx_config d1 = cf).
  { clear - S1. assert (T : forall js a b, steps W js a b -> cx_config b = cx_config a).
    { intros js a b ST. induction ST as [|j js a b b3 R0 ST IH]; auto. pose proof (job_keeps W _ _ _ _ R0) as (KC & _). congruence. }
    exact (T _ _ _ S1). }
  (* what run 1 wrote *)
  unfold write_result in H. apply finish_ok in H. apply bind_ok in H. destruct H as (p & LP & H). apply bind_ok in H. destruct H as (u1 & EX & H).
  apply bind_ok in H. destruct H as (ss1' & SA & H). apply bind_ok in H. destruct H as (d' & WD' & H). apply bind_ok in H. destruct H as (u2 & CW & H).
  assert (EC : c1 = set_files (write_file p (w_xml_print W d') (cx_files a1)) a1) by congruence. subst c1. clear H.
  change (cx_sms (set_files (write_file p (w_xml_print W d') (cx_files a1)) a1)) with (cx_sms a1) in SS1. rewrite SS1 in SA. cbn [have] in SA.
  assert (ss1' = ss1) as -> by congruence. clear SA. rewrite WD in WD'. assert (d' = d) as -> by congruence. clear WD'.
  (* its sources *)
  assert (PR : exists flt0 w cf0 tab js0,
    ((cf_apply_processing_jobs cf = Null /\ a1 = d1 /\ js0 = []) \/ exists u, cf_apply_processing_jobs cf = Given u /\ js0 = pro /\ flt0 = flt /\ cf0 = cf /\ tab = cx_table d1 /\ cx_working d1 = Some w) /\ only_sources d1 a1 /\
    Forall2 (fun s s' => exists eqs, events_of W flt0 s w eqs /\ processed W cf0 tab eqs js0 s s' /\ same_but_rates s s') ss ss1).
  { destruct ALT1 as [(N & E)|(u & l & w & l' & G & L & WK & L' & OS & F)].
    - subst a1. exists NullCatalogFilter, [], cf, None, []. split; [left; rewrite KC in N; auto|]. split; [unfold only_sources; auto 10|].
      assert (ss1 = ss) as -> by congruence. clear. induction ss as [|s ss IH]; constructor; auto. exists []. split; [constructor|]. split; [constructor|]. apply set_rates_self.
    - rewrite KC in G, F. exists flt, w, cf, (cx_table d1), pro. assert (l = ss) as -> by congruence. assert (l' = ss1) as -> by congruence.
      split; [right; exists u; repeat split; auto|split; auto]. apply WK. intros ->. inversion F; subst. discriminate WD. }
  destruct PR as (flt0 & w & cf0 & tab & js0 & CASE & OS & F).
  assert (FSB : Forall2 same_but_rates ss ss1) by (eapply forall2_impl; [|exact F]; intros s s' (? & _ & _ & X); exact X).
  destruct ss1 as [|s0 ss1]; [discriminate|].
  destruct (result_again indent s0 ss1 d XO SW) as (ss2 & RD & AL); auto.
  { clear - FSB WB. revert WB. induction FSB; intros WB; constructor; inversion WB; subst; auto. eapply rates_writable; eauto. }
  { intros s x I J. clear - FSB RB I J. revert RB I. induction FSB as [|a b l l' E FSB IH]; intros RB I; [destruct I|]. destruct I as [<-|I].
    - apply (RB a); [now left|]. destruct E as (? & ? & ? & ? & ? & ? & ? & ->). exact J.
    - apply IH; auto. intros s1 y I1. apply RB. now right. }
  assert (SR2 : sources_read W cf f2 ss2).
  { destruct SR as (p' & ? & ? & SM' & NP & _). rewrite SM in SM'. injection SM' as <-. exists sm, ct, (reparsed indent 0 d). auto. }
  assert (N2 : ss2 <> []) by (intros ->; inversion AL).
  destruct (preprocessing_follows cf f1 f2 pre d1 ss2 B1 SM NE NT EF SR2 N2 S1) as (d2 & S2 & AG & K2).
  destruct AG as (A1 & _ & _ & A4 & _ & _ & A7 & _ & _ & _ & A11).
  destruct (process_alike flt0 w cf0 tab js0 ss (s0 :: ss1) ss2 F) as (ss3 & P3 & I3 & AL3).
  { eapply forall2_impl; [|exact AL]. intros s u (X & Y & _). auto. }
  assert (ID : write_doc (w_str_float W) (w_xml_ok W) ss3 = Ok d).
  { rewrite <- WD. apply alike_doc; auto. intros s E. injection E as <-. inversion AL as [|? u ? ? (_ & _ & J1 & J2) _]; subst.
    inversion I3 as [|? v ? ? (L1 & L2) _]; subst. exists v. split; [reflexivity|]. split; congruence. }
  assert (ST2 : exists a2, start W pre pro flt (init_context cf f2) = (a2, None) /\ cx_sms a2 = Some ss3 /\ cx_config a2 = cf /\ cx_files a2 = cx_files d2).
  { unfold start. rewrite (steps_run W _ _ _ S2), A1, KC. destruct CASE as [(N & E & ->)|(u & G & -> & -> & -> & -> & WK)].
    - rewrite N. exists d2. split; auto. assert (ss3 = ss2) as ->; [|split; [exact K2|split; [congruence|reflexivity]]].
      clear - P3. induction P3 as [|a b l l' (e & _ & P) P3 IH]; auto. inversion P; subst. f_equal; auto.
    - rewrite G, K2. destruct ss2 as [|z ss2]; [contradiction|]. rewrite A4, WK. 
      destruct (loop_runs W flt pro w (z :: ss2) ss3 [] d2 K2) as (a2 & RN & SA & OS2).
      { rewrite A1, A7, KC. exact P3. }
      cbn [length] in RN. exists a2. split; [exact RN|]. split; [exact SA|]. destruct OS2 as (O1 & _ & _ & _ & _ & _ & O7). split; congruence. }
  destruct ST2 as (a2 & ST & SA & CA & FA). rewrite ST.
  assert (CA1 : cx_config a1 = cf) by (destruct OS as (O1 & _); congruence).
  assert (FA1 : cx_files a1 = cx_files d1) by (destruct OS as (_ & _ & _ & _ & _ & _ & O7); congruence).
  exists (set_files (write_file p (w_xml_print W d) (cx_files a2)) a2). split.
  - unfold write_result. rewrite CA. rewrite CA1 in LP. rewrite LP. cbn [bind]. rewrite EX. cbn [bind]. rewrite SA. cbn [have bind]. rewrite ID. cbn [bind]. rewrite CW. reflexivity.
  - rewrite CA1 in LP. intros q Q. cbn [cx_files set_files]. unfold write_file. destruct (text_eqb p q) eqn:E; auto. destruct Q as [Q|Q].
    + rewrite FA, FA1. now apply A11.
    + exfalso. rewrite Q in LP. cbn in LP. assert (p = q) by congruence. subst q. assert (X : text_eqb p p = true) by (now apply text_eqb_eq). congruence.
Qed.

End Reuse.
