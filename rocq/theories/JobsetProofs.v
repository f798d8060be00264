(** The list of processing jobs matters as a set (C143). *)
From Coq Require Import ZArith Bool Ascii String List Lia.
From Verif Require Import Base Ops BaseFacts CatUtil PyStr EqCatalog SourceModel Nrml World CatalogFilter
  Recurrence MaxMag Jobs Workflow Main FlowSpec FlowPipe FlowFiles ParamSpec ParamProofs JobsetSpec.
Import ListNotations.
Local Open Scope nat_scope.

Section Jobset.
Context {AR : Ops}.
Variable W : world AR.

(** The jobs of one source. *)
Section OneSource.
Variable cf : config AR.
Variable tab : option (list (T * T)).
Variable eqs : list (event AR).

Definition rec_gives (k : rec_conf AR) (b sb a sa : T) : Prop :=
  eqs <> [] /\ cf_recurrence cf = Ok k /\ exists tb, tab = Some tb /\
  recurrence_analysis (w_fuel W) (map ev_year eqs) (map ev_mw eqs) tb (rc_mag_window k)
    (rc_algorithm k) (rc_reference k) (rc_time_window k) = Ok (b, sb, a, sa).
Definition max_gives (mx sg : T) : Prop :=
  eqs <> [] /\ exists k, cf_mm cf = Ok k /\
  maximum_magnitude_analysis (w_fuel W) (map ev_year eqs) (map ev_mw eqs) (map ev_sigma eqs)
    (mm_algorithm k) (mm_tolerance k) (mm_max_iter k) (mm_neq k) (mm_samples k)
    (w_normals W (mm_bootstraps k) (length eqs)) = Ok (mx, sg).
Definition put_rec (k : rec_conf AR) (b sb a sa : T) (s : area_source AR) : area_source AR :=
  set_rates s a b (rc_reference k) (tg_max (rm_tgr (as_rate s))) (Some sb) (Some sa) (as_mmsig s).
Definition put_max (mx sg : T) (s : area_source AR) : area_source AR :=
  let g := rm_tgr (as_rate s) in set_rates s (tg_a g) (tg_b g) (tg_min g) mx (as_sigb s) (as_siga s) (Some sg).

Lemma rec_fun : forall k b sb a sa k' b' sb' a' sa', rec_gives k b sb a sa -> rec_gives k' b' sb' a' sa' ->
  k' = k /\ b' = b /\ sb' = sb /\ a' = a /\ sa' = sa.
Proof.
  intros k b sb a sa k' b' sb' a' sa' (_ & K & tb & E & R) (_ & K' & tb' & E' & R').
  rewrite K in K'. injection K' as <-. rewrite E in E'. injection E' as <-. rewrite R in R'. injection R' as <- <- <- <-. auto.
Qed.
Lemma max_fun : forall mx sg mx' sg', max_gives mx sg -> max_gives mx' sg' -> mx' = mx /\ sg' = sg.
Proof.
  intros mx sg mx' sg' (_ & k & K & R) (_ & k' & K' & R'). rewrite K in K'. injection K' as <-. rewrite R in R'. injection R' as <- <-. auto.
Qed.

(** Effects of a list, by membership. *)
Definition effect (R M : Prop) (s s' : area_source AR) : Prop :=
  exists u, ((R /\ exists k b sb a sa, rec_gives k b sb a sa /\ u = put_rec k b sb a sa s) \/ (~ R /\ u = s)) /\
    ((M /\ exists mx sg, max_gives mx sg /\ s' = put_max mx sg u) \/ (~ M /\ s' = u)).

Lemma effect_processed : forall js s s', processed W cf tab eqs js s s' -> effect (In J_recurrence js) (In J_maximum_magnitude js) s s'.
Proof.
  intros js s s' H. induction H as [s|js s s' k tb b sb a sa NE TB K R H IH|js s s' k mx sg NE K R H IH].
  - exists s. split; right; split; auto.
  - assert (G : rec_gives k b sb a sa) by (split; [exact NE|]; split; [exact K|]; exists tb; auto).
    destruct IH as (u & A & B). exists u. split.
    + left. split; [now left|]. exists k, b, sb, a, sa. split; [exact G|]. destruct A as [(_ & k' & b' & sb' & a' & sa' & G' & ->)|(_ & ->)].
      * destruct (rec_fun _ _ _ _ _ _ _ _ _ _ G G') as (-> & -> & -> & -> & ->). reflexivity.
      * reflexivity.
    + destruct B as [(I & B)|(I & B)]; [left|right]; split; auto; [now right|]. intros [E|E]; [discriminate E|auto].
  - assert (G : max_gives mx sg) by (split; [exact NE|]; exists k; auto).
    destruct IH as (u & A & B).
    destruct A as [(I & k' & b & sb & a & sa & G' & ->)|(I & ->)].
    + exists (put_rec k' b sb a sa s). split.
      * left. split; [now right|]. exists k', b, sb, a, sa. auto.
      * left. split; [now left|]. exists mx, sg. split; [exact G|]. destruct B as [(_ & mx' & sg' & G2 & ->)|(_ & ->)].
        { destruct (max_fun _ _ _ _ G G2) as (-> & ->). reflexivity. }
        reflexivity.
    + exists s. split.
      * right. split; auto. intros [E|E]; [discriminate E|auto].
      * left. split; [now left|]. exists mx, sg. split; [exact G|]. destruct B as [(_ & mx' & sg' & G2 & ->)|(_ & ->)].
        { destruct (max_fun _ _ _ _ G G2) as (-> & ->). reflexivity. }
        reflexivity.
Qed.

(** A list runs when each of its jobs does. *)
Lemma runs_if : forall js, Forall processing_job js ->
  (In J_recurrence js -> exists k b sb a sa, rec_gives k b sb a sa) -> (In J_maximum_magnitude js -> exists mx sg, max_gives mx sg) ->
  forall s, exists s', processed W cf tab eqs js s s'.
Proof.
  intros js F. induction F as [|j js P F IH]; intros R M s; [exists s; constructor|].
  assert (IH' : forall s, exists s', processed W cf tab eqs js s s') by (apply IH; intro I; [apply R|apply M]; now right).
  destruct P as [-> | ->].
  - destruct (R (or_introl eq_refl)) as (k & b & sb & a & sa & NE & K & tb & E & G).
    destruct (IH' (put_rec k b sb a sa s)) as (s' & H). exists s'. eapply PR_rec; eauto.
  - destruct (M (or_introl eq_refl)) as (mx & sg & NE & k & K & G).
    destruct (IH' (put_max mx sg s)) as (s' & H). exists s'. eapply PR_max; eauto.
Qed.

Lemma effect_fun : forall R M R' M' s a b, (R <-> R') -> (M <-> M') -> effect R M s a -> effect R' M' s b -> a = b.
Proof.
  intros R M R' M' s a b HR HM (u & A & B) (u' & A' & B').
  assert (u' = u).
  { destruct A as [(I & k & b0 & sb & a0 & sa & G & ->)|(I & ->)]; destruct A' as [(I' & k' & b' & sb' & a' & sa' & G' & ->)|(I' & ->)]; try tauto.
    destruct (rec_fun _ _ _ _ _ _ _ _ _ _ G G') as (-> & -> & -> & -> & ->). reflexivity. }
  subst u'. destruct B as [(I & mx & sg & G & ->)|(I & ->)]; destruct B' as [(I' & mx' & sg' & G' & ->)|(I' & ->)]; try tauto.
  destruct (max_fun _ _ _ _ G G') as (-> & ->). reflexivity.
Qed.

Lemma processed_set : forall js js' s s', Forall processing_job js' -> same_members js js' ->
  processed W cf tab eqs js s s' -> processed W cf tab eqs js' s s'.
Proof.
  intros js js' s s' F S H. pose proof (effect_processed _ _ _ H) as E.
  destruct (runs_if js' F) with (s := s) as (s2 & H2).
  - intros I. apply S in I. destruct E as (u & A & _). destruct A as [(_ & k & b & sb & a & sa & G & _)|(N & _)]; [|contradiction]. eauto 10.
  - intros I. apply S in I. destruct E as (u & _ & B). destruct B as [(_ & mx & sg & G & _)|(N & _)]; [|contradiction]. eauto 10.
  - rewrite (effect_fun _ _ _ _ _ _ _ (S _) (S _) E (effect_processed _ _ _ H2)). exact H2.
Qed.
End OneSource.

(** All sources. *)
Lemma start_set : forall pre js js' flt c c', Forall processing_job js -> Forall processing_job js' -> same_members js js' ->
  start W pre js flt c = (c', None) ->
  exists c'', start W pre js' flt c = (c'', None) /\ cx_sms c'' = cx_sms c' /\ only_sources c' c''.
Proof.
  intros pre js js' flt c c' F F' S H.
  unfold start in *. destruct (pipeline_run W pre c) as (c1, [e|]) eqn:P; [discriminate H|].
  destruct (cf_apply_processing_jobs (cx_config c1)) as [| |u] eqn:A; [discriminate H| |].
  { injection H as <-. exists c1. split; auto. split; auto. unfold only_sources. auto 10. }
  destruct (cx_sms c1) as [[|s0 ss]|] eqn:S1; [| |discriminate H].
  { injection H as <-. exists c1. split; auto. split; auto. unfold only_sources. auto 10. }
  destruct (cx_working c1) as [w|] eqn:W1; [|discriminate H].
  destruct (loop_ok W flt _ w (s0 :: ss) [] c1 c' F S1 H) as (ss' & S2 & FR & L).
  destruct (loop_runs W flt js' w (s0 :: ss) ss' [] c1 S1) as (c'' & R & S3 & FR').
  { eapply forall2_impl; [|exact L]. intros s s' (eqs & E & PR). exists eqs. split; auto. eapply processed_set; eauto. }
  exists c''. split; [exact R|]. split; [now rewrite S2, S3|]. unfold only_sources in *. intuition congruence.
Qed.

(** The names. *)
Definition job_of (n : string) : jobname := if String.eqb n "Recurrence" then J_recurrence else J_maximum_magnitude.
Lemma listed_jobs : forall l, (forall n, In n l -> n = "Recurrence"%string \/ n = "MaximumMagnitude"%string) ->
  Forall2 names l (map job_of l) /\ Forall processing_job (map job_of l).
Proof.
  induction l as [|n l IH]; intros H; cbn [map]; [split; constructor|].
  destruct IH as (A & B); [intros m I; apply H; now right|]. destruct (H n (or_introl eq_refl)) as [-> | ->]; split; constructor; auto.
  - constructor.
  - now left.
  - constructor.
  - now right.
Qed.
Lemma members_map : forall {A B : Type} (g : A -> B) l l', same_members l l' -> same_members (map g l) (map g l').
Proof. intros A B g l l' S b. rewrite !in_map_iff. split; intros (a & E & I); exists a; split; auto; now apply S. Qed.

Theorem C143_proof : forall cf cf' f c' l l', same_but_processing cf cf' ->
  cf_processing_jobs cf = Given l -> cf_processing_jobs cf' = Given l' -> same_members l l' -> only_processing cf ->
  run_config W cf f = (c', None) ->
  exists c'', run_config W cf' f = (c'', None) /\ cx_files c'' = cx_files c' /\ cx_sms c'' = cx_sms c'.
Proof.
  intros cf cf' f c' l l' SB E E' S OP R.
  destruct SB as (B1 & B2 & B3 & B4 & B5 & B6 & B7 & B8 & B9 & B10 & B11 & B12).
  destruct (listed_jobs l (fun n => OP l n E)) as (N & F).
  destruct (listed_jobs l') as (N' & F'). { intros n I. apply (OP l n E). now apply S. }
  assert (PB : processing_build cf = Ok (map job_of l)).
  { destruct (C63_processing_proof cf) as (P1 & _ & P3). destruct l as [|n l0]; [apply P3; right; exact E|].
    apply (P1 (n :: l0)); [split; [exact E|intro Z; discriminate Z]|exact N]. }
  assert (PB' : processing_build cf' = Ok (map job_of l')).
  { destruct (C63_processing_proof cf') as (P1 & _ & P3). destruct l' as [|n l0]; [apply P3; right; exact E'|].
    apply (P1 (n :: l0)); [split; [exact E'|intro Z; discriminate Z]|exact N']. }
  assert (QB : preprocessing_build cf' = preprocessing_build cf) by (unfold preprocessing_build; now rewrite B2, B3, B4, B5).
  assert (CB : choose_filter cf' = choose_filter cf) by (unfold choose_filter; now rewrite B2).
  assert (RS : forall js, Forall (reads_same cf cf') js) by (intros js; rewrite Forall_forall; intros [] _; cbn; auto).
  unfold run_config in *. rewrite PB', QB, CB. rewrite PB in R.
  destruct (preprocessing_build cf) as [pre|]; [|discriminate R]. cbn [bind] in *.
  destruct (choose_filter cf) as [flt|]; [|discriminate R].  cbn [bind] in *.
  destruct (start W pre (map job_of l) flt (init_context cf f)) as (c1, [x|]) eqn:ST; [discriminate R|].
  destruct (start_set pre _ (map job_of l') flt (init_context cf f) c1 F F' (members_map _ _ _ S) ST) as (c2 & ST2 & S2 & O2).
  change (init_context cf' f) with (recf cf' (init_context cf f)). rewrite (start_recf W cf cf') by auto. rewrite ST2.
  unfold recfp; cbn [fst snd].
  pose proof (start_config W pre (map job_of l) flt (init_context cf f)) as C1. rewrite ST in C1. cbn in C1.
  destruct O2 as (O1 & _ & _ & _ & _ & _ & O7).
  rewrite (result_recf W cf cf') by (auto; congruence).
  unfold write_result in *. rewrite O1, S2, O7.
  match type of R with finish c1 ?b = _ => 
    match goal with |- context [finish c2 ?d] =>
      assert (X : (exists g, b = Ok (set_files g c1) /\ d = Ok (set_files g c2)) \/ exists e, b = Err e) end end.
  { destruct (lookup_file AttributeError (cf_result_file (cx_config c1))) as [p|]; cbn [bind]; eauto.
    destruct (w_exists W (dirname p)); cbn [bind]; eauto. destruct (have TypeError (cx_sms c1)) as [ss|]; cbn [bind]; eauto.
    destruct (write_doc (w_str_float W) (w_xml_ok W) ss) as [d|]; cbn [bind]; eauto. destruct (w_can_write W p); cbn [bind]; eauto. }
  destruct X as [(g & X & Y)|(e & X)]; rewrite X in R; [|discriminate R]. rewrite Y. injection R as <-.
  eexists. split; [reflexivity|]. split; [reflexivity|exact S2].
Qed.
End Jobset.
