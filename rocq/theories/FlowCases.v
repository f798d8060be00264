(** Concrete cases of the workflow properties in the demonstration world. *)
From Coq Require Import ZArith Bool Ascii String List Lia Permutation Reals Lra.
From Coq Require Import Floats.SpecFloat.
From Verif Require Import Base Ops BaseFacts FloatOps Libm CatUtil Decluster DeclusterSpec PyStr PyStrProofs Csv CsvProofs PyFloat PyFloatProofs
  EqCatalog EqCatSpec EqCatRound EqCatWitness SourceModel Nrml World CatalogFilter Recurrence MaxMag Jobs Workflow Main
  FlowSpec FlowPipe FlowFiles FlowTable FlowPre FlowStore FlowTwoStep FlowInterfere FlowOrder PyNearest PyTexts Demo FlowDemo FlowWitness.
From Coq Require Import List.
Import ListNotations.
Local Open Scope nat_scope.
Local Open Scope string_scope.

(** ** Reading the outcome of a computed run *)

Definition raises (q : exn -> bool) (p : context FL -> bool) (r : context FL * option exn) : bool :=
  match r with (c, Some e) => q e && p c | _ => false end.
Definition completes (p : context FL -> bool) (r : context FL * option exn) : bool :=
  match r with (c, None) => p c | _ => false end.

Lemma exn_gives : forall r q p, raises q p r = true -> exists c e, r = (c, Some e) /\ q e = true /\ p c = true.
Proof. intros (c, [e|]) q p H; [|discriminate]. apply andb_true_iff in H. destruct H. eauto. Qed.

Lemma ok_gives : forall r p, completes p r = true -> exists c, r = (c, None) /\ p c = true.
Proof. intros (c, [e|]) p H; [discriminate|]. eauto. Qed.

Lemma pipeline_gives : forall js c p, completes p (pipeline_run DW js c) = true -> exists c', steps DW js c c' /\ p c' = true.
Proof.
  intros js c p H. destruct (ok_gives _ _ H) as (c' & R & P). exists c'. split; auto. now apply run_steps.
Qed.

Definition is_index (e : exn) : bool := match e with IndexError => true | _ => false end.
Definition is_value (e : exn) : bool := match e with ValueError => true | _ => false end.
Definition is_io (e : exn) : bool := match e with IOError => true | _ => false end.

(** How many rows are flagged. *)
Definition flagged_are (n k : nat) (c : context FL) : bool :=
  some_is (cx_flag c) (fun l => Nat.eqb (length l) n && Nat.eqb (length (filter (fun z => negb (Z.eqb z 0)) l)) k).

Lemma flagged_gives : forall n k c, flagged_are n k c = true ->
  exists fl, cx_flag c = Some fl /\ length fl = n /\ length (filter (fun z => negb (Z.eqb z 0)) fl) = k.
Proof.
  intros n k c H. unfold flagged_are in H. destruct (cx_flag c) as [fl|]; [|discriminate]. apply andb_true_iff in H. destruct H as (A & B).
  apply Nat.eqb_eq in A, B. eauto.
Qed.

(** ** The configurations of the demonstration *)

Definition pre_of (cf : config FL) : list jobname := match preprocessing_build cf with Ok p => p | Err _ => [] end.
Definition base4 : list jobname := [J_read_eq_catalog; J_read_source_model; J_create_catalog_matrix; J_create_default_values].
Definition stores3 : list jobname := [J_create_selected_eq_vector; J_store_preprocessed_catalog; J_store_completeness_table].
Definition both : list jobname := [J_recurrence; J_maximum_magnitude].

Lemma basic_build : preprocessing_build basic = Ok (base4 ++ [J_gardner_knopoff] ++ stores3)%list.
Proof. reflexivity. Qed.
Lemma basic_jobs : jobs_set (cf_preprocessing_jobs basic) ["GardnerKnopoff"].
Proof. split; [reflexivity|discriminate]. Qed.
Lemma basic_processing : Forall processing_job both.
Proof. constructor; [now left|]. constructor; [now right|constructor]. Qed.
Lemma basic_only : only_processing basic.
Proof. intros l n E I. cbn in E. injection E as <-. destruct I as [<-|[<-|[]]]; auto. Qed.
Lemma basic_filter : filter_for basic SourceModelCatalogFilter.
Proof. left. split; [|reflexivity]. eexists. split; [reflexivity|discriminate]. Qed.

(** C63. *)
Lemma C63_case_proof :
  source_job (cf_source_model_file basic) J_read_source_model /\ jobs_set (cf_preprocessing_jobs basic) ["GardnerKnopoff"] /\
  Forall2 names ["GardnerKnopoff"] [J_gardner_knopoff] /\ file_set (cf_pprocessing_result_file basic) /\
  jobs_set (cf_processing_jobs basic) ["Recurrence"; "MaximumMagnitude"] /\ Forall2 names ["Recurrence"; "MaximumMagnitude"] both /\
  (forall j, ~ names "Reasenberg" j) /\ jobs_unset (cf_preprocessing_jobs basic_again) /\ file_set (cf_completeness_table_file basic_again).
Proof.
  split; [constructor; eexists; split; [reflexivity|discriminate]|]. split; [exact basic_jobs|].
  split; [repeat constructor|]. split; [eexists; split; [reflexivity|discriminate]|]. split; [split; [reflexivity|discriminate]|].
  split; [repeat constructor|]. split; [intros j H; inversion H|]. split; [now left|]. eexists. split; [reflexivity|discriminate].
Qed.

(** C64: the second declustering leaves twelve flags for fourteen rows; the selection fails and
    what was done before stays. *)
Lemma twice_fails : raises is_value (flagged_are 12 0) (pipeline_run DW (pre_of twice) (init_context twice dfiles)) = true.
Proof. vm_compute. reflexivity. Qed.
Lemma C64_case_proof : exists c fl, 
  pipeline_run DW (base4 ++ [J_gardner_knopoff; J_gardner_knopoff] ++ stores3) (init_context twice dfiles) = (c, Some ValueError) /\
  cx_flag c = Some fl /\ length fl = 12.
Proof.
  destruct (exn_gives _ _ _ twice_fails) as (c & e & R & E & F). apply flagged_gives in F. destruct F as (fl & F & L & _).
  destruct e; try discriminate E. exists c, fl. split; [exact R|auto].
Qed.

(** C65: both zones get other b-values than the 0.8 they came with. *)
Definition two_values (c : context FL) : bool :=
  some_is (cx_sms c) (fun ss => match ss with
    | [a; b] => SFltb (b_value a) (fl "0.5") && SFltb (fl "0.6") (b_value b) && SFltb (b_value b) (fl "0.7") | _ => false end).
Lemma basic_starts : completes two_values (start DW (pre_of basic) both SourceModelCatalogFilter (init_context basic dfiles)) = true.
Proof. vm_compute. reflexivity. Qed.
Lemma C65_case_proof : Forall processing_job both /\ exists c a b,
  start DW (base4 ++ [J_gardner_knopoff] ++ stores3) both SourceModelCatalogFilter (init_context basic dfiles) = (c, None) /\
  cx_sms c = Some [a; b] /\ @ltb FL (b_value a) (fl "0.5") = true /\ @ltb FL (fl "0.6") (b_value b) = true.
Proof.
  split; [exact basic_processing|]. destruct (ok_gives _ _ basic_starts) as (c & R & P). unfold two_values in P.
  destruct (cx_sms c) as [[|a [|b [|]]]|] eqn:E; try discriminate P. apply andb_true_iff in P. destruct P as (P & _). apply andb_true_iff in P. destruct P as (P1 & P2).
  exists c, a, b. split; [exact R|]. split; [exact E|]. split; [exact P1|exact P2].
Qed.

(** C66: the zones in the other order. *)
Lemma basic_sources : sources_read DW basic dfiles [zone_a; zone_b].
Proof.
  exists (t "in/ab.xml"), (t "ab"), (document [zone_a; zone_b]).
  split; [reflexivity|]. split; [discriminate|]. split; [reflexivity|]. split; [reflexivity|].
  vm_cast_no_check (eq_refl ([zone_a; zone_b], @None exn)).
Qed.
Lemma swapped_sources : sources_read DW basic swapped [zone_b; zone_a].
Proof.
  exists (t "in/ab.xml"), (t "ba"), (document [zone_b; zone_a]).
  split; [reflexivity|]. split; [discriminate|]. split; [reflexivity|]. split; [reflexivity|].
  vm_cast_no_check (eq_refl ([zone_b; zone_a], @None exn)).
Qed.
Definition yes (c : context FL) : bool := true.
Lemma basic_runs : completes two_values (run_config DW basic dfiles) = true.
Proof. vm_compute. reflexivity. Qed.
Lemma swapped_runs : completes yes (run_config DW basic swapped) = true.
Proof. vm_compute. reflexivity. Qed.
Lemma swapped_agree : forall q, q <> t "in/ab.xml" -> swapped q = dfiles q.
Proof.
  intros q N. unfold swapped, write_file. destruct (text_eqb (t "in/ab.xml") q) eqn:E; auto. apply text_eqb_eq in E. congruence.
Qed.
Lemma C66_case_proof : exists c1 c2,
  only_processing basic /\ cf_source_model_file basic = Given (t "in/ab.xml") /\
  cf_eq_catalog_file basic <> Given (t "in/ab.xml") /\ cf_completeness_table_file basic <> Given (t "in/ab.xml") /\
  (forall q, q <> t "in/ab.xml" -> swapped q = dfiles q) /\
  sources_read DW basic dfiles [zone_a; zone_b] /\ sources_read DW basic swapped [zone_b; zone_a] /\
  run_config DW basic dfiles = (c1, None) /\ run_config DW basic swapped = (c2, None).
Proof.
  destruct (ok_gives _ _ basic_runs) as (c1 & R1 & _). destruct (ok_gives _ _ swapped_runs) as (c2 & R2 & _). exists c1, c2.
  split; [exact basic_only|]. split; [reflexivity|]. split; [clear; discriminate|]. split; [clear; discriminate|].
  split; [exact swapped_agree|]. split; [exact basic_sources|]. split; [exact swapped_sources|]. split; [exact R1|exact R2].
Qed.

(** C67, C68: declustering flags two of the fourteen rows. *)
Lemma basic_preprocessing : completes (flagged_are 14 2) (pipeline_run DW (pre_of basic) (init_context basic dfiles)) = true.
Proof. vm_compute. reflexivity. Qed.
Lemma C67_case_proof : preprocessing_build basic = Ok (base4 ++ [J_gardner_knopoff] ++ stores3)%list /\
  jobs_set (cf_preprocessing_jobs basic) ["GardnerKnopoff"] /\ gk_first ["GardnerKnopoff"] /\
  cf_pprocessing_result_file basic = Given (t "out/cat.csv") /\ cf_completeness_table_file basic <> Given (t "out/cat.csv") /\
  exists c fl, steps DW (base4 ++ [J_gardner_knopoff] ++ stores3) (init_context basic dfiles) c /\ 
    cx_flag c = Some fl /\ length fl = 14 /\ length (filter (fun z => negb (Z.eqb z 0)) fl) = 2.
Proof.
  split; [exact basic_build|]. split; [exact basic_jobs|]. split; [exact gk_only|]. split; [reflexivity|]. split; [discriminate|].
  destruct (pipeline_gives _ _ _ basic_preprocessing) as (c & S1 & P). apply flagged_gives in P. destruct P as (fl & P). exists c, fl. split; [exact S1|exact P].
Qed.

(** C68 is false: declustering twice. *)
Definition lengths_are (n k : nat) (c : context FL) : bool :=
  some_is (cx_matrix c) (fun m => Nat.eqb (length m) n) && some_is (cx_flag c) (fun l => Nat.eqb (length l) k).
Lemma lengths_differ : forall n k c, n <> k -> lengths_are n k c = true -> ~ aligned c.
Proof.
  intros n k c N H (m & w & fl & A1 & A2 & A3 & A4). unfold lengths_are in H. rewrite A1, A3 in H. cbn [some_is] in H.
  apply andb_true_iff in H. destruct H as (H1 & H2). apply Nat.eqb_eq in H1, H2. apply unflagged_length in A4. lia.
Qed.
Lemma twice_runs : completes (lengths_are 14 12) (pipeline_run DW (base4 ++ [J_gardner_knopoff; J_gardner_knopoff]) (init_context twice dfiles)) = true.
Proof. vm_compute. reflexivity. Qed.
Lemma C68_refuted_proof : exists (W : world FL) cf f pre p q c, is_argsort (w_argsort W) /\
  preprocessing_build cf = Ok pre /\ pre = (p ++ q)%list /\ 4 <= length p /\ steps W p (init_context cf f) c /\ ~ aligned c.
Proof.
  destruct (pipeline_gives _ _ _ twice_runs) as (c & S1 & P).
  exists DW, twice, dfiles, (base4 ++ [J_gardner_knopoff; J_gardner_knopoff] ++ stores3)%list, (base4 ++ [J_gardner_knopoff; J_gardner_knopoff])%list, stores3, c.
  split; [exact demo_argsort_ok|]. split; [reflexivity|]. split; [reflexivity|]. split; [cbn; lia|]. split; [exact S1|].
  apply (lengths_differ 14 12); auto. discriminate.
Qed.

(** C71 is false: the empty zone c stops the run; zone b, after it, is not processed and nothing
    is written. *)
Lemma empty_zone_sources : sources_read DW with_empty_zone dfiles [zone_a; zone_c; zone_b].
Proof.
  exists (t "in/acb.xml"), (t "acb"), (document [zone_a; zone_c; zone_b]).
  split; [reflexivity|]. split; [discriminate|]. split; [reflexivity|]. split; [reflexivity|].
  vm_cast_no_check (eq_refl ([zone_a; zone_c; zone_b], @None exn)).
Qed.
Definition no_events (c : context FL) : bool :=
  some_is (cx_working c) (fun w => gives (filter_eqs DW SourceModelCatalogFilter zone_c w) (fun l => match l with [] => true | _ => false end)
    && gives (filter_eqs DW SourceModelCatalogFilter zone_b w) (fun l => match l with [] => false | _ => true end)) &&
  some_is (cx_sms c) (fun ss => match ss with [_; _; b] => same_float (Some (b_value b)) (fl "0.8") | _ => false end) &&
  match cx_files c (t "out/res.xml") with None => true | Some _ => false end.
Lemma empty_zone_runs : raises is_index no_events (run_config DW with_empty_zone dfiles) = true.
Proof. vm_compute. reflexivity. Qed.

Lemma C71_refuted_proof : exists (W : world FL) cf f a s s' c w eqs,
  sources_read W cf f [a; s; s'] /\ run_config W cf f = (c, Some IndexError) /\ cx_working c = Some w /\
  events_of W SourceModelCatalogFilter s w [] /\ events_of W SourceModelCatalogFilter s' w eqs /\ eqs <> [] /\
  cf_result_file cf = Given (t "out/res.xml") /\ cx_files c (t "out/res.xml") = None.
Proof.
  destruct (exn_gives _ _ _ empty_zone_runs) as (c & e & R & E & P). unfold no_events in P.
  destruct (cx_working c) as [w|] eqn:WC; [|discriminate P]. apply andb_true_iff in P. destruct P as (P & P3). apply andb_true_iff in P. destruct P as (P & P2).
  cbn [some_is] in P. apply andb_true_iff in P. destruct P as (P & P1).
  destruct (filter_eqs DW SourceModelCatalogFilter zone_c w) as [[|]|] eqn:F1; try discriminate P.
  destruct (filter_eqs DW SourceModelCatalogFilter zone_b w) as [[|q eqs]|] eqn:F2; try discriminate P1.
  destruct (cx_files c (t "out/res.xml")) eqn:FF; [discriminate P3|]. destruct e; try discriminate E.
  exists DW, with_empty_zone, dfiles, zone_a, zone_c, zone_b, c, w, (q :: eqs).
  split; [exact empty_zone_sources|]. split; [exact R|]. split; [exact WC|]. split; [now apply C73_proof|]. split; [now apply C73_proof|].
  split; [clear; discriminate|]. split; [reflexivity|exact FF].
Qed.

(** C70: a case with locked completeness analysis, in which three events that are not complete are
    used in the first run and missing from the second. *)
Definition complete_b (tab : list (spec_float * spec_float)) (e : event FL) : bool :=
  forallb (fun r => negb (SFltb (ev_year e) (fst r) && SFltb (ev_mw e) (snd r))) tab.
Lemma complete_iff : forall tab e, complete_b tab e = true <-> @complete FL tab e.
Proof.
  intros tab e. unfold complete_b. rewrite forallb_forall. split.
  - intros H cy cm I A B. specialize (H (cy, cm) I). cbn [fst snd] in H. cbn [ltb FL FOps] in A, B. rewrite A, B in H. discriminate.
  - intros H (cy, cm) I. cbn [fst snd]. destruct (SFltb (ev_year e) cy) eqn:A; auto. destruct (SFltb (ev_mw e) cm) eqn:B; auto.
    elim (H cy cm I A B).
Qed.
Fixpoint kept_of (tab : list (spec_float * spec_float)) (es : list (entry FL)) (m : list (event FL)) (flag : list Z) : list (entry FL) :=
  match es, m, flag with
  | x :: es, r :: m, z :: flag => if Z.eqb z 0 && complete_b tab r then x :: kept_of tab es m flag else kept_of tab es m flag
  | _, _, _ => []
  end.
Lemma kept_is : forall tab es m flag kept, @to_store FL tab es m flag kept -> kept = kept_of tab es m flag.
Proof.
  intros tab es m flag kept H. induction H as [|x xs r rs fl ys C H IH|x xs r rs z fl ys D H IH]; auto; cbn [kept_of].
  - apply complete_iff in C. rewrite C. cbn. now rewrite IH.
  - destruct D as [D|D].
    + apply Z.eqb_neq in D. now rewrite D.
    + destruct (complete_b tab r) eqn:C; [elim D; now apply complete_iff|]. now rewrite andb_false_r.
Qed.
Definition counted_b (tab : list (spec_float * spec_float)) (e : event FL) : bool :=
  existsb (fun cy => gives (@minv FL (map snd (filter (fun r => @ltb FL (@absv FL (@sub FL (fst r) cy)) (@lit FL 1 100000)) tab)))
    (fun mc => SFleb cy (ev_year e) && SFleb (@sub FL mc (@lit FL 1 100000)) (ev_mw e))) (map fst tab).
Lemma counted_b_ok : forall tab e, @counted FL tab e -> counted_b tab e = true.
Proof.
  intros tab e (cy & mc & I & M & A & B). unfold counted_b. apply existsb_exists. exists cy. split; auto.
  match goal with |- gives ?x _ = true => change x with (@minv FL (map snd (filter (fun r => @ltb FL (@absv FL (@sub FL (fst r) cy)) (@lit FL 1 100000)) tab))) end.
  unfold gives. rewrite M.
  cbn [leb FL FOps] in A, B. now rewrite A, B.
Qed.
Definition ellipse_b (e : entry FL) : bool :=
  forallb (fun f => match get (Some f) e with VStr [] => true | _ => false end) ellipse ||
  forallb (fun f => match get (Some f) e with VFlt _ => true | _ => false end) ellipse.
Lemma ellipse_b_ok : forall e, ellipse_b e = true -> ellipse_consistent e.
Proof.
  intros e H. unfold ellipse_b in H. apply orb_true_iff in H. destruct H as [H|H]; rewrite forallb_forall in H; [left|right].
  - intros f I. specialize (H f I). destruct (get (Some f) e) as [| |[|]| |]; try discriminate H. reflexivity.
  - intros f I. specialize (H f I). destruct (get (Some f) e); try discriminate H. eauto.
Qed.
Definition same5 (x : spec_float) : bool := same_float (Some (@stored5 FL x)) x.
Lemma same5_ok : forall x, same5 x = true -> @stored5 FL x = x.
Proof. intros x H. unfold same5 in H. apply same_float_eq in H. now injection H. Qed.

(** The conditions of C70 for a catalogue read from [ct]. *)
Definition restartable (n k : nat) (ct : text) (c : context FL) : bool :=
  gives (@read_eq_catalog FL (w_parse_float DW) (w_now_year DW) (w_dict_order DW) ct) (fun es =>
  gives (mapM matrix_row es) (fun m =>
  some_is (cx_flag c) (fun flag => some_is (cx_table c) (fun tab => some_is (cx_working c) (fun w =>
    let kept := kept_of tab es m flag in
    Nat.eqb (length w) n && Nat.eqb (length kept) k && negb (Nat.eqb (length kept) 0) && negb (Nat.eqb (length tab) 0) &&
    forallb ellipse_b es && forallb ellipse_b kept && forallb (fun r => same5 (fst r) && same5 (snd r)) tab &&
    forallb (fun e => negb (counted_b tab e) || complete_b tab e) w))))).

Lemma restartable_ok : forall n k ct p cf f c, restartable n k ct c = true -> cf_eq_catalog_file cf = Given p -> f p = Some ct ->
  (forall es m flag kept tab w, catalogue_read DW cf f es -> mapM matrix_row es = Ok m -> cx_flag c = Some flag ->
     cx_table c = Some tab -> cx_working c = Some w -> to_store tab es m flag kept ->
     length w = n /\ length kept = k /\
     kept <> [] /\ tab <> [] /\ Forall ellipse_consistent es /\ Forall ellipse_consistent kept /\
     Forall (fun r => @stored5 FL (fst r) = fst r /\ @stored5 FL (snd r) = snd r) tab /\
     (forall e, In e w -> counted tab e -> complete tab e)).
Proof.
  intros n k ct p cf f c H CF FP es m flag kept tab w (p' & ct' & A1 & A2 & A3) MR F0 T0 W0 TS.
  assert (ct' = ct) by congruence. subst ct'. unfold restartable in H. rewrite A3 in H. cbn [gives] in H. rewrite MR in H. cbn [gives] in H.
  rewrite F0, T0, W0 in H. cbn [some_is] in H. apply kept_is in TS. rewrite <- TS in H.
  repeat (apply andb_true_iff in H; destruct H as (H & ?)).
  repeat match goal with X : Nat.eqb _ _ = true |- _ => apply Nat.eqb_eq in X end.
  split; auto. split; auto.
  split. { intros E. rewrite E in *. discriminate. }
  split. { intros E. rewrite E in *. discriminate. }
  split. { apply Forall_forall. intros x I. apply ellipse_b_ok. match goal with X : forallb ellipse_b es = true |- _ => rewrite forallb_forall in X; auto end. }
  split. { apply Forall_forall. intros x I. apply ellipse_b_ok. match goal with X : forallb ellipse_b kept = true |- _ => rewrite forallb_forall in X; auto end. }
  split. { apply Forall_forall. intros x I. match goal with X : forallb _ tab = true |- _ => rewrite forallb_forall in X; specialize (X x I); apply andb_true_iff in X; destruct X end.
    split; now apply same5_ok. }
  intros e I C. apply counted_b_ok in C. match goal with X : forallb _ w = true |- _ => rewrite forallb_forall in X; specialize (X e I); rewrite C in X end.
  now apply complete_iff.
Qed.

Definition mle_first : config FL := locked (one_run "MLE" ["GardnerKnopoff"; "Stepp"]).
Lemma mle_first_runs : completes (restartable 12 9 (ctext quakes)) (run_config DW mle_first dfiles) = true.
Proof. vm_compute. reflexivity. Qed.

Lemma locked_restarts : forall cf cf2 p q, restarts cf cf2 p q -> restarts (locked cf) cf2 p q.
Proof. intros [] cf2 p q H. exact H. Qed.
Lemma locked_same : forall cf cf2, same_processing cf cf2 -> same_processing (locked cf) cf2.
Proof. intros [] cf2 H. exact H. Qed.
Lemma locked_mle : forall cf, only_mle cf -> only_mle (locked cf).
Proof. intros [] H. exact H. Qed.
Lemma locked_jobs : forall cf l, jobs_set (cf_preprocessing_jobs cf) l -> jobs_set (cf_preprocessing_jobs (locked cf)) l.
Proof. intros [] l H. exact H. Qed.

Lemma C70_case_proof : exists c1,
  restarts mle_first (second_run "MLE") (t "out/cat.csv") (t "out/tab.csv") /\ same_processing mle_first (second_run "MLE") /\ only_mle mle_first /\
  jobs_set (cf_preprocessing_jobs mle_first) ["GardnerKnopoff"; "Stepp"] /\ gk_first ["GardnerKnopoff"; "Stepp"] /\
  run_config DW mle_first dfiles = (c1, None) /\
  (forall es m flag kept tab w, catalogue_read DW mle_first dfiles es -> mapM matrix_row es = Ok m -> cx_flag c1 = Some flag ->
     cx_table c1 = Some tab -> cx_working c1 = Some w -> to_store tab es m flag kept ->
     length w = 12 /\ length kept = 9 /\
     kept <> [] /\ tab <> [] /\ Forall ellipse_consistent kept /\
     Forall (fun r => @stored5 FL (fst r) = fst r /\ @stored5 FL (snd r) = snd r) tab /\
     (forall e, In e w -> counted tab e -> complete tab e)).
Proof.
  destruct (ok_gives _ _ mle_first_runs) as (c1 & R & P). exists c1.
  split; [exact (locked_restarts _ _ _ _ (demo_restarts "MLE" ["GardnerKnopoff"; "Stepp"]))|].
  split; [exact (locked_same _ _ (demo_same_processing "MLE" ["GardnerKnopoff"; "Stepp"]))|].
  split. { apply locked_mle. apply (demo_only_mle "MLE" ["GardnerKnopoff"; "Stepp"]). clear; discriminate. }
  split. { apply locked_jobs. split; [reflexivity|clear; discriminate]. } split; [exact gk_stepp|]. split; [exact R|].
  intros es m flag kept tab w A1 A2 A3 A4 A5 A6.
  destruct (restartable_ok 12 9 (ctext quakes) (t "in/cat.csv") mle_first dfiles c1 P eq_refl eq_refl es m flag kept tab w A1 A2 A3 A4 A5 A6) as (B1 & B2 & B3 & B4 & _ & B5 & B6 & B7).
  auto 10.
Qed.

(** The declustering case, with both zones and both processing jobs. *)
Lemma basic_restarts : restarts basic basic_again (t "out/cat.csv") (t "out/tab.csv").
Proof. unfold restarts, basic, basic_again, dconfig, dconfig_again. cbn -[t fl]. repeat split; try discriminate; try reflexivity. now left. Qed.
Lemma basic_restartable : completes (restartable 12 12 (ctext quakes)) (run_config DW basic dfiles) = true.
Proof. vm_compute. reflexivity. Qed.
Lemma basic_catalogue : gives (@read_eq_catalog FL (w_parse_float DW) (w_now_year DW) (w_dict_order DW) (ctext quakes)) (forallb ellipse_b) = true.
Proof. vm_compute. reflexivity. Qed.
Definition default_table (c : context FL) : bool :=
  some_is (cx_working c) (fun w => negb (Nat.eqb (length w) 0)) && some_is (cx_table c) (forallb (fun r => same5 (fst r) && same5 (snd r))).
Lemma basic_default : completes default_table (run_config DW basic dfiles) = true.
Proof. vm_compute. reflexivity. Qed.
Lemma C70_declustered_case_proof : exists c1,
  restarts basic basic_again (t "out/cat.csv") (t "out/tab.csv") /\ same_processing basic basic_again /\ cf_mm basic_again = cf_mm basic /\ only_processing basic /\
  jobs_set (cf_preprocessing_jobs basic) ["GardnerKnopoff"] /\ gk_first ["GardnerKnopoff"] /\
  run_config DW basic dfiles = (c1, None) /\
  (forall es, catalogue_read DW basic dfiles es -> Forall ellipse_consistent es) /\
  (forall w, cx_working c1 = Some w -> w <> []) /\
  (forall y0 m0, cx_table c1 = Some [(y0, m0)] -> @stored5 FL y0 = y0 /\ @stored5 FL m0 = m0).
Proof.
  destruct (ok_gives _ _ basic_default) as (c1 & R & P). exists c1.
  split; [exact basic_restarts|]. split; [repeat split; reflexivity|]. split; [reflexivity|]. split; [exact basic_only|]. split; [exact basic_jobs|].
  split; [exact gk_only|]. split; [exact R|]. clear R. unfold default_table in P. apply andb_true_iff in P. destruct P as (P1 & P2).
  split; [|split].
  - intros es (p & ct & A1 & A2 & A3). cbn in A1. injection A1 as <-. change (dfiles (t "in/cat.csv")) with (Some (ctext quakes)) in A2. injection A2 as <-.
    pose proof basic_catalogue as B. rewrite A3 in B. cbn [gives] in B. rewrite forallb_forall in B. apply Forall_forall. intros x I. apply ellipse_b_ok. auto.
  - intros w E. rewrite E in P1. intros ->. discriminate P1.
  - intros y0 m0 E. rewrite E in P2. cbn [some_is forallb fst snd] in P2. apply andb_true_iff in P2. destruct P2 as (P2 & _).
    apply andb_true_iff in P2. destruct P2. split; now apply same5_ok.
Qed.

(** C72, C86, C87. *)
Lemma C72_case_proof : (exists c, run_config DW basic dfiles = (c, None)) /\
  (exists c, run_config DW with_empty_zone dfiles = (c, Some IndexError)) /\ cf_result_file with_empty_zone = Given (t "out/res.xml") /\
  cf_pprocessing_result_file with_empty_zone <> Given (t "out/res.xml") /\ cf_completeness_table_file with_empty_zone <> Given (t "out/res.xml").
Proof.
  split. { destruct (ok_gives _ _ basic_runs) as (c & R & _). exists c. exact R. }
  split. { destruct (exn_gives _ _ _ empty_zone_runs) as (c & e & R & E & _). destruct e; try discriminate E. exists c. exact R. }
  split; [reflexivity|]. split; discriminate.
Qed.

Definition bare : config FL :=
  dconfig (Given (t "in/ab.xml")) ["GardnerKnopoff"] ["Recurrence"; "MaximumMagnitude"] "MLE"
    (Given (t "out/cat.csv")) (Given (t "out/tab.csv")) (t "res.xml").
Lemma C87_case_proof : cf_result_file bare = Given (t "res.xml") /\ bare_name (t "res.xml") /\ w_exists DW [] = false.
Proof.
  split; [reflexivity|]. split; [|reflexivity]. intros I. cbn in I. repeat (destruct I as [I|I]; [discriminate I|]). exact I.
Qed.

(** C73. *)
Lemma C73_case_proof : exists w eqs, w <> [] /\ events_of DW SourceModelCatalogFilter zone_b w eqs /\ length eqs = 4 /\ events_of DW SourceModelCatalogFilter zone_c w [] /\
  (forall cat, filter_eqs DW SourceModelCatalogFilter (@mkSource FL None None None None None (@mkBoundary FL None []) (as_rate zone_a) (as_depth zone_a) (fl "0") None None None) cat = Err RuntimeError).
Proof.
  assert (K : completes (fun c =>
    some_is (cx_working c) (fun w => negb (Nat.eqb (length w) 0) && gives (filter_eqs DW SourceModelCatalogFilter zone_b w) (fun l => Nat.eqb (length l) 4) &&
      gives (filter_eqs DW SourceModelCatalogFilter zone_c w) (fun l => Nat.eqb (length l) 0))) (run_config DW basic dfiles) = true) by (vm_compute; reflexivity).
  destruct (ok_gives _ _ K) as (c & _ & P). clear K. destruct (cx_working c) as [w|]; [|discriminate P]. cbn [some_is] in P.
  apply andb_true_iff in P. destruct P as (P & P3). apply andb_true_iff in P. destruct P as (P1 & P2).
  destruct (filter_eqs DW SourceModelCatalogFilter zone_b w) as [eqs|] eqn:F1; [|discriminate P2].
  destruct (filter_eqs DW SourceModelCatalogFilter zone_c w) as [[|]|] eqn:F2; try discriminate P3.
  exists w, eqs. split. { intros E. rewrite E in P1. discriminate P1. } split; [now apply C73_proof|]. split; [now apply Nat.eqb_eq|]. split; [now apply C73_proof|].
  intros cat. reflexivity.
Qed.

(** C74. *)
Lemma basic_base : completes (flagged_are 14 0) (pipeline_run DW base4 (init_context basic dfiles)) = true.
Proof. vm_compute. reflexivity. Qed.
Lemma C74_case_proof : source_job (cf_source_model_file basic) J_read_source_model /\ rearranges (w_dict_order DW) /\
  exists c fl, steps DW [J_read_eq_catalog; J_read_source_model; J_create_catalog_matrix; J_create_default_values] (init_context basic dfiles) c /\
    cx_flag c = Some fl /\ length fl = 14.
Proof.
  split; [constructor; eexists; split; [reflexivity|discriminate]|]. split; [exact DW_order|].
  destruct (pipeline_gives _ _ _ basic_base) as (c & S1 & P). apply flagged_gives in P. destruct P as (fl & F & L & _). exists c, fl. split; [exact S1|]. auto.
Qed.
Lemma C74_stored_case_proof : is_argsort (w_argsort DW) /\ preprocessing_build basic = Ok (base4 ++ [J_gardner_knopoff] ++ stores3)%list /\
  jobs_set (cf_preprocessing_jobs basic) ["GardnerKnopoff"] /\ gk_first ["GardnerKnopoff"] /\
  exists c, steps DW (base4 ++ [J_gardner_knopoff] ++ stores3) (init_context basic dfiles) c /\
    (forall m, cx_matrix c = Some m -> @ordered_values FL (map ev_year m)).
Proof.
  split; [exact demo_argsort_ok|]. split; [exact basic_build|]. split; [exact basic_jobs|]. split; [exact gk_only|].
  destruct (pipeline_gives _ _ _ basic_preprocessing) as (c & S1 & P). exists c. split; [exact S1|]. intros m M1.
  destruct (storing_run DW demo_argsort_ok basic dfiles _ ["GardnerKnopoff"] (t "out/cat.csv") c basic_build basic_jobs gk_only eq_refl ltac:(clear; discriminate) ltac:(clear; discriminate) S1) as
    (sj & js & c0 & es & m' & w & flag & tab & kept & content & pt & _ & _ & _ & _ & CR & MR & _ & M1' & _).
  assert (E : m' = m) by (rewrite M1 in M1'; now injection M1'). subst m'. exact (years_of DW DW_order (F_years L) basic dfiles es m CR MR).
Qed.

(** C69: over the reals, and the empty table. *)
Definition RW : world ROps := mkWorld ROps (fun _ => []) (fun _ => None) (fun _ => []) (fun _ => []) 2013%Z (fun l => l) (fun _ => true)
  (fun _ => []) (fun _ => None) (fun _ => Err RuntimeError) (fun _ _ _ => false) (fun _ _ => []) 0 (fun _ => true) (fun _ => true).
Definition rconf : config ROps := mkConfig Null Null Null Null (Given (t "tab.csv")) Null Null Null (Err KeyError) (Err KeyError) (Err KeyError) (Err KeyError) (Err KeyError).
Definition rcontext (tab : list (@T ROps * @T ROps)) : context ROps := set_table (Some tab) (init_context rconf (fun _ => None)).
Lemma C69_case_proof : let tab : list (@T ROps * @T ROps) := [(1990%R, (45 / 10)%R); (1965%R, (50001 / 10000)%R)] in exists c1,
  cf_completeness_table_file (cx_config (rcontext tab)) = Given (t "tab.csv") /\ cx_table (rcontext tab) = Some tab /\
  run_job RW J_store_completeness_table (rcontext tab) = (c1, None) /\
  Forall (fun r => five_decimals (fst r) /\ five_decimals (snd r)) tab.
Proof.
  intros tab. eexists. split; [reflexivity|]. split; [reflexivity|]. split; [reflexivity|].
  unfold tab. repeat constructor; cbn [fst snd]; unfold five_decimals.
  - exists 199000000%Z. lra.
  - exists 450000%Z. lra.
  - exists 196500000%Z. lra.
  - exists 500010%Z. lra.
Qed.
Lemma C69_empty_case_proof : exists c1, run_job RW J_store_completeness_table (rcontext []) = (c1, None).
Proof. eexists. reflexivity. Qed.

(** C75. *)
Definition conf_files : files := write_file (t "conf.yml") (t "x") dfiles.
Lemma conf_runs : completes two_values (run_config DW basic conf_files) = true.
Proof. vm_compute. reflexivity. Qed.
Lemma C75_case_proof :
  (exists c, main DW (fun _ => Ok basic) (Options (Some (t "conf.yml")) true) conf_files = Ran c None) /\ conf_files (t "other.yml") = None.
Proof.
  split; [|reflexivity]. destruct (ok_gives _ _ conf_runs) as (c & R & _). exists c.
  apply (proj2 (C75_proof DW (fun _ => Ok basic) (Options (Some (t "conf.yml")) true) conf_files) c None).
  exists (t "conf.yml"), true, (t "x"), basic. split; [reflexivity|]. split; [reflexivity|]. split; [reflexivity|]. exact R.
Qed.
