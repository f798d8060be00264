(** The concrete cases and the counterexamples of the workflow properties. *)
From Coq Require Import ZArith Bool Ascii String List Lia Permutation.
From Coq Require Import Floats.SpecFloat.
From Verif Require Import Base Ops BaseFacts FloatOps Libm CatUtil Decluster DeclusterSpec PyStr PyStrProofs Csv CsvProofs PyFloat PyFloatProofs
  EqCatalog EqCatSpec EqCatRound EqCatWitness SourceModel Nrml World CatalogFilter Recurrence MaxMag Jobs Workflow Main
  FlowSpec FlowPipe FlowFiles FlowTable FlowPre FlowStore FlowTwoStep PyNearest PyTexts Demo FlowDemo.
From Coq Require Import List.
Import ListNotations.
Local Open Scope string_scope.

(** ** The demonstration world *)

Lemma insert_permutation : forall x l, Permutation (arg_insert x l) (x :: l).
Proof.
  intros x l. induction l as [|y l IH]; cbn [arg_insert]; [apply Permutation_refl|].
  destruct (SFltb (fst y) (fst x)); [|apply Permutation_refl].
  eapply perm_trans; [apply perm_skip, IH|apply perm_swap].
Qed.

Lemma demo_argsort_ok : @is_argsort FL demo_argsort.
Proof.
  intros l. unfold demo_argsort.
  assert (P : forall q : list (spec_float * nat), Permutation (fold_right arg_insert [] q) q).
  { induction q as [|x q IH]; cbn [fold_right]; auto. eapply perm_trans; [apply insert_permutation|now apply perm_skip]. }
  eapply perm_trans; [apply Permutation_map, P|].
  assert (E : forall (a : list spec_float) (b : list nat), length b = length a -> map snd (combine a b) = b).
  { induction a as [|x a IH]; intros [|y b] L; try discriminate; auto. cbn [combine map snd]. f_equal. apply IH. now injection L. }
  rewrite E; [apply Permutation_refl|apply seq_length].
Qed.

Lemma DW_order : rearranges (w_dict_order DW).
Proof. exact cpython_rearranges. Qed.
Lemma DW_read : forall s x, w_parse_float DW s = Some x ->
  w_parse_float DW (w_repr_float DW x) = Some x /\ ~ In chr_nul (w_repr_float DW x).
Proof. exact py_num_read. Qed.
Lemma DW_zero : w_parse_float DW (w_repr_float DW (ofZ 0)) = Some (ofZ 0) /\ ~ In chr_nul (w_repr_float DW (ofZ 0)).
Proof. exact (py_num_zero L). Qed.
Lemma DW_empty : w_parse_float DW [] = None.
Proof. reflexivity. Qed.

(** A run that succeeds. *)
Definition succeeds (r : context FL * option exn) : bool := match snd r with None => true | Some _ => false end.
Lemma succeeds_run : forall r, succeeds r = true -> r = (fst r, None).
Proof. intros (c, [e|]) H; [discriminate|reflexivity]. Qed.

Definition outcome_is (r : context FL * option exn) (p : context FL -> option exn -> bool) : bool := p (fst r) (snd r).

(** The number a source got. *)
Definition b_value (s : area_source FL) : spec_float := @tg_b FL (rm_tgr (as_rate s)).

Lemma gk_only : gk_first ["GardnerKnopoff"].
Proof.
  intros a b E. destruct a as [|x a]; [split; intros []|]. exfalso. injection E as _ E. destruct a; discriminate.
Qed.
Lemma gk_stepp : gk_first ["GardnerKnopoff"; "Stepp"].
Proof.
  intros a b E. destruct a as [|x a]; [split; intros []|]. exfalso. injection E as _ E. destruct a as [|y a]; [discriminate|]. injection E as _ E. destruct a; discriminate.
Qed.

Lemma ne : forall a b : text, text_eqb a b = false -> a <> b.
Proof. intros a b H ->. assert (E : text_eqb b b = true) by (now apply text_eqb_eq). congruence. Qed.

Lemma demo_restarts : forall alg pre, restarts (one_run alg pre) (second_run alg) (t "out/cat.csv") (t "out/tab.csv").
Proof.
  intros alg pre. unfold restarts, one_run, second_run, dconfig, dconfig_again. cbn -[t fl].
  repeat split; try discriminate; try reflexivity. now left.
Qed.

Lemma demo_same_processing : forall alg pre, same_processing (one_run alg pre) (second_run alg).
Proof. intros. repeat split; reflexivity. Qed.

Lemma demo_only_mle : forall alg pre, alg <> "Weichert" -> only_mle (one_run alg pre).
Proof.
  intros alg pre N. split.
  - intros l n E I. cbn in E. injection E as <-. destruct I as [<-|[]]. reflexivity.
  - intros k E. cbn -[fl] in E. injection E as <-. exact N.
Qed.

(** ** C70 is false *)

(** The one run and the two runs give different b-values. *)
Definition different (r1 : context FL * option exn) (run2 : files -> context FL * option exn) : bool :=
  succeeds r1 &&
  (let r2 := run2 (cx_files (fst r1)) in
   succeeds r2 &&
   some_is (cx_sms (fst r1)) (fun s1 => some_is (cx_sms (fst r2)) (fun s2 =>
     match s1, s2 with [a], [b] => SFltb (SFadd prec64 emax64 (b_value a) (fl "0.1")) (b_value b) | _, _ => false end))).

Lemma different_gives : forall r1 run2, different r1 run2 = true -> exists c1 c2 s1 s2,
  r1 = (c1, None) /\ run2 (cx_files c1) = (c2, None) /\ cx_sms c1 = Some [s1] /\ cx_sms c2 = Some [s2] /\
  @ltb FL (@add FL (b_value s1) (fl "0.1")) (b_value s2) = true.
Proof.
  intros (c1, e1) run2 H. unfold different in H. cbn [fst] in H. destruct (run2 (cx_files c1)) as (c2, e2) eqn:R2. cbn [fst] in H.
  apply andb_true_iff in H. destruct H as (H1 & H). apply andb_true_iff in H. destruct H as (H2 & H).
  destruct e1; [discriminate H1|]. destruct e2; [discriminate H2|].
  destruct (cx_sms c1) as [[|s1 [|]]|] eqn:S1; try discriminate H; destruct (cx_sms c2) as [[|s2 [|]]|] eqn:S2; try discriminate H.
  exists c1, c2, s1, s2. auto 10.
Qed.

Lemma demo_different : different (run_config DW (one_run "MLE" ["GardnerKnopoff"; "Stepp"]) dfiles) (run_config DW (second_run "MLE")) = true.
Proof. vm_compute. reflexivity. Qed.

Lemma C70_refuted_proof : exists (W : world FL) cf1 cf2 f l p pt c1 c2 s1 s2,
  is_argsort (w_argsort W) /\ rearranges (w_dict_order W) /\
  restarts cf1 cf2 p pt /\ same_processing cf1 cf2 /\ only_mle cf1 /\
  jobs_set (cf_preprocessing_jobs cf1) l /\ gk_first l /\
  run_config W cf1 f = (c1, None) /\ run_config W cf2 (cx_files c1) = (c2, None) /\
  cx_sms c1 = Some [s1] /\ cx_sms c2 = Some [s2] /\
  @ltb FL (@add FL (b_value s1) (fl "0.1")) (b_value s2) = true.
Proof.
  destruct (different_gives _ _ demo_different) as (c1 & c2 & s1 & s2 & H).
  exists DW, (one_run "MLE" ["GardnerKnopoff"; "Stepp"]), (second_run "MLE"), dfiles, ["GardnerKnopoff"; "Stepp"], (t "out/cat.csv"), (t "out/tab.csv"), c1, c2, s1, s2.
  split; [exact demo_argsort_ok|]. split; [exact cpython_rearranges|]. split; [apply demo_restarts|]. split; [apply demo_same_processing|].
  split; [apply demo_only_mle; clear; discriminate|]. split; [split; [reflexivity|clear; discriminate]|]. split; [exact gk_stepp|]. exact H.
Qed.
