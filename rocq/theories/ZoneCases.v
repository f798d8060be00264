(** Two catalogues of the demonstration: cases and a counterexample (C114, C115). *)
From Coq Require Import ZArith Bool Ascii String List.
From Coq Require Import Floats.SpecFloat.
From Verif Require Import Base Ops BaseFacts FloatOps Libm CatUtil PyStr PyStrProofs PyFloat EqCatalog EqCatSpec EqCatWitness PyTexts
  SourceModel Nrml World CatalogFilter Jobs Workflow Main FlowSpec FlowPipe FlowFiles Demo FlowDemo FlowWitness FlowCases ZoneSpec FlowZones ReuseCases.
From Coq Require Import List.
Import ListNotations.
Local Open Scope nat_scope.
Local Open Scope string_scope.

Definition entries_in (content : text) : list (entry FL) :=
  match @read_eq_catalog FL (w_parse_float DW) (w_now_year DW) (w_dict_order DW) content with Ok es => es | Err _ => [] end.
Definition rows_in (content : text) : list (event FL) :=
  match mapM matrix_row (entries_in content) with Ok m => m | Err _ => [] end.

(** ** C114 *)

(** No preprocessing jobs; a completeness table is given or not. *)
Definition plain (table : cval text) : config FL :=
  dconfig (Given (t "in/ab.xml")) [] ["Recurrence"; "MaximumMagnitude"] "MLE" Null table (t "out/res.xml").

(** A small earthquake of 1950 that is in neither zone. *)
Definition far_quakes := (quakes ++ [quake "15" "1950" "1" "1" "60.0" "38.5" "4.0"])%list.
Definition far_row : event FL := @mkEvent FL (fl "1950.0") (fl "1.0") (fl "1.0") (fl "60.0") (fl "38.5") (fl "4.0") (fl "0.1").

Definition near_files : files := write_file (t "in/tab.csv") (t "1960.0, 5.0
") dfiles.
Definition far_files : files := write_file (t "in/cat.csv") (ctext far_quakes) near_files.

Lemma plain_only : forall table, only_processing (plain table).
Proof. intros table l n E I. injection E as <-. destruct I as [<-|[<-|[]]]; auto. Qed.

Lemma far_agree : forall q, q <> t "in/cat.csv" -> far_files q = near_files q.
Proof. intros q N. unfold far_files, write_file at 1. destruct (text_eqb (t "in/cat.csv") q) eqn:E; auto. apply text_eqb_eq in E. congruence. Qed.

Lemma near_sources : forall table, sources_read DW (plain table) near_files [zone_a; zone_b].
Proof.
  intros table. exists (t "in/ab.xml"), (t "ab"), (document [zone_a; zone_b]). split; [reflexivity|]. split; [discriminate|]. split; [reflexivity|]. split; [reflexivity|].
  vm_cast_no_check (@eq_refl (list (area_source FL) * option exn) ([zone_a; zone_b], None)).
Qed.

Lemma near_read : forall table, catalogue_read DW (plain table) near_files (entries_in (ctext quakes)).
Proof.
  intros table. exists (t "in/cat.csv"), (ctext quakes). split; [reflexivity|]. split; [reflexivity|].
  vm_cast_no_check (@eq_refl (res (list (entry FL))) (Ok (entries_in (ctext quakes)))).
Qed.
Lemma far_read : forall table, catalogue_read DW (plain table) far_files (entries_in (ctext far_quakes)).
Proof.
  intros table. exists (t "in/cat.csv"), (ctext far_quakes). split; [reflexivity|]. split; [reflexivity|].
  vm_cast_no_check (@eq_refl (res (list (entry FL))) (Ok (entries_in (ctext far_quakes)))).
Qed.
Lemma near_rows : mapM matrix_row (entries_in (ctext quakes)) = Ok (rows_in (ctext quakes)).
Proof. vm_cast_no_check (@eq_refl (res (list (event FL))) (Ok (rows_in (ctext quakes)))). Qed.
Lemma far_rows : mapM matrix_row (entries_in (ctext far_quakes)) = Ok (rows_in (ctext quakes) ++ [far_row])%list.
Proof. vm_cast_no_check (@eq_refl (res (list (event FL))) (Ok (rows_in (ctext quakes) ++ [far_row])%list)). Qed.

Lemma far_outside : ~ in_some_zone DW [zone_a; zone_b] far_row.
Proof.
  intros (s & I & C). destruct I as [<-|[<-|[]]].
  - assert (X : w_contains DW (ab_pos (as_boundary zone_a)) (ev_lon far_row) (ev_lat far_row) = false) by (vm_cast_no_check (@eq_refl bool false)). congruence.
  - assert (X : w_contains DW (ab_pos (as_boundary zone_b)) (ev_lon far_row) (ev_lat far_row) = false) by (vm_cast_no_check (@eq_refl bool false)). congruence.
Qed.

Lemma one_more : forall {A : Type} (inside : A -> Prop) l a, ~ inside a -> differ_outside inside l (l ++ [a])%list.
Proof. intros A inside l a N. induction l as [|b l IH]; cbn; [apply DO_second; auto; constructor|now constructor]. Qed.

Definition tabled : config FL := plain (Given (t "in/tab.csv")).
Lemma tabled_runs : completes (fun _ => true) (run_config DW tabled near_files) = true.
Proof. vm_cast_no_check (@eq_refl bool true). Qed.
Lemma some_rows : forall {A : Type} (l : list A) a, (l ++ [a])%list <> [].
Proof. intros A [|b l] a; discriminate. Qed.

Lemma C114_case_proof : exists m1 m2 c1,
  only_processing tabled /\ jobs_unset (cf_preprocessing_jobs tabled) /\ cf_eq_catalog_file tabled = Given (t "in/cat.csv") /\
  cf_source_model_file tabled <> Given (t "in/cat.csv") /\ cf_completeness_table_file tabled <> Given (t "in/cat.csv") /\
  (forall q, q <> t "in/cat.csv" -> far_files q = near_files q) /\ sources_read DW tabled near_files [zone_a; zone_b] /\
  catalogue_read DW tabled near_files (entries_in (ctext quakes)) /\ mapM matrix_row (entries_in (ctext quakes)) = Ok m1 /\
  catalogue_read DW tabled far_files (entries_in (ctext far_quakes)) /\ mapM matrix_row (entries_in (ctext far_quakes)) = Ok m2 /\ m2 <> [] /\
  differ_outside (in_some_zone DW [zone_a; zone_b]) m1 m2 /\ length m2 = 15 /\
  file_set (cf_completeness_table_file tabled) /\ run_config DW tabled near_files = (c1, None).
Proof.
  destruct (ok_gives _ _ tabled_runs) as (c1 & R1 & _). exists (rows_in (ctext quakes)), (rows_in (ctext quakes) ++ [far_row])%list, c1.
  split; [apply plain_only|]. split; [now left|]. split; [reflexivity|]. split; [clear; discriminate|]. split; [clear; discriminate|].
  split; [exact far_agree|]. split; [apply near_sources|]. split; [apply near_read|]. split; [exact near_rows|]. split; [apply far_read|]. split; [exact far_rows|].
  split; [apply some_rows|]. split; [apply one_more; exact far_outside|]. split; [vm_cast_no_check (@eq_refl nat 15)|].
  split; [exists (t "in/tab.csv"); split; [reflexivity|clear; discriminate]|exact R1].
Qed.

(** Without a table the oldest and the smallest event of the whole catalogue make it. *)
Definition untabled : config FL := plain Null.
Lemma untabled_runs : completes (fun _ => true) (run_config DW untabled near_files) = true.
Proof. vm_cast_no_check (@eq_refl bool true). Qed.
Lemma untabled_far_runs : completes (fun c2 => negb (opt_text_eqb (res_text (fst (run_config DW untabled near_files))) (res_text c2))) (run_config DW untabled far_files) = true.
Proof. vm_cast_no_check (@eq_refl bool true). Qed.

Lemma C114_refuted_proof : exists (W : world FL) cf cat p f1 f2 ss es1 es2 m1 m2 c1 c2,
  only_processing cf /\ jobs_unset (cf_preprocessing_jobs cf) /\ cf_eq_catalog_file cf = Given cat /\
  cf_source_model_file cf <> Given cat /\ cf_completeness_table_file cf <> Given cat /\ cf_result_file cf = Given p /\
  (forall q, q <> cat -> f2 q = f1 q) /\ sources_read W cf f1 ss /\
  catalogue_read W cf f1 es1 /\ mapM matrix_row es1 = Ok m1 /\ catalogue_read W cf f2 es2 /\ mapM matrix_row es2 = Ok m2 /\ m2 <> [] /\
  differ_outside (in_some_zone W ss) m1 m2 /\
  run_config W cf f1 = (c1, None) /\ run_config W cf f2 = (c2, None) /\ cx_files c2 p <> cx_files c1 p.
Proof.
  destruct (ok_gives _ _ untabled_runs) as (c1 & R1 & _). destruct (ok_gives _ _ untabled_far_runs) as (c2 & R2 & Q).
  exists DW, untabled, (t "in/cat.csv"), (t "out/res.xml"), near_files, far_files, [zone_a; zone_b], (entries_in (ctext quakes)), (entries_in (ctext far_quakes)),
    (rows_in (ctext quakes)), (rows_in (ctext quakes) ++ [far_row])%list, c1, c2.
  split; [apply plain_only|]. split; [now left|]. split; [reflexivity|]. split; [clear; discriminate|]. split; [clear; discriminate|]. split; [reflexivity|].
  split; [exact far_agree|]. split; [apply near_sources|]. split; [apply near_read|]. split; [exact near_rows|]. split; [apply far_read|]. split; [exact far_rows|].
  split; [apply some_rows|]. split; [apply one_more; exact far_outside|]. split; [exact R1|]. split; [exact R2|].
  intros E. rewrite R1 in Q. cbn [fst] in Q. unfold res_text in Q. rewrite E in Q. destruct (cx_files c1 (t "out/res.xml")) as [x|]; cbn in Q; [|discriminate].
  assert (X : text_eqb x x = true) by (now apply text_eqb_eq). rewrite X in Q. discriminate.
Qed.

(** ** C115 *)

(** The same earthquakes at another hour, from another agency and 12 km deep. *)
Definition replace_row (r : list text) : list text :=
  match r with
  | [a; _; c; y; m; d; _; _; _; te; lon; lat; e1; e2; e3; _; de; mw; s; z1; z2; z3; z4; z5; z6] =>
      [a; t "BBB"; c; y; m; d; t "13"; t "14"; t "15.5"; te; lon; lat; e1; e2; e3; t "12"; de; mw; s; z1; z2; z3; z4; z5; z6]
  | _ => r
  end.
Definition quakes2 := map replace_row quakes.
Definition files2 : files := write_file (t "in/cat.csv") (ctext quakes2) dfiles.

Definition pyval_eqb (a b : pyval FL) : bool :=
  match a, b with
  | VInt x, VInt y => Z.eqb x y
  | VFlt x, VFlt y => match x, y with
      | S754_zero s, S754_zero s' => Bool.eqb s s'
      | S754_infinity s, S754_infinity s' => Bool.eqb s s'
      | S754_nan, S754_nan => true
      | S754_finite s m e, S754_finite s' m' e' => Bool.eqb s s' && Pos.eqb m m' && Z.eqb e e'
      | _, _ => false
      end
  | VStr x, VStr y => text_eqb x y
  | _, _ => false
  end.
Fixpoint list_eqb {A} (eq : A -> A -> bool) (a b : list A) : bool :=
  match a, b with [], [] => true | x :: a, y :: b => eq x y && list_eqb eq a b | _, _ => false end.
Definition same_usedb (a b : entry FL) : bool :=
  forallb (fun f => list_eqb pyval_eqb (map snd (filter (fun kv => key_eqb (Some f) (fst kv)) a)) (map snd (filter (fun kv => key_eqb (Some f) (fst kv)) b))) used_columns.

Lemma pyval_eqb_ok : forall a b, pyval_eqb a b = true -> a = b.
Proof.
  intros [x|x|x| |x] [y|y|y| |y] H; try discriminate.
  - apply Z.eqb_eq in H. now subst.
  - destruct x as [s|s| |s m e], y as [s'|s'| |s' m' e']; try discriminate; cbn in H; auto.
    + apply Bool.eqb_prop in H. now subst.
    + apply Bool.eqb_prop in H. now subst.
    + apply andb_true_iff in H. destruct H as (H & E). apply andb_true_iff in H. destruct H as (S & M). apply Bool.eqb_prop in S. apply Pos.eqb_eq in M. apply Z.eqb_eq in E. now subst.
  - apply text_eqb_eq in H. now subst.
Qed.
Lemma list_eqb_ok : forall a b, list_eqb pyval_eqb a b = true -> a = b.
Proof. induction a as [|x a IH]; intros [|y b] H; try discriminate; auto. cbn in H. apply andb_true_iff in H. destruct H as (X & H). f_equal; [now apply pyval_eqb_ok|auto]. Qed.
Lemma same_usedb_ok : forall a b, same_usedb a b = true -> same_used a b.
Proof. intros a b H f I. unfold same_usedb in H. rewrite forallb_forall in H. apply list_eqb_ok. now apply H. Qed.
Lemma forall2b_ok : forall l l', list_eqb same_usedb l l' = true -> Forall2 same_used l l'.
Proof. induction l as [|x l IH]; intros [|y l'] H; try discriminate; constructor; cbn in H; apply andb_true_iff in H; destruct H as (X & H); [now apply same_usedb_ok|auto]. Qed.

Lemma C115_case_proof : exists es1 es2 c1,
  rearranges (w_dict_order DW) /\ only_processing basic /\ cf_eq_catalog_file basic = Given (t "in/cat.csv") /\ 
  cf_source_model_file basic <> Given (t "in/cat.csv") /\ cf_completeness_table_file basic <> Given (t "in/cat.csv") /\
  (forall q, cf_completeness_table_file basic = Given q -> cf_pprocessing_result_file basic <> Given q) /\
  (forall q, q <> t "in/cat.csv" -> files2 q = dfiles q) /\ catalogue_read DW basic dfiles es1 /\ catalogue_read DW basic files2 es2 /\
  Forall2 same_used es1 es2 /\ length es1 = 14 /\ run_config DW basic dfiles = (c1, None).
Proof.
  destruct (ok_gives _ _ basic_runs) as (c1 & R1 & _). exists (entries_in (ctext quakes)), (entries_in (ctext quakes2)), c1.
  split; [exact cpython_rearranges|]. split; [exact basic_only|]. split; [reflexivity|]. split; [clear; discriminate|]. split; [clear; discriminate|].
  split; [intros q E; injection E as <-; clear; discriminate|].
  split; [intros q N; unfold files2, write_file; destruct (text_eqb (t "in/cat.csv") q) eqn:E; auto; apply text_eqb_eq in E; congruence|].
  split.
  { exists (t "in/cat.csv"), (ctext quakes). split; [reflexivity|]. split; [reflexivity|].
    vm_cast_no_check (@eq_refl (res (list (entry FL))) (Ok (entries_in (ctext quakes)))). }
  split.
  { exists (t "in/cat.csv"), (ctext quakes2). split; [reflexivity|]. split; [reflexivity|].
    vm_cast_no_check (@eq_refl (res (list (entry FL))) (Ok (entries_in (ctext quakes2)))). }
  split; [apply forall2b_ok; vm_cast_no_check (@eq_refl bool true)|]. split; [vm_cast_no_check (@eq_refl nat 14)|exact R1].
Qed.
