(** Values of at most five decimals, as doubles, survive the completeness table file. *)
From Coq Require Import ZArith Bool Ascii String List Lia Reals Lra.
From Coq Require Import Floats.SpecFloat.
From Flocq Require Import Core IEEE754.BinarySingleNaN.
From Verif Require Import Base Ops BaseFacts FloatOps FloatSpec CatUtil Decluster DeclusterSpec
  PyStr PyStrProofs Csv CsvProofs EqCatalog EqCatSpec EqCatRound SourceModel Nrml World CatalogFilter
  Recurrence MaxMag Jobs Workflow Main FlowSpec FlowPipe FlowFiles FlowTable FlowPre FlowStore FlowTwoStep
  PyFloat PyDecimal PyNearest PyRound PyTexts FReal FlowOrder.
From Coq Require Import List.
Import ListNotations.
Local Open Scope R_scope.

Local Instance Hprec : FLX.Prec_gt_0 prec64 := eq_refl _.
Local Instance Hmax : Prec_lt_emax prec64 emax64 := eq_refl _.
Local Instance Hp53 : FLX.Prec_gt_0 53 := eq_refl _.
Local Instance fexp64_valid : Valid_exp fexp64 := FLT_exp_valid (-1074) 53.

Lemma small_enough : forall v, Rabs v <= 10000000000000 -> Rabs (rnd v) < max64.
Proof.
  intros v H. apply Rle_lt_trans with (bpow radix2 50); [|apply bpow_lt; lia].
  apply abs_round_le_generic; auto with typeclass_instances.
  - apply generic_format_bpow. cbn. lia.
  - eapply Rle_trans; [exact H|]. cbn. lra.
Qed.

Lemma hundred : finite64 (F_ofZ 100000) /\ val (F_ofZ 100000) = 100000.
Proof. apply ofZ_real. cbn. lia. Qed.

Theorem five_places_stored : forall lm x, five_places x -> @stored5 (FOps lm) x = x.
Proof.
  intros lm x [->|(V & F & z & (Z0 & ZB) & E)]; [vm_compute; reflexivity|].
  assert (FX : finite64 x) by (split; auto).
  change (nearest64 (IZR z / 100000)) with (rnd (IZR z / 100000)) in E.
  destruct hundred as (F5 & V5).
  assert (AZ : 1 <= Rabs (IZR z) <= 1000000000000).
  { rewrite <- abs_IZR. split; apply IZR_le; lia. }
  assert (AD : Rabs (IZR z / 100000) = Rabs (IZR z) / 100000).
  { unfold Rdiv. rewrite Rabs_mult, (Rabs_pos_eq (/ 100000)) by lra. reflexivity. }
  assert (E1 : Rabs (val x - IZR z / 100000) <= / 9007199254740992 * (Rabs (IZR z) / 100000)).
  { rewrite E, <- AD. apply rnd_error. rewrite AD. lra. }
  assert (E2 : Rabs (val x * 100000 - IZR z) <= / 9007199254740992 * Rabs (IZR z)).
  { replace (val x * 100000 - IZR z) with ((val x - IZR z / 100000) * 100000) by field. rewrite Rabs_mult, (Rabs_pos_eq 100000) by lra. lra. }
  assert (E3 : Rabs (val x * 100000) <= 2 * Rabs (IZR z)).
  { replace (val x * 100000) with ((val x * 100000 - IZR z) + IZR z) by ring. eapply Rle_trans; [apply Rabs_triang|]. lra. }
  assert (E4 : / 2 * Rabs (IZR z) <= Rabs (val x * 100000)).
  { assert (T := Rabs_triang (IZR z - val x * 100000) (val x * 100000)). replace (IZR z - val x * 100000 + val x * 100000) with (IZR z) in T by ring.
    rewrite Rabs_minus_sym in T. lra. }
  destruct (mul_real x (F_ofZ 100000) FX F5) as (FM & VM); [rewrite V5; apply small_enough; lra|].
  rewrite V5 in VM.
  assert (RM : F_toZ (F_rint (SFmul prec64 emax64 x (F_ofZ 100000))) = z).
  { apply rint_near; auto.
    - apply Z.le_trans with (10 ^ 12)%Z; [lia|]. vm_compute. discriminate.
    - rewrite VM. replace (rnd (val x * 100000) - IZR z) with ((rnd (val x * 100000) - val x * 100000) + (val x * 100000 - IZR z)) by ring.
      eapply Rle_lt_trans; [apply Rabs_triang|]. pose proof (rnd_error (val x * 100000) ltac:(lra)). lra. }
  change (@stored5 (FOps lm) x) with (SFdiv prec64 emax64 (F_ofZ (F_toZ (F_rint (SFmul prec64 emax64 x (F_ofZ 100000))))) (F_ofZ 100000)).
  rewrite RM. assert (ZB2 : (Z.abs z <= 2 ^ 53)%Z) by (apply Z.le_trans with (10 ^ 12)%Z; [lia|vm_compute; discriminate]).
  destruct (ofZ_real z ZB2) as (FZ & VZ).
  destruct (div_real (F_ofZ z) (F_ofZ 100000) FZ F5) as (FD & VD); rewrite ?V5, ?VZ; [lra|apply small_enough; rewrite AD; lra|].
  rewrite V5, VZ in VD. apply finite_inj; auto; [|now rewrite VD].
  rewrite VD, <- E. intros X. rewrite X, Rmult_0_l, Rabs_R0 in E4. lra.
Qed.

(** The decimal that float() reads. *)
Theorem decimal_five_places : forall neg n, (0 < n < 10 ^ 12)%Z -> five_places (F_decimal neg n (-5)).
Proof.
  intros neg n B. right.
  destruct (decimal_rounded neg n (-5) ltac:(lia) ltac:(lia)) as (mz & ez & E & P & R).
  assert (V : IZR n * bpow ten (-5) = IZR n / 100000) by (cbn; field).
  rewrite V in R. rewrite E, normalize_equiv. set (mm := if neg then (- mz)%Z else mz).
  assert (W : rnd (F2R (Float radix2 mm ez)) = rnd (IZR (if neg then - n else n) / 100000)).
  { unfold mm. destruct neg; auto. rewrite F2R_Zopp, opp_IZR. rewrite round_NE_opp, R. rewrite <- round_NE_opp. f_equal. field. }
  assert (AZ : Rabs (IZR (if neg then (- n)%Z else n)) <= 1000000000000) by (rewrite <- abs_IZR; apply IZR_le; destruct neg; lia).
  pose proof (binary_normalize_correct prec64 emax64 PyNearest.Hprec PyNearest.Hmax mode_NE mm ez neg) as C. cbv zeta in C.
  change (round_mode mode_NE) with ZnearestE in C. change (round radix2 fexp64 ZnearestE (F2R (Float radix2 mm ez))) with (rnd (F2R (Float radix2 mm ez))) in C.
  rewrite W in C. rewrite Rlt_bool_true in C.
  2:{ apply small_enough. unfold Rdiv. rewrite Rabs_mult, (Rabs_pos_eq (/ 100000)) by lra. lra. }
  destruct C as (C1 & C2 & _). destruct (B_finite _ C2) as ((F1 & F2) & VV). split; [exact F1|]. split; [exact F2|].
  exists (if neg then - n else n)%Z. split; [destruct neg; lia|]. etransitivity; [exact VV|exact C1].
Qed.

Lemma year_five_places : forall z, (Z.abs z < 10 ^ 7)%Z -> five_places (F_ofZ z).
Proof.
  intros z B. destruct (Z.eq_dec z 0) as [->|N]; [left; reflexivity|right].
  assert (B2 : (Z.abs z <= 2 ^ 53)%Z) by (apply Z.le_trans with (10 ^ 7)%Z; [lia|vm_compute; discriminate]).
  destruct (ofZ_real z B2) as ((F1 & F2) & V). split; auto. split; auto.
  exists (z * 100000)%Z. split; [split; [lia|rewrite Z.abs_mul; lia]|].
  change (nearest64 (IZR (z * 100000) / 100000)) with (rnd (IZR (z * 100000) / 100000)).
  replace (IZR (z * 100000) / 100000) with (IZR z) by (rewrite mult_IZR; field). rewrite V. symmetry. apply round_generic; auto with typeclass_instances. now apply format_Z.
Qed.

(** C69 for doubles. *)
Theorem C69_float_proof : forall lm (W : world (FOps lm)) p tab (c c1 : context (FOps lm)) p' c2,
  cf_completeness_table_file (cx_config c) = Given p -> cx_table c = Some tab -> tab <> [] ->
  run_job W J_store_completeness_table c = (c1, None) ->
  cf_completeness_table_file (cx_config c2) = Given p' -> cx_files c2 p' = cx_files c1 p ->
  Forall (fun r => five_places (fst r) /\ five_places (snd r)) tab ->
  exists c3, run_job W J_retrieve_completeness_table c2 = (c3, None) /\ cx_table c3 = Some tab.
Proof.
  intros lm W p tab c c1 p' c2 A1 A2 A3 A4 A5 A6 FV. cbn [run_job] in *.
  pose proof (store_retrieve W p tab c c1 p' A1 A2 A4 c2 A5 A6) as R. destruct tab as [|r tab]; [congruence|].
  eexists. split; [exact R|]. cbn [cx_table set_table]. f_equal.
  clear - FV. induction FV as [|(a, b) l (H1 & H2) H IH]; cbn [map fst snd] in *; auto. now rewrite IH, !five_places_stored.
Qed.

Lemma minv_in : forall (AR : Ops) (l : list T) x, minv l = Ok x -> In x l.
Proof.
  intros AR l x H. destruct l as [|a l]; [discriminate|]. cbn in H. injection H as <-.
  revert a. induction l as [|b l IH]; intros a; cbn [fold_left]; [now left|].
  destruct (IH (min2 a b)) as [E|I]; [|now right; right]. rewrite <- E. unfold min2. destruct (ltb _ _); [now left|now right; left] || (destruct (ltb _ _); [right; now left|now left]).
Qed.

(** C70 without completeness analysis, for doubles and magnitudes of at most five decimals. *)
Theorem C70_five_places_proof : forall lm (W : world (FOps lm)), cpython_numbers W ->
  is_argsort (w_argsort W) -> rearranges (w_dict_order W) -> (w_now_year W < 10000)%Z ->
  forall cf1 cf2 f l p pt c1 g,
  restarts cf1 cf2 p pt -> same_processing cf1 cf2 -> cf_mm cf2 = cf_mm cf1 -> only_processing cf1 ->
  jobs_set (cf_preprocessing_jobs cf1) l -> gk_first l ->
  ~ In "Stepp"%string l -> ~ In "Retrieve_completeness_table"%string l ->
  run_config W cf1 f = (c1, None) ->
  (forall q, q = p \/ q = pt \/ cf_source_model_file cf1 = Given q -> g q = cx_files c1 q) ->
  cf_result_file cf1 <> Given p -> cf_result_file cf1 <> Given pt -> cf_result_file cf1 <> cf_source_model_file cf1 ->
  (forall es, catalogue_read W cf1 f es -> Forall ellipse_consistent es) ->
  (forall es m, catalogue_read W cf1 f es -> mapM matrix_row es = Ok m -> Forall (fun e => five_places (@ev_mw (FOps lm) e)) m) ->
  (forall w, cx_working c1 = Some w -> w <> []) ->
  exists c2 rf, run_config W cf2 g = (c2, None) /\ cf_result_file cf1 = Given rf /\
    cx_sms c2 = cx_sms c1 /\ cx_files c2 rf = cx_files c1 rf.
Proof.
  intros lm W (P & R) A Or NY cf1 cf2 f l p pt c1 g RS SP EM OP JS G N1 N2 H EG NR1 NR2 NR3 EL MG WN.
  eapply (C70_declustered_core W Or (F_years lm) A); eauto.
  - rewrite P, R. exact py_num_read.
  - rewrite P, R. exact (py_num_zero lm).
  - rewrite P. reflexivity.
  - intros es m y0 m0 _ CR MR MY MM. split; apply five_places_stored.
    + pose proof (read_years W Or cf1 f es m CR MR) as F. apply minv_in in MY. apply in_map_iff in MY. destruct MY as (e & <- & I).
      rewrite Forall_forall in F. destruct (F e I) as (z & B & ->). apply year_five_places. lia.
    + pose proof (MG es m CR MR) as F. rewrite Forall_forall in F. apply minv_in in MM. apply in_map_iff in MM. destruct MM as (e & <- & I). auto.
Qed.
