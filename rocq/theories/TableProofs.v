(** Proof of C153. *)
From Coq Require Import ZArith Bool Ascii String List Lia Reals Lra.
From Verif Require Import Base Ops BaseFacts RFacts CatUtil PyStr PyStrProofs PyDecimal EqCatalog SourceModel Nrml World
  CatalogFilter Jobs Workflow Main FlowSpec FlowPipe FlowTable TableSpec.
Import ListNotations.

Lemma no_zero_first : forall z, (0 <= z)%Z -> print_int z = ["0"%char] \/ exists c q', print_int z = c :: q' /\ c <> "0"%char.
Proof.
  intros z H. destruct (Z.eq_dec z 0) as [->|N]; [left; reflexivity|right].
  destruct (print_lead z ltac:(lia)) as (c & s & E & L). exists c, s. split; auto. intros ->. vm_compute in L. auto.
Qed.

Lemma print_value : forall z, (0 <= z)%Z -> decimal_value (print_int z) = z.
Proof.
  intros z H. destruct (FlowTable.print_pos z H) as (D & _ & V). rewrite digits_value_all in V by auto. congruence.
Qed.

Lemma fixed_field : forall v : R, field_of v (print_fixed5 (Rrint (v * 100000))).
Proof.
  intros v. set (n := Rrint (v * 100000)). assert (NEAR := Rrint_near (v * 100000)). fold n in NEAR.
  unfold print_fixed5. cbv zeta. set (a := Z.abs n). assert (A : (0 <= a)%Z) by apply Z.abs_nonneg.
  assert (Q : (0 <= a / 100000)%Z) by (apply Z.div_pos; lia). pose proof (Z.mod_pos_bound a 100000 ltac:(lia)) as M.
  destruct (FlowTable.print_pos _ Q) as (DQ & _ & _). destruct (FlowTable.print_pos (a mod 100000) ltac:(lia)) as (DR & _ & _).
  pose proof (short_print _ M) as LR. destruct (pad_digits (print_int (a mod 100000)) DR) as (DP & VP).
  set (sign := if (n <? 0)%Z then ["-"%char] else [] : text).
  set (q := print_int (a / 100000)) in *. set (p := pad_left "0" 5 (print_int (a mod 100000))) in *.
  assert (E : (if (n <? 0)%Z then "-"%char :: q ++ ["."%char] ++ p else q ++ ["."%char] ++ p) = sign ++ q ++ ["."%char] ++ p)
    by (unfold sign; destruct (n <? 0)%Z; reflexivity).
  match goal with |- field_of _ (pad_left _ _ ?x) => replace x with (sign ++ q ++ ["."%char] ++ p) by (exact (eq_sym E)) end. unfold pad_left at 1. set (s := sign ++ q ++ ["."%char] ++ p).
  exists (repeat chr_space (10 - length s)), sign, q, p. split; [reflexivity|].
  split; [apply Forall_forall; intros c I; now apply repeat_spec in I|].
  split. { rewrite app_length, repeat_length. destruct (le_lt_dec (length s) 10) as [L|L]; [left; lia|right]. split; [lia|]. replace (10 - length s)%nat with 0%nat by lia. reflexivity. }
  split; [exact DQ|]. split; [apply no_zero_first; exact Q|]. split; [exact DP|].
  split; [unfold p, pad_left; rewrite app_length, repeat_length; lia|]. cbv zeta.
  assert (V : (decimal_value q * 100000 + decimal_value p = a)%Z).
  { rewrite VP. unfold q. rewrite !print_value by lia. pose proof (Z.div_mod a 100000 ltac:(lia)). lia. }
  rewrite V. unfold sign, a. destruct (n <? 0)%Z eqn:SG.
  - apply Z.ltb_lt in SG. right. split; [reflexivity|]. rewrite Z.abs_neq by lia. rewrite opp_IZR.
    assert (IZR n <= -1)%R by (apply IZR_le; lia).
    revert NEAR. unfold Rabs. repeat destruct (Rcase_abs _); intros; split; lra.
  - apply Z.ltb_ge in SG. left. split; [reflexivity|]. rewrite Z.abs_eq by lia.
    assert (0 <= IZR n)%R by (apply IZR_le; lia).
    revert NEAR. unfold Rabs. repeat destruct (Rcase_abs _); intros; split; lra.
Qed.

Lemma units_R : forall v : R, @units5 ROps v = Rrint (v * 100000).
Proof.
  intros x. unfold units5. change (@toZ ROps) with Rtrunc. change (@rintv ROps) with (fun x => IZR (Rrint x)).
  cbv beta. rewrite Rtrunc_IZR. reflexivity.
Qed.

Theorem C153_proof : forall (W : world ROps) p tab (c c1 : context ROps),
  cf_completeness_table_file (cx_config c) = Given p -> cx_table c = Some tab ->
  run_job W J_store_completeness_table c = (c1, None) ->
  exists content, cx_files c1 p = Some content /\ table_file tab content.
Proof.
  intros W p tab c c1 E T H. cbn [run_job] in H. unfold store_completeness_table in H. rewrite E, T in H. cbn [lookup_file have bind] in H.
  destruct (w_can_write W p); [|discriminate H]. cbn [bind finish] in H. injection H as <-. cbn [cx_files set_files].
  exists (table_text (AR := ROps) tab). split.
  { unfold write_file. assert (X : text_eqb p p = true) by (now apply text_eqb_eq). now rewrite X. }
  exists (map (table_line (AR := ROps)) tab). split; [|reflexivity].
  clear. induction tab as [|(x, y) tab IH]; cbn [map]; constructor; auto.
  exists (print_fixed5 (Rrint (x * 100000))), (print_fixed5 (Rrint (y * 100000))). split; [apply fixed_field|]. split; [apply fixed_field|].
  unfold table_line. cbn [fst snd]. rewrite !units_R. reflexivity.
Qed.

Lemma field_case : field_of 1990 (t "1990.00000") /\ field_of (9 / 2) (t "   4.50000") /\ ~ field_of (9 / 2) (t "4.50000").
Proof.
  split; [|split].
  - exists [], [], (t "1990"), (t "00000"). split; [reflexivity|]. split; [constructor|]. split; [left; reflexivity|].
    split; [repeat constructor; vm_compute; lia|]. split; [right; do 2 eexists; split; [reflexivity|discriminate]|].
    split; [repeat constructor; vm_compute; lia|]. split; [reflexivity|]. left. split; [reflexivity|].
    assert (X : (decimal_value (t "1990") * 100000 + decimal_value (t "00000") = 199000000)%Z) by (vm_compute; reflexivity). rewrite X. 
    unfold Rabs. destruct (Rcase_abs _); lra.
  - exists [" "; " "; " "]%char, [], (t "4"), (t "50000"). split; [reflexivity|]. split; [repeat constructor|]. split; [left; reflexivity|].
    split; [repeat constructor; vm_compute; lia|]. split; [right; do 2 eexists; split; [reflexivity|discriminate]|].
    split; [repeat constructor; vm_compute; lia|]. split; [reflexivity|]. left. split; [reflexivity|].
    assert (X : (decimal_value (t "4") * 100000 + decimal_value (t "50000") = 450000)%Z) by (vm_compute; reflexivity). rewrite X. 
    unfold Rabs. destruct (Rcase_abs _); lra.
  - intros (bl & sg & q & p & _ & _ & [L|(L & _)] & _); cbn in L; lia.
Qed.
