(** Gardner-Knopoff with a shorter and a longer foreshock window (C118). *)
From Coq Require Import Reals ZArith Bool Arith Lia Lra List Permutation.
From Verif Require Import Base BaseFacts Ops RFacts CatUtil Decluster DeclusterSpec DeclusterProofs DeclusterR GeoProofs OrderProofs.
Import ListNotations.
Local Open Scope nat_scope.

Section Any.
Context {AR : Ops}.

(** Either no step of the loop found anything, or an event is flagged. *)
Lemma fires_flags : forall fs (rows : list (srow AR)) m, m <= length rows ->
  let st0 := mkD (repeat 0 (length rows)) (repeat 0%Z (length rows)) 0 in
  let st := fold_left (gk_step fs rows) (seq 0 m) st0 in
  (st = st0 /\ forall i ri, i < m -> nth_error rows i = Some ri -> forall j r, j <> i -> nth_error rows j = Some r -> rwin fs ri r = false) \/
  (length (d_vcl st) = length rows /\ length (d_flag st) = length rows /\
   exists j, j < length rows /\ nth j (d_flag st) 0%Z <> 0%Z /\ nth j (d_vcl st) 0 <> 0).
Proof.
  intros fs rows m L st0. cbv zeta. induction m as [|m IH].
  - left. split; [reflexivity|]. intros; lia.
  - rewrite seq_S, fold_left_app. cbn [fold_left plus]. specialize (IH ltac:(lia)).
    destruct (nth_error_ex _ rows m L) as [rm RM].
    set (st := fold_left (gk_step fs rows) (seq 0 m) st0) in *.
    assert (LL : length (d_vcl st) = length rows /\ length (d_flag st) = length rows).
    { destruct IH as [(-> & _)|(A & B & _)]; [|now split]. cbn [st0 d_vcl d_flag]. now rewrite !repeat_length. }
    destruct LL as (LV & LF). destruct (gk_step_spec fs rows st m rm LV LF RM) as [(vcl & flag & E & A & B & V0 & (j & r & NE & RJ & W) & PT)|(E & ISO)]; rewrite E.
    + right. cbn [d_vcl d_flag]. split; auto. split; auto. exists j. split; [eapply nth_error_lt; eauto|].
      destruct (PT j r RJ) as (P1 & P2). rewrite P1, P2, W. destruct (Nat.eqb_spec j m); [contradiction|]. split; [|lia].
      unfold rflag. destruct (leb (ofZ 0) _); discriminate.
    + destruct IH as [(S0 & IS)|F]; [|right; exact F]. left. split; auto. intros i ri I RI.
      destruct (Nat.eq_dec i m) as [->|NE]; [|apply (IS i ri); auto; lia].
      assert (rm = ri) as <- by congruence. apply ISO. rewrite S0. cbn [st0 d_vcl]. apply nth_repeat_0.
Qed.

Lemma never_fires : forall fs (rows : list (srow AR)) m, m <= length rows ->
  (forall i ri, i < m -> nth_error rows i = Some ri -> forall j r, j <> i -> nth_error rows j = Some r -> rwin fs ri r = false) ->
  let st0 := mkD (repeat 0 (length rows)) (repeat 0%Z (length rows)) 0 in
  fold_left (gk_step fs rows) (seq 0 m) st0 = st0.
Proof.
  intros fs rows m L H st0. induction m as [|m IH]; auto. rewrite seq_S, fold_left_app. cbn [fold_left plus]. rewrite IH; [|lia|].
  - destruct (nth_error_ex _ rows m L) as [rm RM].
    destruct (gk_step_spec fs rows st0 m rm) as [(vcl & flag & E & A & B & V0 & (j & r & NE & RJ & W) & PT)|(E & ISO)]; auto; try (cbn [st0 d_vcl d_flag]; now rewrite repeat_length).
    rewrite (H m rm ltac:(lia) RM j r NE RJ) in W. discriminate.
  - intros i ri I. apply H. lia.
Qed.

Lemma keeps_all : forall {A : Type} (l : list A) m, length m = length l -> mask_get m l = l -> forall b, In b m -> b = true.
Proof.
  intros A l m L H. assert (C : length (mask_get m l) = length l) by now rewrite H. clear H. revert m L C.
  assert (B : forall (l : list A) m, length (mask_get m l) <= length l).
  { induction l0 as [|a l0 IH]; intros [|[] m]; cbn; try lia; specialize (IH m); lia. }
  induction l as [|a l IH]; intros [|b m] L C; try discriminate; cbn in *.
  - intros b [].
  - destruct b; cbn in C.
    + intros b [<-|I]; auto. apply (IH m); auto.
    + specialize (B l m). lia.
Qed.

Lemma zero_all : forall {A : Type} (l : list A), mask_get (map (fun z => Z.eqb z 0) (repeat 0%Z (length l))) l = l.
Proof. induction l as [|a l IH]; cbn; auto. now rewrite IH. Qed.

End Any.

Lemma rwin_wider : forall (fs fs' : R) (ri r : srow ROps), (fs <= fs')%R -> (0 <= s_twin ri)%R -> @rwin ROps fs ri r = true -> @rwin ROps fs' ri r = true.
Proof.
  intros fs fs' ri r L P H. unfold rwin in *. rops. rewrite !andb_true_iff, !Rleb_true in *. destruct H as ((A & B) & C). repeat split; auto.
  assert (0 <= s_twin ri * (fs' - fs))%R by (apply Rmult_le_pos; lra). lra.
Qed.

Lemma C118_partial_proof : forall argsort, @is_argsort ROps argsort -> forall (cat : list (event ROps)) w (fs fs' : R) vcl' flag', (fs <= fs')%R ->
  @gardner_knopoff_decluster ROps argsort cat w fs' = Ok (vcl', cat, flag') ->
  @gardner_knopoff_decluster ROps argsort cat w fs = Ok (vcl', cat, flag').
Proof.
  intros argsort AS cat w fs fs' vcl' flag' L H.
  destruct (gk_run argsort AS _ _ _ _ _ _ H) as (N & id0 & rows & st & P & Id & I & ST & EV & EF & EM).
  assert (PL := pr_len _ _ _ _ P). assert (PP := pr_perm _ _ _ _ P).
  assert (LF : length flag' = length cat) by (rewrite EF; apply unsort_len; auto).
  assert (ZF : forall z, In z flag' -> z = 0%Z).
  { intros z IZ. assert (Q := keeps_all cat (map (fun z => Z.eqb z 0) flag') ltac:(rewrite map_length; exact LF) (eq_sym EM) (Z.eqb z 0) (in_map _ _ _ IZ)). now apply Z.eqb_eq in Q. }
  assert (FF := @fires_flags ROps fs' rows (length cat - 1) ltac:(rewrite PL; lia)). cbv zeta in FF. rewrite PL in FF. rewrite <- ST in FF.
  destruct FF as [(S0 & ISO)|(LV & LFl & j & J & NZ & _)].
  2:{ exfalso. apply NZ. destruct (spos_onto _ _ PP j) as (k & K & SK); [lia|]. rewrite <- SK.
      apply ZF. rewrite EF. apply nth_error_In with k. rewrite (unsort_nth (length cat)); auto; try (rewrite LFl; exact PL).
      apply nth_error_nth'. rewrite LFl. apply spos_lt; auto. }
  destruct (decimal_year cat) as [years|e] eqn:Y.
  2:{ exfalso. unfold gardner_knopoff_decluster in H. destruct cat; [contradiction|]. rewrite Y in H. discriminate. }
  destruct (@window_calc ROps w) as [f|e] eqn:WC.
  2:{ exfalso. unfold gardner_knopoff_decluster in H. destruct cat; [contradiction|]. rewrite Y, WC in H. discriminate. }
  destruct (@gk_ok ROps argsort cat w fs years f N Y WC) as (((vcl & vmain) & flag) & HN).
  destruct (gk_run argsort AS _ _ _ _ _ _ HN) as (_ & id1 & rows1 & st1 & P1 & Id1 & I1 & ST1 & EV1 & EF1 & EM1).
  assert (PL1 := pr_len _ _ _ _ P1).
  assert (id1 = id0) as -> by congruence.
  assert (RE : rows1 = rows).
  { apply nth_error_ext. intros j. destruct (Nat.lt_ge_cases j (length cat)) as [J|J].
    - destruct (spos_onto _ _ PP j J) as (k & K & <-). destruct (nth_error_ex _ cat k K) as [e E].
      destruct (pr_row _ _ _ _ P k e E) as (f1 & t1 & F1 & T1 & R1). destruct (pr_row _ _ _ _ P1 k e E) as (f2 & t2 & F2 & T2 & R2). congruence.
    - transitivity (@None (srow ROps)); [|symmetry]; apply nth_error_None; lia. }
  subst rows1.
  assert (SN : st1 = st).
  { rewrite S0, ST1. assert (NF := @never_fires ROps fs rows (length cat - 1) ltac:(rewrite PL; lia)). cbv zeta in NF. rewrite PL in NF. apply NF.
    intros i ri II RI j r NE RJ. destruct (@rwin ROps fs ri r) eqn:W; auto.
    assert (TW : (0 <= s_twin ri)%R).
    { destruct (spos_onto _ _ PP i) as (k & K & SK); [lia|]. destruct (nth_error_ex _ cat k K) as [e E].
      destruct (pr_row _ _ _ _ P k e E) as (f1 & t1 & F1 & T1 & R1). rewrite SK, RI in R1.
      assert (Q := windows_positive w f1 (ev_mw e) F1). injection R1 as ->. cbn [s_twin]. left. apply Q. }
    assert (X := rwin_wider fs fs' ri r L TW W). specialize (ISO i ri II RI j r NE RJ). congruence. }
  assert (VE : vcl = vcl') by congruence. assert (FE : flag = flag') by congruence. rewrite HN, VE, FE. rewrite FE in EM1.
  assert (ME : vmain = cat) by congruence. now rewrite ME.
Qed.
