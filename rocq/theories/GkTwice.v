(** Gardner-Knopoff declustering applied again to its own result (C95), and the kept events
    that explain the removed ones (C96). *)
From Coq Require Import ZArith List Bool Arith Lia Permutation Reals Lra.
From Verif Require Import Base Ops BaseFacts RFacts CatUtil Decluster DeclusterSpec DeclusterProofs
  GeoProofs DeclusterR.
Import ListNotations.

Section Generic.
Context {AR : Ops}.
Variable argsort : list T -> list nat.
Hypothesis AS : is_argsort argsort.

Lemma rflag_nonzero : forall ri r : srow AR, rflag ri r <> 0%Z.
Proof. intros. unfold rflag. destruct (leb _ _); discriminate. Qed.

(** After the positions below n have been processed: clustered events not yet processed are
    flagged, and nothing in the window of a processed event that is kept is kept. *)
Definition clear_inv (fs : T) (rows : list (srow AR)) (n : nat) (st : dstate) : Prop :=
  (forall j, n <= j -> nth j (d_vcl st) 0 <> 0 -> nth j (d_flag st) 0%Z <> 0%Z) /\
  (forall i ri j r, i < n -> nth_error rows i = Some ri -> nth i (d_flag st) 0%Z = 0%Z ->
     j <> i -> nth_error rows j = Some r -> rwin fs ri r = true -> nth j (d_flag st) 0%Z <> 0%Z).

Lemma clear_step : forall fs rows n st, n < length rows -> gk_inv fs rows n st -> clear_inv fs rows n st ->
  clear_inv fs rows (S n) (gk_step fs rows st n).
Proof.
  intros fs rows n st Hn I (A & B). destruct (nth_error_ex _ rows n Hn) as [ri Hri].
  destruct (gk_step_spec fs rows st n ri (gi_lv _ _ _ _ I) (gi_lf _ _ _ _ I) Hri)
    as [(vcl & flag & E & LV & LF & V0 & _ & Pt)|(E & Iso)]; rewrite E.
  - assert (FN : nth n (d_flag st) 0%Z = 0%Z) by (apply (gi_zero _ _ _ _ I); exact V0).
    split; cbn [d_vcl d_flag].
    + intros j Hj NZ. destruct (le_lt_dec (length rows) j) as [G|L].
      { exfalso. apply NZ. apply nth_overflow. lia. }
      destruct (nth_error_ex _ rows j L) as [r Hr]. destruct (Pt j r Hr) as [Pv ->]. rewrite Pv in NZ.
      destruct (Nat.eqb_spec j n); [lia|]. destruct (rwin fs ri r); [apply rflag_nonzero|]. apply A; auto. lia.
    + intros i rj j r Hi Hrj Fi Ji Hr W. destruct (Pt i rj Hrj) as [_ Pi]. rewrite Pi in Fi.
      destruct (Pt j r Hr) as [_ ->]. destruct (Nat.eqb_spec i n) as [Ei|Ei].
      * subst i. assert (rj = ri) by congruence. subst rj.
        destruct (Nat.eqb_spec j n); [congruence|]. rewrite W. apply rflag_nonzero.
      * destruct (rwin fs ri rj) eqn:WI; [exfalso; eapply rflag_nonzero; eauto|].
        assert (Fj := B i rj j r ltac:(lia) Hrj Fi Ji Hr W).
        destruct (Nat.eqb_spec j n); [subst j; contradiction|].
        destruct (rwin fs ri r); [apply rflag_nonzero|exact Fj].
  - split.
    + intros j Hj. apply A. lia.
    + intros i rj j r Hi Hrj Fi Ji Hr W. destruct (Nat.eq_dec i n) as [->|Ne].
      * assert (rj = ri) by congruence. subst rj.
        destruct (Nat.eq_dec (nth n (d_vcl st) 0) 0) as [Z|NZ].
        -- rewrite (Iso Z j r Ji Hr) in W. discriminate.
        -- exfalso. exact (A n (Nat.le_refl n) NZ Fi).
      * eapply B with (i := i); eauto. lia.
Qed.

Lemma clear_loop : forall fs rows m, m <= length rows ->
  clear_inv fs rows m (fold_left (gk_step fs rows) (seq 0 m)
                         (mkD (repeat 0 (length rows)) (repeat 0%Z (length rows)) 0)).
Proof.
  induction m as [|m IH]; intros L.
  - split.
    + intros j _ NZ. exfalso. apply NZ. apply nth_repeat_0.
    + intros i ri j r Hi. lia.
  - rewrite seq_S, fold_left_app. simpl. apply clear_step; auto; [|apply IH; lia]. apply gk_inv_loop. lia.
Qed.

(** The event at position 0 of the ascending order is processed last. *)
Lemma last_spos : forall (l : list nat) k n, length l = n -> n <> 0 ->
  nth_error (rev l) (n - 1) = Some k -> nth_error l 0 = Some k.
Proof.
  intros l k n L N H. destruct l as [|x l]; cbn in *; [lia|].
  rewrite nth_error_app2 in H by (rewrite rev_length; lia).
  replace (n - 1 - length (rev l)) with 0 in H by (rewrite rev_length; lia). exact H.
Qed.

(** No kept event is in the window of another kept event, except possibly in the window of
    the event that comes first in the ascending order, which the code never processes. *)
Lemma kept_clear : forall cat w fs vcl vmain flag k e k' e',
  gardner_knopoff_decluster argsort cat w fs = Ok (vcl, vmain, flag) ->
  nth_error cat k = Some e -> nth_error cat k' = Some e' -> k' <> k ->
  nth_error flag k = Some 0%Z -> nth_error flag k' = Some 0%Z ->
  nth_error (argsort (map ev_mw cat)) 0 <> Some k -> in_window w fs e e' = false.
Proof.
  intros cat w fs vcl vmain flag k e k' e' H He He' NE Fk Fk' Last.
  destruct (gk_run argsort AS _ _ _ _ _ _ H) as (_ & id0 & rows & st & P & Id & I & Est & Ev & Ef & Em).
  destruct (gk_pointwise argsort AS _ _ _ _ _ _ H) as (_ & _ & _ & _ & _ & _ & _ & Lf & _).
  assert (PP := pr_perm _ _ _ _ P). assert (PL := pr_len _ _ _ _ P).
  assert (K := nth_error_lt _ _ _ _ He). assert (K' := nth_error_lt _ _ _ _ He').
  assert (FK : forall q, q < length cat -> nth_error flag q = Some (nth (spos id0 q) (d_flag st) 0%Z)).
  { intros q Hq. rewrite Ef, (unsort_nth (length cat)); auto; [|rewrite (gi_lf _ _ _ _ I); auto].
    apply nth_error_nth'. rewrite (gi_lf _ _ _ _ I), PL. now apply spos_lt. }
  rewrite (FK k K) in Fk. rewrite (FK k' K') in Fk'. injection Fk as Fk. injection Fk' as Fk'.
  destruct (nth_error_ex _ rows (spos id0 k)) as [r Hr]. { rewrite PL. now apply spos_lt. }
  destruct (nth_error_ex _ rows (spos id0 k')) as [r' Hr']. { rewrite PL. now apply spos_lt. }
  destruct (rwin_in_window _ _ fs _ _ _ _ _ _ _ _ P He He' Hr Hr') as [W _]. rewrite <- W.
  destruct (rwin fs r r') eqn:WW; [exfalso|reflexivity].
  assert (LE : length cat - 1 <= length rows) by (rewrite PL; lia).
  assert (C := clear_loop fs rows (length cat - 1) LE). rewrite PL, <- Est in C.
  destruct C as (_ & B). apply (B (spos id0 k) r (spos id0 k') r'); auto.
  - destruct (Nat.eq_dec (spos id0 k) (length cat - 1)) as [E|].
    + exfalso. assert (N := spos_nth _ _ PP k K). rewrite E, Id in N. apply Last.
      apply (last_spos _ _ (length cat)); auto; [|lia].
      rewrite (Permutation_length (AS (map ev_mw cat))), seq_length, map_length. auto.
    + assert (Q := spos_lt _ _ PP k K). lia.
  - intros Q. apply NE. apply (spos_inj _ _ PP); auto.
Qed.

(** When no processed row has another row in its window nothing is clustered. *)
Lemma nothing_loop : forall fs rows m,
  (forall i ri j r, i < m -> nth_error rows i = Some ri -> nth_error rows j = Some r -> j <> i -> rwin fs ri r = false) ->
  m <= length rows ->
  fold_left (gk_step fs rows) (seq 0 m) (mkD (repeat 0 (length rows)) (repeat 0%Z (length rows)) 0)
  = mkD (repeat 0 (length rows)) (repeat 0%Z (length rows)) 0.
Proof.
  intros fs rows. induction m as [|m IH]; intros H L; [reflexivity|].
  rewrite seq_S, fold_left_app, IH; [|intros i ri j r Hi; apply (H i); lia|lia]. cbn [fold_left Nat.add].
  destruct (nth_error_ex _ rows m L) as [ri Hri].
  set (st0 := mkD _ _ 0).
  destruct (gk_step_spec fs rows st0 m ri) as [(vcl & flag & E & _ & _ & _ & (j & r & Hj & Hr & W) & _)|(E & _)]; auto.
  - apply repeat_length.
  - apply repeat_length.
  - rewrite (H m ri j r) in W; auto. discriminate.
Qed.

Lemma take_repeat : forall A (d : A) n ids, take_idx d (repeat d n) ids = repeat d (length ids).
Proof. intros A d n ids. unfold take_idx. induction ids as [|i ids IH]; cbn; [reflexivity|]. rewrite IH. f_equal. apply nth_repeat_0. Qed.

Lemma nothing_run : forall cat w fs vcl vmain flag,
  gardner_knopoff_decluster argsort cat w fs = Ok (vcl, vmain, flag) ->
  (forall k e k' e', nth_error cat k = Some e -> nth_error cat k' = Some e' -> k' <> k ->
     nth_error (argsort (map ev_mw cat)) 0 <> Some k -> in_window w fs e e' = false) ->
  vcl = repeat 0 (length cat) /\ flag = repeat 0%Z (length cat) /\ vmain = cat.
Proof.
  intros cat w fs vcl vmain flag H Clear.
  destruct (gk_run argsort AS _ _ _ _ _ _ H) as (NE & id0 & rows & st & P & Id & I & Est & Ev & Ef & Em).
  assert (PP := pr_perm _ _ _ _ P). assert (PL := pr_len _ _ _ _ P).
  assert (N0 : length cat <> 0) by (destruct cat; [congruence|discriminate]).
  assert (LA : length (argsort (map ev_mw cat)) = length cat).
  { rewrite (Permutation_length (AS (map ev_mw cat))), seq_length, map_length. auto. }
  assert (S0 : st = mkD (repeat 0 (length rows)) (repeat 0%Z (length rows)) 0).
  { rewrite Est, <- PL. apply nothing_loop; [|lia].
    intros i ri j r Hi Hri Hr Ji.
    destruct (spos_onto _ _ PP i) as (k & Hk & Sk). { lia. }
    destruct (spos_onto _ _ PP j) as (k' & Hk' & Sk'). { rewrite <- PL. eapply nth_error_lt; eauto. }
    destruct (nth_error_ex _ cat k Hk) as [e He]. destruct (nth_error_ex _ cat k' Hk') as [e' He'].
    rewrite <- Sk in Hri. rewrite <- Sk' in Hr.
    destruct (rwin_in_window _ _ fs _ _ _ _ _ _ _ _ P He He' Hri Hr) as [W _]. rewrite W.
    apply (Clear k e k' e'); auto; [congruence|].
    intros F. assert (Q := spos_nth _ _ PP k Hk). rewrite Sk in Q.
    assert (G : nth_error id0 (length cat - 1) = Some k).
    { rewrite Id. destruct (argsort (map ev_mw cat)) as [|x l]; [discriminate|]. injection F as ->. cbn [rev].
      rewrite nth_error_app2 by (rewrite rev_length; cbn in LA; lia).
      replace (length cat - 1 - length (rev l)) with 0 by (rewrite rev_length; cbn in LA; lia). reflexivity. }
    assert (X := spos_inv _ _ PP _ _ G). lia. }
  assert (F0 : flag = repeat 0%Z (length cat)).
  { rewrite Ef, S0. cbn [d_flag]. rewrite take_repeat. f_equal. now apply id1_len. }
  split; [|split]; auto.
  - rewrite Ev, S0. cbn [d_vcl]. rewrite take_repeat. f_equal. now apply id1_len.
  - rewrite Em, F0. clear. induction cat; cbn; [reflexivity|]. f_equal. auto.
Qed.

(** The kept events and their positions. *)
Lemma mask_positions : forall A (m : list bool) (l : list A) j x, length m = length l ->
  nth_error (mask_get m l) j = Some x ->
  exists k, nth_error m k = Some true /\ nth_error l k = Some x /\ j = count_true (firstn k m).
Proof.
  induction m as [|b m IH]; intros [|a l] j x L H; try discriminate; cbn in H.
  - destruct j; discriminate.
  - destruct b.
    + destruct j as [|j]; cbn in H.
      * injection H as <-. exists 0. auto.
      * destruct (IH l j x) as (k & K1 & K2 & ->); auto. exists (S k). cbn. auto.
    + destruct (IH l j x) as (k & K1 & K2 & ->); auto. exists (S k). cbn. auto.
Qed.

(** *** C95 *)
Lemma C95_proof : forall cat w fs vcl vmain flag vcl2 vmain2 flag2,
  gardner_knopoff_decluster argsort cat w fs = Ok (vcl, vmain, flag) ->
  gardner_knopoff_decluster argsort vmain w fs = Ok (vcl2, vmain2, flag2) ->
  (forall k, nth_error (argsort (map ev_mw cat)) 0 = Some k -> nth_error flag k = Some 0%Z ->
     nth_error (argsort (map ev_mw vmain)) 0 = Some (length (filter (fun z => Z.eqb z 0) (firstn k flag)))) ->
  flag2 = repeat 0%Z (length vmain) /\ vmain2 = vmain.
Proof.
  intros cat w fs vcl vmain flag vcl2 vmain2 flag2 H H2 First.
  destruct (gk_pointwise argsort AS _ _ _ _ _ _ H) as (_ & _ & _ & _ & _ & _ & _ & Lf & Em & _).
  destruct (nothing_run _ _ _ _ _ _ H2) as (_ & F & V); auto.
  intros j e j' e' He He' JJ Last.
  assert (Lm : length (map (fun z => Z.eqb z 0) flag) = length cat) by (rewrite map_length; exact Lf).
  rewrite Em in He, He'.
  destruct (mask_positions _ _ _ _ _ Lm He) as (k & K1 & K2 & Kj).
  destruct (mask_positions _ _ _ _ _ Lm He') as (k' & K1' & K2' & Kj').
  assert (FZ : forall q, nth_error (map (fun z => Z.eqb z 0) flag) q = Some true -> nth_error flag q = Some 0%Z).
  { intros q Hq. rewrite nth_error_map in Hq. destruct (nth_error flag q) as [z|]; [|discriminate].
    cbn in Hq. injection Hq as Hq. f_equal. now apply Z.eqb_eq. }
  apply (kept_clear cat w fs vcl vmain flag k e k' e'); auto; [congruence|].
  intros FK. apply Last. rewrite (First k FK (FZ k K1)). f_equal. rewrite Kj.
  clear. revert k. induction flag as [|z flag IH]; intros [|k]; try reflexivity.
  cbn [firstn map filter count_true]. destruct (Z.eqb z 0); cbn [length Nat.add]; now rewrite IH.
Qed.

End Generic.

(** ** Over the reals *)
Local Open Scope R_scope.

(** A declustered catalogue can be declustered. *)
Lemma mapM_mask : forall A B (f : A -> res B) m l ys, mapM f l = Ok ys ->
  exists zs, mapM f (mask_get m l) = Ok zs.
Proof.
  induction m as [|b m IH]; intros [|a l] ys H; cbn [mask_get]; try (exists []; reflexivity).
  - cbn [mapM] in H. apply bind_ok in H. destruct H as (y & Y & H). apply bind_ok in H. destruct H as (ys' & YS & _).
    destruct (IH _ _ YS) as (zs & Z). destruct b; eauto. exists (y :: zs). cbn [mapM]. rewrite Y, Z. reflexivity.
Qed.

Lemma run_parts : forall (AR : Ops) argsort (cat : list (event AR)) w fs r,
  gardner_knopoff_decluster argsort cat w fs = Ok r ->
  exists years f, decimal_year cat = Ok years /\ window_calc w = Ok f.
Proof.
  intros AR argsort cat w fs r H. unfold gardner_knopoff_decluster in H. destruct cat; [discriminate|].
  apply bind_ok in H. destruct H as (years & HY & H). apply bind_ok in H. destruct H as (f & HW & _). eauto.
Qed.

Lemma run_again : forall (AR : Ops) argsort, is_argsort argsort -> forall (cat : list (event AR)) w fs vcl vmain flag,
  gardner_knopoff_decluster argsort cat w fs = Ok (vcl, vmain, flag) ->
  exists r, gardner_knopoff_decluster argsort vmain w fs = Ok r.
Proof.
  intros AR argsort AS cat w fs vcl vmain flag H. destruct (run_parts _ _ _ _ _ _ H) as (years & f & HY & HW).
  destruct (gk_pointwise argsort AS _ _ _ _ _ _ H) as (_ & _ & _ & _ & _ & _ & _ & Lf & Em & _).
  destruct (mapM_mask _ _ _ (map (fun z => Z.eqb z 0) flag) _ _ HY) as (zs & Z). rewrite <- Em in Z.
  apply gk_ok with (years := zs) (f := f); auto. eapply C17_proof; eauto.
Qed.

(** The first of the ascending order is a smallest. *)
Lemma first_smallest : forall argsort (cat : list revent) k e k' e', @is_argsort ROps argsort -> sorts argsort ->
  nth_error (argsort (map ev_mw cat)) 0 = Some k -> nth_error cat k = Some e -> nth_error cat k' = Some e' ->
  ev_mw e <= ev_mw e'.
Proof.
  intros argsort cat k e k' e' AS SO F He He'.
  assert (P := AS (map ev_mw cat)). rewrite map_length in P.
  assert (I : In k' (argsort (map ev_mw cat))).
  { apply (Permutation_in _ (Permutation_sym P)). apply in_seq. apply nth_error_lt in He'. lia. }
  apply In_nth_error in I. destruct I as (j & Hj). destruct j as [|j].
  - assert (k' = k) by congruence. subst. assert (e' = e) by congruence. subst. lra.
  - exact (sorts_mw argsort cat 0%nat (S j) k k' e e' SO ltac:(lia) F Hj He He').
Qed.

Lemma mask_position : forall A (m : list bool) (l : list A) k x, length m = length l ->
  nth_error m k = Some true -> nth_error l k = Some x -> nth_error (mask_get m l) (count_true (firstn k m)) = Some x.
Proof.
  induction m as [|b m IH]; intros [|a l] [|k] x L K1 K2; try discriminate; cbn in K1, K2.
  - injection K1 as ->. injection K2 as ->. reflexivity.
  - cbn [firstn count_true mask_get]. destruct b; cbn [Nat.add nth_error]; apply IH; auto.
Qed.

Lemma count_filter : forall flag k, count_true (firstn k (map (fun z => Z.eqb z 0) flag))
  = length (filter (fun z => Z.eqb z 0) (firstn k flag)).
Proof.
  induction flag as [|z flag IH]; intros [|k]; try reflexivity.
  cbn [firstn map filter count_true]. destruct (Z.eqb z 0); cbn [length Nat.add]; now rewrite IH.
Qed.

Lemma C95_real_proof : forall argsort, @is_argsort ROps argsort -> sorts argsort ->
  forall (cat : list revent) w fs vcl vmain flag,
  @gardner_knopoff_decluster ROps argsort cat w fs = Ok (vcl, vmain, flag) ->
  (forall k e k' e', nth_error cat k = Some e -> nth_error cat k' = Some e' -> k' <> k ->
     (forall x, In x cat -> ev_mw e <= ev_mw x) -> ev_mw e < ev_mw e') ->
  exists vcl2, @gardner_knopoff_decluster ROps argsort vmain w fs = Ok (vcl2, vmain, repeat 0%Z (length vmain)).
Proof.
  intros argsort AS SO cat w fs vcl vmain flag H U.
  destruct (run_again ROps argsort AS cat w fs vcl vmain flag H) as ([[vcl2 vmain2] flag2] & H2).
  destruct (C95_proof argsort AS cat w fs vcl vmain flag vcl2 vmain2 flag2 H H2) as (F & V).
  - intros k FK Fk.
    destruct (@gk_pointwise ROps argsort AS _ _ _ _ _ _ H) as (_ & _ & _ & _ & _ & _ & _ & Lf & Em & _).
    assert (Lm : length (map (fun z => Z.eqb z 0) flag) = length cat) by (rewrite map_length; exact Lf).
    destruct (nth_error_ex _ cat k) as [e He]. { rewrite <- Lf. eapply nth_error_lt; eauto. }
    assert (K1 : nth_error (map (fun z => Z.eqb z 0) flag) k = Some true) by (rewrite nth_error_map, Fk; reflexivity).
    assert (Pe := mask_position _ _ _ _ _ Lm K1 He). rewrite count_filter, <- Em in Pe.
    set (p := length (filter _ _)) in *.
    assert (LV : (0 < length vmain)%nat) by (assert (Q := nth_error_lt _ _ _ _ Pe); lia).
    assert (PV := AS (map ev_mw vmain)). rewrite map_length in PV.
    destruct (argsort (map ev_mw vmain)) as [|q l] eqn:EA.
    { apply Permutation_length in PV. rewrite seq_length in PV. cbn in PV. lia. }
    cbn [nth_error]. f_equal. destruct (Nat.eq_dec q p) as [|NE]; auto. exfalso.
    assert (Hq : (q < length vmain)%nat).
    { assert (I : In q (seq 0 (length vmain))) by (apply (Permutation_in _ PV); now left). apply in_seq in I. lia. }
    destruct (nth_error_ex _ vmain q Hq) as [eq Heq].
    assert (LE := first_smallest argsort vmain q eq p e AS SO ltac:(rewrite EA; reflexivity) Heq Pe).
    rewrite Em in Heq. destruct (mask_positions _ _ _ _ _ Lm Heq) as (k' & K1' & K2' & Kq).
    assert (k' <> k). { intros ->. apply NE. rewrite Kq, count_filter. reflexivity. }
    assert (LT := U k e k' eq He K2' H0
      (fun x I => match In_nth_error _ _ I with ex_intro _ j Hj => first_smallest argsort cat k e j x AS SO FK He Hj end)).
    lra.
  - exists vcl2. rewrite H2, F, V. reflexivity.
Qed.

(** *** C96 *)

(** With foreshock proportion 1 and windows that do not shrink with magnitude, a kept event
    stays kept, so every flagged event has a kept one whose window contains it. *)
Lemma explained_loop : forall (rows : list (srow ROps)),
  (forall i j ri rj, (i < j)%nat -> nth_error rows i = Some ri -> nth_error rows j = Some rj ->
     s_twin rj <= s_twin ri /\ s_space rj <= s_space ri) ->
  forall m, (m <= length rows)%nat ->
  let st := fold_left (@gk_step ROps 1 rows) (seq 0 m) (mkD (repeat 0%nat (length rows)) (repeat 0%Z (length rows)) 0) in
  forall j r, nth_error rows j = Some r -> nth j (d_flag st) 0%Z <> 0%Z ->
  exists i ri, nth_error rows i = Some ri /\ (i < m)%nat /\ nth i (d_flag st) 0%Z = 0%Z /\ @rwin ROps 1 ri r = true.
Proof.
  intros rows Mono. induction m as [|m IH]; intros L st j r Hr NZ.
  - exfalso. apply NZ. unfold st. cbn [seq fold_left d_flag]. apply nth_repeat_0.
  - unfold st in *. clear st. rewrite seq_S, fold_left_app in *. cbn [fold_left Nat.add] in *.
    set (st := fold_left (@gk_step ROps 1 rows) (seq 0 m) _) in *.
    assert (I : @gk_inv ROps 1 rows m st) by (apply gk_inv_loop; lia).
    assert (C : @clear_inv ROps 1 rows m st) by (apply clear_loop; lia).
    destruct (nth_error_ex _ rows m L) as [rm Hrm].
    destruct (@gk_step_spec ROps 1 rows st m rm (gi_lv _ _ _ _ I) (gi_lf _ _ _ _ I) Hrm)
      as [(vcl & flag & E & LV & LF & V0 & _ & Pt)|(E & Iso)]; rewrite E in *; cbn [d_flag] in *.
    + assert (FM : nth m (d_flag st) 0%Z = 0%Z) by (apply (gi_zero _ _ _ _ I); exact V0).
      destruct (Pt j r Hr) as [_ Pj]. rewrite Pj in NZ.
      destruct (Nat.eqb_spec j m); [congruence|].
      destruct (@rwin ROps 1 rm r) eqn:W.
      * exists m, rm. repeat split; auto. destruct (Pt m rm Hrm) as [_ ->]. now rewrite Nat.eqb_refl.
      * destruct (IH ltac:(lia) j r Hr NZ) as (i & ri & Hri & Hi & Fi & Wi).
        exists i, ri. repeat split; auto. destruct (Pt i ri Hri) as [_ ->].
        destruct (Nat.eqb_spec i m); [reflexivity|].
        destruct (@rwin ROps 1 rm ri) eqn:WM; [exfalso|exact Fi].
        destruct C as (_ & B). destruct (Mono i m ri rm Hi Hri Hrm) as (M1 & M2).
        assert (WS : @rwin ROps 1 ri rm = true) by (apply rwin_swap; auto; lra).
        exact (B i ri m rm Hi Hri Fi ltac:(lia) Hrm WS FM).
    + destruct (IH ltac:(lia) j r Hr NZ) as (i & ri & Hri & Hi & Fi & Wi).
      exists i, ri. repeat split; auto.
Qed.

Lemma C96_partial_proof : forall argsort, @is_argsort ROps argsort -> sorts argsort ->
  forall (cat : list revent) w f vcl vmain flag k e z,
  @gardner_knopoff_decluster ROps argsort cat w 1 = Ok (vcl, vmain, flag) -> @window_calc ROps w = Ok f ->
  (forall x y, In x cat -> In y cat -> ev_mw x <= ev_mw y ->
     fst (f (ev_mw x)) <= fst (f (ev_mw y)) /\ snd (f (ev_mw x)) <= snd (f (ev_mw y))) ->
  nth_error cat k = Some e -> nth_error flag k = Some z -> z <> 0%Z ->
  exists k' e', nth_error cat k' = Some e' /\ nth_error flag k' = Some 0%Z /\ @in_window ROps w 1 e' e = true.
Proof.
  intros argsort AS SO cat w f vcl vmain flag k e z H HW Mono He Hz NZ.
  destruct (@gk_run ROps argsort AS _ _ _ _ _ _ H) as (_ & id0 & rows & st & P & Id & I & Est & Ev & Ef & Em).
  assert (PP := pr_perm _ _ _ _ P). assert (PL := pr_len _ _ _ _ P).
  assert (K := nth_error_lt _ _ _ _ He).
  assert (FK : forall q, (q < length cat)%nat -> nth_error flag q = Some (nth (spos id0 q) (d_flag st) 0%Z)).
  { intros q Hq. rewrite Ef, (unsort_nth (length cat)); auto; [|rewrite (gi_lf _ _ _ _ I); auto].
    apply nth_error_nth'. rewrite (gi_lf _ _ _ _ I), PL. now apply spos_lt. }
  set (l := argsort (map ev_mw cat)) in *.
  assert (LL : length l = length cat).
  { unfold l. rewrite (Permutation_length (AS (map ev_mw cat))), seq_length, map_length. auto. }
  assert (RI : forall q x, nth_error (rev l) q = Some x -> nth_error l (length l - S q) = Some x).
  { intros q x Hx. assert (q < length l)%nat by (rewrite <- rev_length; eapply nth_error_lt; eauto).
    apply nth_error_nth with (d := 0%nat) in Hx. rewrite rev_nth in Hx by auto.
    rewrite <- Hx. apply nth_error_nth'. lia. }
  assert (MR : forall i j ri rj, (i < j)%nat -> nth_error rows i = Some ri -> nth_error rows j = Some rj ->
     s_twin rj <= s_twin ri /\ s_space rj <= s_space ri).
  { intros i j ri rj IJ Hri Hrj.
    assert (Li : (i < length cat)%nat) by (rewrite <- PL; eapply nth_error_lt; eauto).
    assert (Lj : (j < length cat)%nat) by (rewrite <- PL; eapply nth_error_lt; eauto).
    destruct (spos_onto _ _ PP i Li) as (a & Ha & Sa). destruct (spos_onto _ _ PP j Lj) as (b & Hb & Sb).
    destruct (nth_error_ex _ cat a Ha) as [ea Hea]. destruct (nth_error_ex _ cat b Hb) as [eb Heb].
    destruct (pr_row _ _ _ _ P _ _ Hea) as (f1 & t1 & HW1 & _ & R1).
    destruct (pr_row _ _ _ _ P _ _ Heb) as (f2 & t2 & HW2 & _ & R2).
    assert (f1 = f) by congruence. assert (f2 = f) by congruence. subst f1 f2.
    rewrite Sa, Hri in R1. rewrite Sb, Hrj in R2. injection R1 as ->. injection R2 as ->. cbn.
    assert (N1 := spos_nth _ _ PP a Ha). assert (N2 := spos_nth _ _ PP b Hb). rewrite Sa, Id in N1. rewrite Sb, Id in N2.
    apply RI in N1. apply RI in N2.
    assert (LT : (length l - S j < length l - S i)%nat) by lia.
    assert (G := sorts_mw argsort cat _ _ _ _ _ _ SO LT N2 N1 Heb Hea).
    destruct (Mono eb ea (nth_error_In _ _ Heb) (nth_error_In _ _ Hea) G). auto. }
  destruct (nth_error_ex _ rows (spos id0 k)) as [r Hr]. { rewrite PL. now apply spos_lt. }
  assert (X := explained_loop rows MR (length cat - 1)%nat ltac:(rewrite PL; lia)).
  cbv zeta in X. rewrite PL, <- Est in X.
  destruct (X (spos id0 k) r Hr) as (i & ri & Hri & Hi & Fi & Wi).
  { rewrite (FK k K) in Hz. congruence. }
  destruct (spos_onto _ _ PP i) as (k' & Hk' & Sk'). { rewrite <- PL. eapply nth_error_lt; eauto. }
  destruct (nth_error_ex _ cat k' Hk') as [e' He'].
  exists k', e'. split; auto. split.
  - rewrite (FK k' Hk'), Sk', Fi. reflexivity.
  - rewrite <- Sk' in Hri. destruct (@rwin_in_window ROps _ _ (1 : @T ROps) _ _ _ _ _ _ _ _ P He' He Hri Hr) as [W _].
    rewrite <- W. exact Wi.
Qed.
