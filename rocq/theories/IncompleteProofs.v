(** Proof of C128. *)
From Coq Require Import ZArith Reals List Bool Arith Lia Lra String.
From Verif Require Import Base Ops BaseFacts RFacts FloatSpec SteppSpec Recurrence RecurrenceSpec RecurrenceProofs WeichertProofs WeichertNewton IncompleteSpec.
Import ListNotations.
Local Open Scope R_scope.

Lemma keep_ends : forall f keep evs, keeps_ends f keep evs ->
  exists lo hi, is_min lo (map f evs) /\ is_min lo (map f (filter keep evs)) /\
                is_max hi (map f evs) /\ is_max hi (map f (filter keep evs)).
Proof.
  intros f keep evs ((e & E1 & E2 & E3) & (u & U1 & U2 & U3)). exists (f e), (f u).
  repeat split; try (apply in_map; try apply filter_In; auto);
    intros x I; apply in_map_iff in I; destruct I as (e' & <- & I); try apply filter_In in I; intuition.
Qed.

Lemma min_same : forall (l l' : list R) lo, is_min lo l -> is_min lo l' -> @minv ROps l = @minv ROps l'.
Proof.
  intros l l' lo M M'. destruct (minv_ok l) as (a & A). { destruct M as (I & _). intros ->. destruct I. }
  destruct (minv_ok l') as (b & B). { destruct M' as (I & _). intros ->. destruct I. }
  refine (eq_trans A (eq_trans _ (eq_sym B))). f_equal. apply minv_spec in A, B.
  destruct A as (A1 & A2), B as (B1 & B2), M as (M1 & M2), M' as (N1 & N2).
  apply Rle_antisym; [apply Rle_trans with lo; auto|apply Rle_trans with lo; auto].
Qed.
Lemma max_same : forall (l l' : list R) hi, is_max hi l -> is_max hi l' -> @maxv ROps l = @maxv ROps l'.
Proof.
  intros l l' lo M M'. destruct (maxv_ok l) as (a & A). { destruct M as (I & _). intros ->. destruct I. }
  destruct (maxv_ok l') as (b & B). { destruct M' as (I & _). intros ->. destruct I. }
  refine (eq_trans A (eq_trans _ (eq_sym B))). f_equal. apply maxv_spec in A, B.
  destruct A as (A1 & A2), B as (B1 & B2), M as (M1 & M2), M' as (N1 & N2).
  apply Rle_antisym; [apply Rle_trans with lo; auto|apply Rle_trans with lo; auto].
Qed.

Lemma tenths_rounded : forall (evs : list (R * R)) (rm : list R), (forall e, In e evs -> whole_tenths e) ->
  Forall2 tenth (map snd evs) rm -> rm = map snd evs.
Proof.
  induction evs as [|e evs IH]; intros rm H F; inversion F as [|? r ? rm' F1 F2]; subst; [reflexivity|].
  cbn [map]. f_equal; [|apply IH; auto; intros x I; apply H; now right].
  destruct (H e (or_introl eq_refl)) as (z & Z). rewrite Z in *. now apply tenth_exact.
Qed.
Lemma round_whole : forall evs, (forall e, In e evs -> whole_tenths e) -> map (@round1 ROps) (map snd evs) = map snd evs.
Proof. intros evs H. apply tenths_rounded; auto. apply round1_tenth. Qed.

Lemma pairs_again : forall evs : list (R * R), combine (map fst evs) (map snd evs) = evs.
Proof. induction evs as [|(a, b) evs IH]; cbn; congruence. Qed.

Lemma count_filter_out : forall {A : Type} (p keep : A -> bool) l, (forall x, In x l -> keep x = false -> p x = false) ->
  count p (filter keep l) = count p l.
Proof.
  intros A p keep l. induction l as [|x l IH]; intros H; [reflexivity|]. cbn [filter].
  destruct (keep x) eqn:K; rewrite !count_cons, ?IH by (intros; apply H; auto; now right); [reflexivity|].
  now rewrite (H x (or_introl eq_refl) K).
Qed.

(** An incomplete event counts in no bin. *)
Lemma incomplete_uncounted : forall ymin dt mmin dm table i e, 0 < dt -> 0 < dm ->
  incomplete table e -> counts_in ymin dt mmin dm table i e = false.
Proof.
  intros ymin dt mmin dm table i e Ht Hm (cy & cm & I & Y & M). unfold counts_in.
  destruct (bin_of mmin dm i (snd e)) eqn:B; [|reflexivity]. cbn [andb].
  destruct (forallb _ table) eqn:F; [|reflexivity]. exfalso. rewrite forallb_forall in F. specialize (F _ I).
  unfold bin_of in B. apply andb_true_iff in B. destruct B as (B & _). apply Rleb_true in B.
  destruct (bin_start_le ymin dt (fst e) Ht) as (S & _). cbn [fst snd] in F.
  rewrite (proj2 (Rltb_true _ _)) in F by lra. rewrite (proj2 (Rltb_true _ _)) in F by lra. discriminate.
Qed.

(** What the first two components are made of. *)
Lemma prep_shape : forall (AR : Ops) (year mag : list T) table d_m d_t c tp no,
  weichert_prep year mag table d_m d_t = Ok (c, tp, no) -> exists ymax mmin mmax,
    maxv year = Ok ymax /\ minv (map round1 mag) = Ok mmin /\ maxv (map round1 mag) = Ok mmax /\
    c = centres (arange mmin (add mmax (mul (lit 15 10) d_m)) d_m) /\
    mapM (fun i => weichert_tper ymax table (nth i (arange mmin (add mmax (mul (lit 15 10) d_m)) d_m) (ofZ 0)))
      (seq 0 (List.length (arange mmin (add mmax (mul (lit 15 10) d_m)) d_m) - 1)) = Ok tp.
Proof.
  intros AR year mag table d_m d_t c tp no H. unfold weichert_prep in H.
  destruct (minv year); [|discriminate]. cbn [bind] in H. destruct (maxv year) as [ymax|]; [|discriminate]. cbn [bind] in H.
  destruct (minv (map round1 mag)) as [mmin|]; [|discriminate]. cbn [bind] in H.
  destruct (maxv (map round1 mag)) as [mmax|]; [|discriminate]. cbn [bind] in H.
  destruct (mapM _ _) as [q|] eqn:Q in H; [|discriminate]. cbn [bind] in H. injection H as <- <- _.
  exists ymax, mmin, mmax. auto 6.
Qed.

Theorem C128_prep_proof : forall (evs : list (R * R)) (table : list (R * R)) keep d_m d_t,
  0 < d_m -> 0 < d_t -> table <> [] ->
  (forall e, In e evs -> whole_tenths e) ->
  (forall e, In e evs -> keep e = false -> incomplete table e) ->
  keeps_ends fst keep evs -> keeps_ends snd keep evs ->
  @weichert_prep ROps (map fst (filter keep evs)) (map snd (filter keep evs)) table d_m d_t =
  @weichert_prep ROps (map fst evs) (map snd evs) table d_m d_t.
Proof.
  intros evs table keep dm dt Hm Ht NT W INC KY KM.
  assert (NE : filter keep evs <> []). { destruct KY as ((e & E1 & E2 & _) & _). intros E. assert (X : In e (filter keep evs)) by (apply filter_In; auto). now rewrite E in X. }
  assert (NE0 : evs <> []) by (intros E; rewrite E in NE; now apply NE).
  assert (W' : forall e, In e (filter keep evs) -> whole_tenths e) by (intros e I; apply filter_In in I; apply W; tauto).
  destruct (C39_proof (map fst evs) (map snd evs) table dm dt Hm Ht) as (rm & y0 & y1 & m0 & n & c & tp & no & R1 & Y0 & Y1 & M0 & P & L1 & L2 & L3 & _ & _ & Q); auto.
  { destruct evs; [congruence|discriminate]. } { now rewrite !map_length. }
  destruct (C39_proof (map fst (filter keep evs)) (map snd (filter keep evs)) table dm dt Hm Ht)
    as (rm' & y0' & y1' & m0' & n' & c' & tp' & no' & R1' & Y0' & Y1' & M0' & P' & L1' & L2' & L3' & _ & _ & Q'); auto.
  { destruct (filter keep evs); [congruence|discriminate]. } { now rewrite !map_length. }
  apply tenths_rounded in R1; auto. apply tenths_rounded in R1'; auto. subst rm rm'. rewrite pairs_again in Q, Q'.
  destruct (keep_ends _ _ _ KY) as (ly & hy & A1 & A2 & A3 & A4).
  destruct (keep_ends _ _ _ KM) as (lm & hm & B1 & B2 & B3 & B4).
  assert (UM : forall l a b, is_min a l -> is_min b l -> a = b).
  { intros l a b (I1 & I2) (J1 & J2). apply Rle_antisym; auto. }
  assert (y0' = ly) by eauto. assert (y0 = ly) by eauto. assert (m0' = lm) by eauto. assert (m0 = lm) by eauto. subst y0 y0' m0 m0'.
  assert (SH : forall c1 t1 n1 c2 t2 n2,
    @weichert_prep ROps (map fst evs) (map snd evs) table dm dt = Ok (c1, t1, n1) ->
    @weichert_prep ROps (map fst (filter keep evs)) (map snd (filter keep evs)) table dm dt = Ok (c2, t2, n2) -> c1 = c2 /\ t1 = t2).
  { intros c1 t1 n1 c2 t2 n2 H1 H2.
    apply prep_shape in H1. destruct H1 as (u & v & w & U & V & X & -> & T1). apply prep_shape in H2. destruct H2 as (u' & v' & w' & U' & V' & X' & -> & T2).
    assert (F1 := round_whole evs W). assert (F2 := round_whole _ W').
    assert (E2 := max_same _ _ _ A4 A3).
    assert (E3 := min_same _ _ _ B2 B1). assert (E4 := max_same _ _ _ B4 B3).
    assert (EU : @Ok R u' = Ok u) by exact (eq_trans (eq_sym U') (eq_trans E2 U)).
    assert (EV : @Ok R v' = Ok v).
    { refine (eq_trans (eq_sym V') (eq_trans _ V)). refine (eq_trans (f_equal (@minv ROps) F2) (eq_trans E3 (f_equal (@minv ROps) (eq_sym F1)))). }
    assert (EW : @Ok R w' = Ok w).
    { refine (eq_trans (eq_sym X') (eq_trans _ X)). refine (eq_trans (f_equal (@maxv ROps) F2) (eq_trans E4 (f_equal (@maxv ROps) (eq_sym F1)))). }
    injection EU as EU. injection EV as EV. injection EW as EW. rewrite EU, EV, EW in *. split; [reflexivity|]. congruence. }
  destruct (SH _ _ _ _ _ _ P P') as (<- & <-).
  refine (eq_trans P' (eq_trans _ (eq_sym P))). f_equal. f_equal. 
  assert (NN : n' = n) by congruence. rewrite NN in Q'.  apply list_ext; [congruence|].
  intros k x y H1 H2. assert (K : (k < n)%nat) by (apply nth_error_lt in H2; congruence).
  destruct (Q k K) as (_ & Z & _). destruct (Q' k K) as (_ & Z' & _).
  rewrite H2 in Z. rewrite H1 in Z'. injection Z as ->. injection Z' as ->.
  apply count_filter_out. intros e I KE. apply incomplete_uncounted; auto.
Qed.

Theorem C128_proof : forall fuel (evs : list (R * R)) (table : list (R * R)) keep d_m d_t ref,
  0 < d_m -> 0 < d_t -> table <> [] ->
  (forall e, In e evs -> whole_tenths e) ->
  (forall e, In e evs -> keep e = false -> incomplete table e) ->
  keeps_ends fst keep evs -> keeps_ends snd keep evs ->
  @recurrence_analysis ROps fuel (map fst (filter keep evs)) (map snd (filter keep evs)) table d_m "Weichert" ref d_t =
  @recurrence_analysis ROps fuel (map fst evs) (map snd evs) table d_m "Weichert" ref d_t.
Proof.
  intros fuel evs table keep d_m d_t ref Hm Ht NT W INC KY KM.
  assert (P := C128_prep_proof evs table keep d_m d_t Hm Ht NT W INC KY KM).
  unfold recurrence_analysis. cbn [String.eqb Ascii.eqb Bool.eqb]. 
  change (@T ROps) with R in *. rewrite P. reflexivity.
Qed.

(** ** The earliest event matters *)

Definition early : list (R * R) := [(1970, 5); (1978, 5)].
Definition after_1975 (e : R * R) : bool := Rltb 1975 (fst e).

Lemma bin_start_at : forall lo w x k, 0 < w -> lo + INR k * w <= x < lo + INR (k + 1) * w -> bin_start lo w x = lo + INR k * w.
Proof.
  intros lo w x k Hw H. apply bin_start_of; auto. unfold bin_of. apply andb_true_iff. rewrite Rleb_true, Rltb_true. exact H.
Qed.

Theorem C128_refuted_proof : exists (evs table : list (R * R)) keep d_m d_t c tp no c' tp' no',
  0 < d_m /\ 0 < d_t /\ table <> [] /\ (forall e, In e evs -> whole_tenths e) /\
  (forall e, In e evs -> keep e = false -> incomplete table e) /\
  @weichert_prep ROps (map fst evs) (map snd evs) table d_m d_t = Ok (c, tp, no) /\
  @weichert_prep ROps (map fst (filter keep evs)) (map snd (filter keep evs)) table d_m d_t = Ok (c', tp', no') /\
  nth_error no 0 = Some 0%nat /\ nth_error no' 0 = Some 1%nat.
Proof.
  assert (K1 : after_1975 (1970, 5) = false) by (apply Rltb_false; cbn [fst]; lra).
  assert (K2 : after_1975 (1978, 5) = true) by (apply Rltb_true; cbn [fst]; lra).
  assert (FE : filter after_1975 early = [(1978, 5)]) by (unfold early; cbn [filter]; rewrite K1, K2; reflexivity).
  assert (WT : forall e, In e early -> whole_tenths e).
  { intros e [<-|[<-|[]]]; exists 50%Z; cbn [snd]; lra. }
  destruct (C39_proof (map fst early) (map snd early) [(1975, 6)] 1 9) as (rm & y0 & y1 & m0 & n & c & tp & no & R1 & Y0 & Y1 & M0 & P & L1 & L2 & L3 & BO & _ & Q); try lra; try discriminate; try reflexivity.
  destruct (C39_proof (map fst (filter after_1975 early)) (map snd (filter after_1975 early)) [(1975, 6)] 1 9)
    as (rm' & y0' & y1' & m0' & n' & c' & tp' & no' & R1' & Y0' & Y1' & M0' & P' & L1' & L2' & L3' & BO' & _ & Q'); try lra; try discriminate; rewrite ?FE; try discriminate; try reflexivity.
  exists early, [(1975, 6)], after_1975, 1, 9, c, tp, no, c', tp', no'.
  split; [lra|]. split; [lra|]. split; [discriminate|]. split; [exact WT|].
  split. { intros e [<-|[<-|[]]] K; [|congruence]. exists 1975, 6. cbn [fst snd]. split; [now left|lra]. }
  split; [exact P|]. split; [exact P'|]. rewrite FE in *.
  apply tenths_rounded in R1; auto. apply (tenths_rounded [(1978, 5)]) in R1'. 2:{ intros e [<-|[]]. exists 50%Z. cbn [snd]. lra. }
  subst rm rm'. rewrite pairs_again in Q. rewrite pairs_again in Q'. cbn [map fst snd early] in *.
  assert (E1 : y0 = 1970). { destruct Y0 as (I & H). assert (y0 <= 1970) by (apply H; now left). destruct I as [<-|[<-|[]]]; lra. }
  assert (E2 : m0 = 5). { destruct M0 as ([<-|[<-|[]]] & _); lra. }
  assert (E3 : y0' = 1978). { destruct Y0' as ([<-|[]] & _); lra. }
  assert (E4 : m0' = 5). { destruct M0' as ([<-|[]] & _); lra. }
  subst y0 m0 y0' m0'.
  assert (NP : (0 < n)%nat). { destruct (BO 5) as (_ & X); [now left|]. destruct n; [cbn in X; lra|lia]. }
  assert (NP' : (0 < n')%nat). { destruct (BO' 5) as (_ & X); [now left|]. destruct n'; [cbn in X; lra|lia]. }
  destruct (Q 0%nat NP) as (_ & Z & _). destruct (Q' 0%nat NP') as (_ & Z' & _). rewrite Z, Z'.
  assert (B1 : bin_start 1970 9 1970 = 1970). { rewrite (bin_start_at 1970 9 1970 0); cbn [INR Nat.add]; lra. }
  assert (B2 : bin_start 1970 9 1978 = 1970). { rewrite (bin_start_at 1970 9 1978 0); cbn [INR Nat.add]; lra. }
  assert (B3 : bin_start 1978 9 1978 = 1978). { rewrite (bin_start_at 1978 9 1978 0); cbn [INR Nat.add]; lra. }
  assert (T1 : Rltb 1970 1975 = true) by (apply Rltb_true; lra).
  assert (T2 : Rltb (5 + INR 0 * 1) 6 = true) by (apply Rltb_true; cbn [INR]; lra).
  assert (T3 : Rltb 1978 1975 = false) by (apply Rltb_false; lra).
  assert (T4 : bin_of 5 1 0 5 = true). { unfold bin_of. apply andb_true_iff. rewrite Rleb_true, Rltb_true. cbn [INR Nat.add]. lra. }
  split; f_equal.
  - unfold early. rewrite !count_cons. unfold counts_in. cbn [fst snd forallb]. rewrite B1, B2, T1, T2, T4. reflexivity.
  - rewrite count_cons. unfold counts_in. cbn [fst snd forallb]. rewrite B3, T3, T4. reflexivity.
Qed.

(** ** A concrete case *)

Definition four : list (R * R) := [(1970, 5); (1972, 51/10); (1980, 6); (1990, 55/10)].
Definition not_1972 (e : R * R) : bool := if Req_EM_T (fst e) 1972 then false else true.

Lemma C128_case_proof : 
  (forall e, In e four -> whole_tenths e) /\
  (forall e, In e four -> not_1972 e = false -> incomplete [(1975, 55/10); (1965, 6)] e) /\
  keeps_ends fst not_1972 four /\ keeps_ends snd not_1972 four /\ filter not_1972 four = [(1970, 5); (1980, 6); (1990, 55/10)].
Proof.
  assert (K : forall y m, y <> 1972 -> not_1972 (y, m) = true) by (intros y m N; unfold not_1972; cbn [fst]; destruct (Req_EM_T y 1972); congruence).
  assert (K2 : forall m, not_1972 (1972, m) = false) by (intros m; unfold not_1972; cbn [fst]; destruct (Req_EM_T 1972 1972); congruence).
  split. { intros e [<-|[<-|[<-|[<-|[]]]]]; [exists 50%Z|exists 51%Z|exists 60%Z|exists 55%Z]; cbn [snd]; lra. }
  split. { intros e I F. exists 1975, (55/10). split; [now left|].
    destruct I as [<-|[<-|[<-|[<-|[]]]]]; try (rewrite K in F by lra; discriminate). cbn [fst snd]. lra. }
  split; [|split].
  - split; [exists (1970, 5)|exists (1990, 55/10)]; (split; [cbn; auto|split; [apply K; lra|]]); intros e [<-|[<-|[<-|[<-|[]]]]]; cbn [fst]; lra.
  - split; [exists (1970, 5)|exists (1980, 6)]; (split; [cbn; auto|split; [apply K; lra|]]); intros e [<-|[<-|[<-|[<-|[]]]]]; cbn [snd]; lra.
  - unfold four. cbn [filter]. rewrite K2, !K by lra. reflexivity.
Qed.

(** ** C129 *)

Theorem C129_partial_proof : forall (evs table : list (R * R)) keep d_m d_t c tp no,
  0 < d_m -> 0 < d_t -> evs <> [] -> table <> [] ->
  (forall e, In e evs -> whole_tenths e) ->
  (forall e, In e evs -> keep e = false -> incomplete table e) ->
  @weichert_prep ROps (map fst evs) (map snd evs) table d_m d_t = Ok (c, tp, no) ->
  (list_sum no <= List.length (filter keep evs))%nat.
Proof.
  intros evs table keep dm dt c tp no Hm Ht NE NT W INC H.
  destruct (C39_proof (map fst evs) (map snd evs) table dm dt Hm Ht) as (rm & y0 & y1 & m0 & n & c' & tp' & no' & R1 & Y0 & Y1 & M0 & P & L1 & L2 & L3 & _ & _ & Q); auto.
  { destruct evs; [congruence|discriminate]. } { now rewrite !map_length. }
  rewrite H in P. injection P. intros <- _ _. clear P.
  apply tenths_rounded in R1; auto. subst rm. rewrite pairs_again in Q.
  assert (EN : no = map (fun i => count (counts_in y0 dt m0 dm table i) (filter keep evs)) (seq 0 n)).
  { apply list_ext. { rewrite map_length, seq_length. auto. }
    intros k x y H1 H2. assert (Lk := nth_error_lt _ _ _ _ H1). rewrite L3 in Lk.
    destruct (Q k Lk) as (_ & S2 & _). rewrite nth_error_map, nth_error_seq in H2 by auto.
    cbn [option_map Nat.add] in H2. injection H2. intros <-. rewrite count_filter_out; [congruence|].
    intros e I KE. apply incomplete_uncounted; auto. }
  rewrite EN, list_sum_nsum, nsum_count_swap.
  apply (Nat.le_trans _ (nsum (map (fun _ => 1%nat) (filter keep evs)))).
  - apply nsum_le. intros (y, m) _. apply count_at_most_one. intros a b Ha Hb.
    unfold counts_in in Ha, Hb. apply andb_true_iff in Ha, Hb. cbn [fst snd] in *.
    destruct Ha as (Ha & _), Hb as (Hb & _).
    unfold bin_of in Ha, Hb. apply andb_true_iff in Ha, Hb.
    rewrite Rleb_true, Rltb_true, plus_INR in Ha, Hb. simpl in Ha, Hb.
    assert (A : INR a < INR b + 1) by nra. assert (B : INR b < INR a + 1) by nra.
    rewrite <- S_INR in A, B. apply INR_lt in A, B. lia.
  - rewrite (nsum_ones _ _ (filter keep evs)) by auto. lia.
Qed.

Theorem C129_refuted_proof : exists (evs table : list (R * R)) d_m d_t c tp no,
  0 < d_m /\ 0 < d_t /\ table <> [] /\ (forall e, In e evs -> incomplete table e) /\
  @weichert_prep ROps (map fst evs) (map snd evs) table d_m d_t = Ok (c, tp, no) /\ (0 < list_sum no)%nat.
Proof.
  destruct (C39_proof [1970] [496/100] [(1975, 5)] 1 9) as (rm & y0 & y1 & m0 & n & c & tp & no & R1 & Y0 & Y1 & M0 & P & L1 & L2 & L3 & BO & _ & Q); try lra; try discriminate; try reflexivity.
  exists [(1970, 496/100)], [(1975, 5)], 1, 9, c, tp, no.
  split; [lra|]. split; [lra|]. split; [discriminate|].
  split. { intros e [<-|[]]. exists 1975, 5. cbn [fst snd]. split; [now left|lra]. }
  split; [exact P|].
  assert (E : rm = [5]).
  { inversion R1 as [|? r ? rm' ((z & Z) & A) F]; subst. inversion F; subst. f_equal.
    unfold Rabs in A. destruct (Rcase_abs _) in A; assert (ZZ : IZR z <= 501/10) by lra; assert (YY : 491/10 <= IZR z) by lra; assert (49 < z)%Z by (apply lt_IZR; lra); assert (z < 51)%Z by (apply lt_IZR; lra);
    assert (z = 50)%Z by lia; subst z; lra. }
  subst rm. assert (E1 : y0 = 1970) by (destruct Y0 as ([<-|[]] & _); lra). assert (E2 : m0 = 5) by (destruct M0 as ([<-|[]] & _); lra). subst y0 m0.
  assert (NP : (0 < n)%nat). { destruct (BO 5) as (_ & X); [now left|]. destruct n; [cbn in X; lra|lia]. }
  destruct (Q 0%nat NP) as (_ & Z & _).
  assert (T2 : Rltb (5 + INR 0 * 1) 5 = false) by (apply Rltb_false; cbn [INR]; lra).
  assert (T4 : bin_of 5 1 0 5 = true). { unfold bin_of. apply andb_true_iff. rewrite Rleb_true, Rltb_true. cbn [INR Nat.add]. lra. }
  assert (C : count (counts_in 1970 9 5 1 [(1975, 5)] 0) (combine [1970] [5]) = 1%nat).
  { cbn [combine]. rewrite count_cons. unfold counts_in. cbn [fst snd forallb]. rewrite T2, T4, andb_false_r. reflexivity. }
  rewrite C in Z. destruct no as [|x no]; [discriminate|]. injection Z as ->. cbn [list_sum fold_right]. lia.
Qed.
