(** The round trip properties of source models, and their limits. *)
From Coq Require Import ZArith Bool Ascii String List Lia.
From Coq Require Import Floats.SpecFloat.
From Verif Require Import Base Ops BaseFacts FloatOps PyStr SourceModel Nrml NrmlSpec NrmlRead NrmlRound PyFloat PyFloatProofs.
Import ListNotations.

(** Text that lxml accepts: at least printable ASCII. *)
Definition accepts_printable (xml_ok : text -> bool) : Prop := forall s, Forall printable s -> xml_ok s = true.
(** str(x) is a printable word. *)
Definition prints_words {AR : Ops} (str_float : T -> text) : Prop :=
  forall x : T, word (str_float x) /\ Forall printable (str_float x).

Section Final.
Context {AR : Ops}.
Variable parse_float : text -> option T.
Variable str_float : T -> text.
Variable xml_ok : text -> bool.
Variable indent : nat -> option text.

Lemma flat_points_inj : forall ps qs : list (T * T), flat_points ps = flat_points qs -> ps = qs.
Proof.
  induction ps as [|(a, b) ps IH]; intros [|(c, d) qs] E; cbn in E; try discriminate; auto.
  injection E as -> -> E. f_equal. now apply IH.
Qed.

Lemma flat_points_len : forall ps : list (T * T), length (flat_points ps) = (2 * length ps)%nat.
Proof. induction ps as [|p ps IH]; auto. cbn [flat_points flat_map app length] in *. unfold flat_points in IH. rewrite IH. cbn. lia. Qed.

Lemma app_inv_len : forall {A : Type} (l1 l1' l2 l2' : list A), length l1 = length l1' -> l1 ++ l2 = l1' ++ l2' -> l1 = l1' /\ l2 = l2'.
Proof.
  induction l1 as [|a l1 IH]; intros [|b l1'] l2 l2' L E; cbn in *; try discriminate; auto.
  injection E as -> E. injection L as L. destruct (IH _ _ _ L E). now subst.
Qed.

(** A source is determined by its ids, texts, lengths and numbers. *)
Lemma source_determined : forall s s' : area_source AR,
  as_nrml_id s = as_nrml_id s' -> as_sm_id s = as_sm_id s' -> source_texts s = source_texts s' ->
  source_shape s = source_shape s' -> source_numbers s = source_numbers s' -> eq_part s = eq_part s'.
Proof.
  intros [n1 n2 n3 n4 n5 [srs ps] [[a b mn mx tt] st di ra] [dt ms ds] h x1 x2 x3]
         [m1 m2 m3 m4 m5 [srs' ps'] [[a' b' mn' mx' tt'] st' di' ra'] [dt' ms' ds'] h' y1 y2 y3].
  unfold source_texts, source_shape, source_numbers, eq_part. cbn -[flat_points]. intros -> -> T1 S1 N1.
  injection T1 as -> -> -> -> -> ->. injection S1 as L1 L2 L3.
  apply app_inv_len in N1; [|rewrite !flat_points_len; now rewrite L1]. destruct N1 as (E1 & N1).
  apply flat_points_inj in E1. injection N1 as -> -> -> -> -> -> -> N1.
  apply app_inv_len in N1; auto. destruct N1 as (-> & N1). apply app_inv_len in N1; auto. destruct N1 as (-> & N1).
  injection N1 as ->. now rewrite E1.
Qed.

Theorem C59_proof : accepts_printable xml_ok -> prints_words str_float -> forall s0 ss,
  Forall (writable xml_ok) (s0 :: ss) ->
  (forall s, In s (s0 :: ss) -> as_nrml_id s = as_nrml_id s0 /\ as_sm_id s = as_sm_id s0) ->
  (forall s x, In s (s0 :: ss) -> In x (source_numbers s) -> parse_float (str_float x) = Some x) ->
  exists d ss', write_doc str_float xml_ok (s0 :: ss) = Ok d /\
    read_doc parse_float (reparsed indent 0 d) = (ss', None) /\
    map eq_part ss' = map eq_part (s0 :: ss).
Proof.
  intros A B s0 ss W I N.
  destruct (write_read parse_float str_float xml_ok indent A B s0 ss (map source_numbers (s0 :: ss)) W) as (d & ss' & E & R & F & M).
  - revert N. generalize (s0 :: ss). intros l N. induction l as [|s l IH]; cbn [map]; constructor.
    + assert (G : forall x, In x (source_numbers s) -> reread parse_float str_float x x) by (intros x K; apply (N s); [now left|exact K]).
      clear -G. revert G. generalize (source_numbers s). intros xs G. induction xs as [|x xs IHx]; constructor; [apply G; now left|].
      apply IHx. intros y J. apply G. now right.
    + apply IH. intros s' x J. apply (N s'). now right.
  - exists d, ss'. split; auto. split; auto. clear E R N W.
    revert I F M. generalize (s0 :: ss). intros l I F. induction F as [|s s' l l' Bk F IH]; auto. cbn [map]. intros M. injection M as M1 M2.
    f_equal; [|apply IH; auto; intros s'' J; apply I; now right].
    destruct Bk as [K1 K2 K3 K4 _ _]. destruct (I s) as (I1 & I2); [now left|]. apply source_determined; congruence.
Qed.

Theorem C60_partial_proof : accepts_printable xml_ok -> prints_words str_float -> forall s0 ss,
  Forall (writable xml_ok) (s0 :: ss) ->
  (forall s x, In s (s0 :: ss) -> In x (source_numbers s) -> exists y, parse_float (str_float x) = Some y) ->
  exists d ss', write_doc str_float xml_ok (s0 :: ss) = Ok d /\
    read_doc parse_float (reparsed indent 0 d) = (ss', None) /\
    Forall2 (fun s s' => as_nrml_id s' = as_nrml_id s0 /\ as_sm_id s' = as_sm_id s0 /\ source_texts s' = source_texts s) (s0 :: ss) ss'.
Proof.
  intros A B s0 ss W N.
  assert (Y : exists yss, Forall2 (fun s ys => Forall2 (reread parse_float str_float) (source_numbers s) ys) (s0 :: ss) yss).
  { revert N. generalize (s0 :: ss). intros l N. induction l as [|s l IH]; [exists []; constructor|].
    destruct IH as (yss & IH); [intros s' x J; apply (N s'); now right|].
    assert (G : exists ys, Forall2 (reread parse_float str_float) (source_numbers s) ys).
    { assert (N' : forall x, In x (source_numbers s) -> exists y, parse_float (str_float x) = Some y) by (intros x; apply N; now left).
      clear -N'. revert N'. generalize (source_numbers s). intros xs. induction xs as [|x xs IHx]; intros N'; [exists []; constructor|].
      destruct (N' x) as (y & Y); [now left|]. destruct IHx as (ys & IHx); [intros z J; apply N'; now right|]. exists (y :: ys). now constructor. }
    destruct G as (ys & G). exists (ys :: yss). now constructor. }
  destruct Y as (yss & Y).
  destruct (write_read parse_float str_float xml_ok indent A B s0 ss yss W Y) as (d & ss' & E & R & F & _).
  exists d, ss'. split; auto. split; auto. clear -F. induction F as [|s s' l l' [K1 K2 K3 _ _ _] F IH]; constructor; auto.
Qed.

Theorem C61_partial_proof : accepts_printable xml_ok -> prints_words str_float -> forall s0 ss,
  Forall (writable xml_ok) (s0 :: ss) ->
  (forall s x, In s (s0 :: ss) -> In x (source_numbers s) -> exists y, parse_float (str_float x) = Some y) ->
  exists d ss', write_doc str_float xml_ok (s0 :: ss) = Ok d /\
    read_doc parse_float (reparsed indent 0 d) = (ss', None) /\
    Forall2 (fun s s' => source_shape s' = source_shape s /\
      Forall2 (fun x y => parse_float (str_float x) = Some y) (source_numbers s) (source_numbers s')) (s0 :: ss) ss'.
Proof.
  intros A B s0 ss W N.
  assert (Y : exists yss, Forall2 (fun s ys => Forall2 (reread parse_float str_float) (source_numbers s) ys) (s0 :: ss) yss).
  { revert N. generalize (s0 :: ss). intros l N. induction l as [|s l IH]; [exists []; constructor|].
    destruct IH as (yss & IH); [intros s' x J; apply (N s'); now right|].
    assert (G : exists ys, Forall2 (reread parse_float str_float) (source_numbers s) ys).
    { assert (N' : forall x, In x (source_numbers s) -> exists y, parse_float (str_float x) = Some y) by (intros x; apply N; now left).
      clear -N'. revert N'. generalize (source_numbers s). intros xs. induction xs as [|x xs IHx]; intros N'; [exists []; constructor|].
      destruct (N' x) as (y & Y); [now left|]. destruct IHx as (ys & IHx); [intros z J; apply N'; now right|]. exists (y :: ys). now constructor. }
    destruct G as (ys & G). exists (ys :: yss). now constructor. }
  destruct Y as (yss & Y).
  destruct (write_read parse_float str_float xml_ok indent A B s0 ss yss W Y) as (d & ss' & E & R & F & _).
  exists d, ss'. split; auto. split; auto. clear -F. induction F as [|s s' l l' [_ _ _ K4 K5 _] F IH]; constructor; auto.
Qed.

(** The writer either writes every source or raises; it raises for an empty list and for a
    missing attribute. *)
Theorem write_fails_proof : forall ss, write_doc str_float xml_ok [] = Err IndexError /\
  (forall s, In s ss -> as_id s = None \/ ab_srs (as_boundary s) = None \/ tg_type (rm_tgr (as_rate s)) = None \/ dd_type (as_depth s) = None ->
     exists x, write_doc str_float xml_ok ss = Err x).
Proof.
  intros ss. split; [reflexivity|]. intros s I H. destruct (write_doc str_float xml_ok ss) as [d|x] eqn:E; [|eauto]. exfalso.
  destruct ss as [|s0 ss]; [contradiction|]. unfold write_doc in E. apply bind_ok in E. destruct E as (ra & _ & E).
  apply bind_ok in E. destruct E as (ma & _ & E). apply bind_ok in E. destruct E as (es & M & _).
  destruct (In_nth_error _ _ I) as (k & K). destruct (mapM_nth _ _ _ _ _ _ _ M K) as (e & _ & G).
  unfold area_source_elem in G.
  apply bind_ok in G. destruct G as (a1 & G1 & G). apply bind_ok in G. destruct G as (a2 & _ & G).
  apply bind_ok in G. destruct G as (a3 & _ & G). apply bind_ok in G. destruct G as (a4 & G4 & G).
  apply bind_ok in G. destruct G as (a5 & G5 & G). apply bind_ok in G. destruct G as (a6 & G6 & _).
  destruct H as [H|[H|[H|H]]].
  - rewrite H in G1. discriminate.
  - unfold write_area_boundary in G4. rewrite H in G4. discriminate.
  - unfold write_rupture_rate_model, write_truncated_guten_richter in G5. rewrite H in G5. discriminate.
  - unfold write_rupture_depth_distrib in G6. rewrite H in G6. discriminate.
Qed.

End Final.

Lemma not_nested_b : forall d,
  forallb (fun p => forallb (fun y => negb (String.eqb (x_tag y) AREA_SOURCE)) (below (snd p))) (area_elements d) = true -> not_nested d.
Proof.
  intros d H anc e I y J. rewrite forallb_forall in H. specialize (H _ I). rewrite forallb_forall in H. specialize (H y J).
  now apply negb_true_iff, String.eqb_neq in H.
Qed.

(** ** Witnesses in binary64, with CPython's float() and str() *)

Definition printableb (s : text) : bool := forallb (fun c => Nat.leb 32 (nat_of_ascii c) && Nat.leb (nat_of_ascii c) 126) s.

Lemma printableb_ok : accepts_printable printableb.
Proof.
  intros s H. unfold printableb. apply forallb_forall. intros c I. rewrite Forall_forall in H. specialize (H c I). unfold printable in H.
  apply andb_true_iff. split; apply Nat.leb_le; lia.
Qed.

(** The indentation lxml writes below the root. *)
Definition demo_indent (n : nat) : option text := Some (chr_lf :: repeat chr_space (2 * S n)).

Section Witness.
Variable lm : libm.

Definition wsource (sm : string) (a : spec_float) : area_source (FOps lm) :=
  let s := @default_area_source (FOps lm) in
  let r := as_rate s in let g := rm_tgr r in
  mkSource (AR := FOps lm) (as_nrml_id s) (Some (t sm)) (as_id s) (as_name s) (as_tect s) (as_boundary s)
    (mkRate (AR := FOps lm) (mkTgr (AR := FOps lm) a (tg_b g) (tg_min g) (tg_max g) (tg_type g)) (rm_strike r) (rm_dip r) (rm_rake r))
    (as_depth s) (as_hypo s) None None None.

(** 0.1 + 0.2, which str() prints as 0.3. *)
Definition three : spec_float := S754_finite false 5404319552844596 (-54).

Lemma wsource_writable : forall sm a, printableb (t sm) = true -> writable printableb (wsource sm a).
Proof.
  intros sm a H. constructor.
  - repeat constructor; try (exists (t "MTK"); split; reflexivity). exists (t sm). split; [reflexivity|exact H].
  - assert (G : forall v, Some (t "MTK") = Some v -> v <> [] /\ printableb v = true)
      by (intros v E; injection E as <-; split; [discriminate|reflexivity]).
    constructor; [exact G|]. constructor; [exact G|]. constructor.
  - repeat split; discriminate.
Qed.

Lemma wsource_numbers : forall sm a, py_float (py_str a) = Some a ->
  forall x, In x (source_numbers (wsource sm a)) -> py_float (py_str x) = Some x.
Proof.
  intros sm a H x I. cbn -[py_float py_str F_ofZ SFdiv] in I.
  repeat (destruct I as [<-|I]; [first [exact H|vm_compute; reflexivity]|]). destruct I.
Qed.

Lemma wsource_reads : forall sm a b, py_float (py_str a) = Some b ->
  forall x, In x (source_numbers (wsource sm a)) -> exists y, py_float (py_str x) = Some y.
Proof.
  intros sm a b H x I. cbn -[py_float py_str F_ofZ SFdiv] in I.
  repeat (destruct I as [<-|I]; [first [exists b; exact H|eexists; vm_compute; reflexivity]|]). destruct I.
Qed.

Lemma C60_refuted_proof : exists ss d ss',
  Forall (writable printableb) ss /\
  write_doc (AR := FOps lm) py_str printableb ss = Ok d /\
  read_doc (AR := FOps lm) py_float (reparsed demo_indent 0 d) = (ss', None) /\
  map as_sm_id ss = [Some (t "sm1"); Some (t "sm2")] /\ map as_sm_id ss' = [Some (t "sm1"); Some (t "sm1")].
Proof.
  assert (N : py_float (py_str (F_ofZ 1)) = Some (F_ofZ 1)) by (vm_compute; reflexivity).
  destruct (C60_partial_proof (AR := FOps lm) py_float py_str printableb demo_indent printableb_ok py_str_word
    (wsource "sm1" (F_ofZ 1)) [wsource "sm2" (F_ofZ 1)]) as (d & ss' & E & R & F).
  - repeat (apply Forall_cons; [now apply wsource_writable|]). constructor.
  - intros s x [<-|[<-|[]]]; apply (wsource_reads _ _ _ N).
  - exists [wsource "sm1" (F_ofZ 1); wsource "sm2" (F_ofZ 1)], d, ss'.
    split; [repeat (apply Forall_cons; [now apply wsource_writable|]); constructor|]. split; [exact E|]. split; [exact R|]. split; [reflexivity|].
    inversion F as [|? s1 ? l1 (_ & A1 & _) F1]; subst. inversion F1 as [|? s2 ? l2 (_ & A2 & _) F2]; subst. inversion F2; subst.
    cbn [map]. now rewrite A1, A2.
Qed.

Lemma C61_refuted_proof : exists s d s',
  writable printableb s /\
  write_doc (AR := FOps lm) py_str printableb [s] = Ok d /\
  read_doc (AR := FOps lm) py_float (reparsed demo_indent 0 d) = ([s'], None) /\
  tg_a (rm_tgr (as_rate s)) <> tg_a (rm_tgr (as_rate s')) /\
  @ltb (FOps lm) (tg_a (rm_tgr (as_rate s'))) (tg_a (rm_tgr (as_rate s))) = true.
Proof.
  set (t3 := S754_finite false 5404319552844595 (-54)).
  assert (N : py_float (py_str three) = Some t3) by (vm_compute; reflexivity).
  destruct (C61_partial_proof (AR := FOps lm) py_float py_str printableb demo_indent printableb_ok py_str_word
    (wsource "sm" three) []) as (d & ss' & E & R & F).
  - repeat (apply Forall_cons; [now apply wsource_writable|]). constructor.
  - intros s x [<-|[]]. apply (wsource_reads _ _ _ N).
  - inversion F as [|? s' ? l (Sh & A) F1]; subst. inversion F1; subst.
    exists (wsource "sm" three), d, s'. split; [now apply wsource_writable|]. split; [exact E|]. split; [exact R|].
    assert (K : tg_a (rm_tgr (as_rate s')) = t3).
    { unfold source_shape in Sh. injection Sh as L1 _ _.
      assert (A' : Forall2 (fun x y => py_float (py_str x) = Some y) (skipn 2 (source_numbers (wsource "sm" three))) (skipn 2 (source_numbers s'))).
      { inversion A as [|? ? ? ? _ B]; subst. inversion B as [|? ? ? ? _ C]; subst. exact C. }
      unfold source_numbers in A' at 2. change (length (ab_pos (as_boundary s')) = 1%nat) in L1.
      destruct (ab_pos (as_boundary s')) as [|(p, q) [|]]; [discriminate L1| |discriminate L1].
      cbn [flat_points flat_map app fst snd skipn] in A'. change (skipn 2 (source_numbers (wsource "sm" three))) with
        (three :: skipn 3 (source_numbers (wsource "sm" three))) in A'.
      inversion A' as [|? ? ? ? B _]; subst. congruence. }
    rewrite K. split; [discriminate|reflexivity].
Qed.

End Witness.
