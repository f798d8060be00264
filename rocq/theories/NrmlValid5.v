(** Writing back what was read from a valid document, with other rates. *)
From Coq Require Import ZArith Bool Ascii String List Lia.
From Verif Require Import Base Ops BaseFacts PyStr SourceModel Nrml NrmlSpec NrmlRead NrmlRound NrmlFinal NrmlSchema NrmlValid NrmlValid2 NrmlValid3 NrmlValid4 World FlowSpec.
Import ListNotations.
Local Open Scope nat_scope.

Lemma flat_disjoint : forall {A B} (f : A -> list B) l x y v, NoDup (flat_map f l) -> In x l -> In y l -> x <> y ->
  In v (f x) -> In v (f y) -> False.
Proof.
  intros A B f. induction l as [|z l IH]; intros x y v N X Y D VX VY; [destruct X|]. cbn [flat_map] in N.
  assert (Dj : forall u, In u (f z) -> In u (flat_map f l) -> False).
  { clear - N. revert N. generalize (f z). intros m. induction m as [|w m IHm]; intros N u U1 U2; [destruct U1|].
    cbn [app] in N. inversion N as [|? ? N1 N2]; subst. destruct U1 as [<-|U1]; [apply N1, in_app_iff; now right|eapply IHm; eauto]. }
  assert (N2 : NoDup (flat_map f l)).
  { clear - N. revert N. generalize (f z). intros m. induction m as [|w m IHm]; intros N; auto. cbn [app] in N. inversion N; auto. }
  destruct X as [->|X], Y as [->|Y].
  - now apply D.
  - apply (Dj v VX). apply in_flat_map. eauto.
  - apply (Dj v VY). apply in_flat_map. eauto.
  - eapply IH; eauto.
Qed.

Lemma flat_filter : forall {A B} (f : A -> list B) p l, NoDup (flat_map f l) -> NoDup (flat_map f (filter p l)).
Proof.
  intros A B f p. induction l as [|z l IH]; intros N; [constructor|]. cbn [flat_map filter] in *.
  assert (Dj : forall u, In u (f z) -> In u (flat_map f l) -> False).
  { clear - N. revert N. generalize (f z). intros m. induction m as [|w m IHm]; intros N u U1 U2; [destruct U1|].
    cbn [app] in N. inversion N as [|? ? N1 N2]; subst. destruct U1 as [<-|U1]; [apply N1, in_app_iff; now right|eapply IHm; eauto]. }
  assert (N2 : NoDup (flat_map f l) /\ NoDup (f z)).
  { clear - N. revert N. generalize (f z). intros m. induction m as [|w m IHm]; intros N; [split; auto; constructor|]. cbn [app] in N. inversion N as [|? ? N1 N2]; subst.
    destruct (IHm N2) as (H1 & H2). split; auto. constructor; auto. intros I. apply N1, in_app_iff. now left. }
  destruct N2 as (N2 & Nz). specialize (IH N2). destruct (p z); auto. cbn [flat_map].
  assert (Dj' : forall u, In u (f z) -> In u (flat_map f (filter p l)) -> False).
  { intros u U1 U2. apply (Dj u U1). apply in_flat_map in U2. destruct U2 as (x & X & U2). apply filter_In in X. apply in_flat_map. exists x. tauto. }
  clear - IH Nz Dj'. induction (f z) as [|w m IHm]; auto. cbn [app]. inversion Nz as [|? ? N1 N2]; subst. constructor.
  - intros I. apply in_app_iff in I. destruct I as [I|I]; auto. apply (Dj' w); [now left|auto].
  - apply IHm; auto. intros u U1 U2. apply (Dj' u); [now right|auto].
Qed.

Section Valid5.
Context {AR : Ops}.
Variable value : text -> option T.
Variable str : T -> text.
Variable xml_ok : text -> bool.
Variable indent : nat -> option text.
Hypothesis SW : prints_words str.
Hypothesis IB : forall n s, indent n = Some s -> blanks s.

(** The document says what the schema asks of the texts. *)
Lemma texts_fit : forall anc e s, area_source_type value e -> represents value anc e s ->
  (exists v, as_tect s = Some v /\ In v TECTONIC_REGIONS) /\
  (forall v, tg_type (rm_tgr (as_rate s)) = Some v -> In v MAGNITUDE_TYPES) /\
  (forall v, dd_type (as_depth s) = Some v -> In v MAGNITUDE_TYPES).
Proof.
  intros anc e s V R. destruct (parts_of value _ V) as (ft & tr & ab & rs & dd & h & P).
  destruct R as [_ _ _ (k & Fk & Ek) _ (r0 & F0 & _ & _ & _ & g & Fg & _ & _ & _ & _ & Tg) (d0 & m & q & Fd & Fm & Tm & _) _ _].
  assert (Xd := first_unique _ _ _ _ Fd (f_dd value _ _ _ _ _ _ _ P)). subst d0.
  assert (Xk := first_unique _ _ _ _ Fk (f_tr value _ _ _ _ _ _ _ P)). subst k.
  destruct (f_rate value _ _ _ _ _ _ _ P) as (r1 & rs1 & Er & Fr & R1).
  assert (Xr := first_unique _ _ _ _ F0 Fr). subst r0. split; [|split].
  - destruct (pt_tect _ _ _ _ _ _ _ _ P) as (_ & _ & _ & v & E & I). exists v. split; auto. congruence.
  - intros v E. rewrite Tg in E. destruct R1 as (_ & _ & _ & m0 & sk & dp & rk & K & M & SK & DP & RK). rewrite K in Fg.
    apply first_in in Fg. destruct Fg as (I & G).
    assert (X : m0 = g).
    { destruct I as [<-|[<-|[<-|[<-|[]]]]]; auto; exfalso.
      - rewrite (proj1 SK) in G. revert G. tneq.
      - rewrite (proj1 DP) in G. revert G. tneq.
      - rewrite (proj1 RK) in G. revert G. tneq. }
    subst m0. destruct M as [(M & _)|(M & _)]; now apply M.
  - intros v E. rewrite Tm in E. destruct (pt_depth _ _ _ _ _ _ _ _ P) as (_ & _ & _ & m0 & d0 & K & M & MT & D). rewrite K in Fm.
    apply first_in in Fm. destruct Fm as (I & G). assert (X : m0 = m).
    { destruct I as [<-|[<-|[]]]; auto. exfalso. rewrite (proj1 D) in G. revert G. tneq. }
    subst m0. now apply MT.
Qed.

Lemma fits_numbers : forall s, fits_schema value str s -> numbers_fit value str s.
Proof. intros s [_ _ A B C]. constructor; auto. Qed.

(** What was read from a valid document, given other rates and written, is valid exactly when the
    numbers are. *)
Theorem kept_valid : forall d ss ss' dc, valid_document value d -> read_doc value d = (ss, None) ->
  Forall2 same_but_rates ss ss' -> write_doc str xml_ok ss' = Ok dc ->
  (valid_document value (reparsed indent 0 dc) <-> Forall (numbers_fit value str) ss').
Proof.
  intros d ss ss' dc (R & ND & NC) RD K W. destruct (valid_areas value d R) as (sm & es & AE & F & SM).
  destruct (C62_proof value d (valid_not_nested value d R)) as [(ss1 & E & G)|(pre & q & post & ss1 & x & B & E & _ & N)]; [|congruence].
  rewrite RD in E. injection E as <-.
  assert (G' : Forall2 (fun e s => represents value [sm; d] e s) es ss).
  { clear - G AE. rewrite AE in G. revert ss G. clear AE. induction es as [|e es IH]; intros ss G; inversion G; subst; constructor; auto. }
  destruct (write_inv str xml_ok ss' dc W) as (sz & sl & _ & _ & _ & FF).
  destruct (written_valid value str xml_ok indent SW IB ss' dc W) as (s0 & ss1 & E & l & L & WV).
  rewrite WV.
  assert (NE : es <> []). { intros ->. inversion G'; subst. inversion K; congruence. }
  destruct (SM NE) as (I1 & I2 & I3).
  assert (Lsm : In ([d], sm) (located [] d)).
  { rewrite located_unfold. right. apply in_flat_map. exists sm. split; auto. rewrite located_unfold. now left. }
  assert (Ld : In ([], d) (located [] d)) by (rewrite located_unfold; now left).
  assert (Le : forall e, In e es -> In ([sm; d], e) (located [] d)).
  { intros e I. assert (J : In ([sm; d], e) (area_elements d)) by (rewrite AE; apply in_map_iff; eauto). unfold area_elements in J. apply filter_In in J. tauto. }
  set (idf := fun p : list xml * xml => match attr GML_ID (snd p) with Some v => [v] | None => [] end).
  change (ids d) with (flat_map idf (located [] d)) in ND, NC.
  assert (AI : map as_id ss' = map (attr GML_ID) es).
  { clear - G' K. revert ss' K. induction G' as [|e s es ss Rp G IH]; intros ss' K; inversion K as [|? s' ? ? (a & b & mn & mx & sb & sa & mm & ->) K']; subst; auto.
    cbn [map]. f_equal; [|now apply IH]. cbn. apply (rp_id _ _ _ _ Rp). }
  assert (H0 : as_nrml_id s0 = attr GML_ID d /\ as_sm_id s0 = attr GML_ID sm).
  { clear - G' K E. rewrite E in K. clear E. inversion G' as [|e s es' sx Rp G X Y]; subst; [inversion K|].
    inversion K as [|? s' ? ? SB K']; subst. destruct SB as (a & b & mn & mx & sb & sa & mm & ->).
    destruct (rp_ids _ _ _ _ Rp) as (p & g & rest & A & B & C). injection A as <- <- _. split; auto. }
  destruct H0 as (H1 & H2). unfold id_list in L. rewrite AI, H1, H2 in L.
  destruct l as [|n [|m l]]; try discriminate. cbn [map] in L. injection L as Ln Lm Ll.
  assert (LI : flat_map idf (map (fun e => ([sm; d], e)) es) = l).
  { clear - Ll. revert l Ll. induction es as [|e es IH]; intros [|i l] L; try discriminate; auto. cbn [map] in L. injection L as Li Ll.
    cbn [map flat_map]. unfold idf at 1. cbn [snd]. rewrite <- Li. cbn [app]. f_equal. now apply IH. }
  assert (N3 : NoDup l). { rewrite <- LI, <- AE. now apply flat_filter. }
  assert (X1 : In n (idf ([], d))) by (unfold idf; cbn [snd]; rewrite <- Ln; now left).
  assert (X2 : In m (idf ([d], sm))) by (unfold idf; cbn [snd]; rewrite <- Lm; now left).
  assert (X3 : forall i, In i l -> exists e, In e es /\ In i (idf ([sm; d], e))).
  { intros i I. rewrite <- LI in I. apply in_flat_map in I. destruct I as (p & P & I). apply in_map_iff in P. destruct P as (e & <- & P). eauto. }
  assert (NL : NoDup (n :: m :: l)).
  { constructor; [intros [->|I]|constructor; auto; intros I].
    - apply (flat_disjoint idf _ ([], d) ([d], sm) n ND); auto. discriminate.
    - destruct (X3 _ I) as (e & J & Q). apply (flat_disjoint idf _ ([], d) ([sm; d], e) n ND); auto. discriminate.
    - destruct (X3 _ I) as (e & J & Q). apply (flat_disjoint idf _ ([d], sm) ([sm; d], e) m ND); auto. discriminate. }
  assert (CL : Forall nc_name (n :: m :: l)).
  { rewrite Forall_forall in NC. constructor; [|constructor].
    - apply NC, in_flat_map. eauto.
    - apply NC, in_flat_map. eauto.
    - apply Forall_forall. intros i I. destruct (X3 _ I) as (e & J & Q). apply NC, in_flat_map. eauto. }
  split.
  - intros (_ & _ & FS). eapply Forall_impl; [|exact FS]. intros s. apply fits_numbers.
  - intros FN. split; auto. split; auto.
    clear - F G' K FF FN. revert ss' K FF FN. induction G' as [|e s es ss Rp G IH]; intros ss' K FF FN; inversion K as [|? s' ? l' SB K']; subst; [constructor|].
    inversion FF as [|? ? (i & b0 & g & d0 & HI & HB & HG & HD) FF']; subst.
    inversion F as [|? ? V F']; subst. inversion FN as [|? ? NF FN']; subst. constructor; [|apply IH; auto].
    destruct (texts_fit _ _ _ V Rp) as (T1 & T2 & T3). destruct NF as [A B C]. constructor; auto.
    + destruct SB as (a & b & mn & mx & sb & sa & mm & ->). exact T1.
    + exists g, d0. split; auto. split; [|split; auto].
      * destruct SB as (a & b & mn & mx & sb & sa & mm & ->). now apply T2.
      * destruct SB as (a & b & mn & mx & sb & sa & mm & ->). now apply T3.
Qed.

End Valid5.
