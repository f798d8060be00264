(** What reading a valid document leaves out, and writing back what was read. *)
From Coq Require Import ZArith Bool Ascii String List Lia.
From Verif Require Import Base Ops BaseFacts PyStr SourceModel Nrml NrmlSpec NrmlRead NrmlRound NrmlFinal NrmlSchema NrmlValid NrmlValid2 NrmlValid3.
Import ListNotations.
Local Open Scope nat_scope.

(** An element with a tag that occurs once determines the split. *)
Lemma split_unique : forall tag (l1 l2 l3 l4 : list xml) x y, l1 ++ x :: l2 = l3 ++ y :: l4 -> x_tag x = tag ->
  (forall k, In k l3 -> x_tag k <> tag) -> (forall k, In k l4 -> x_tag k <> tag) -> l1 = l3 /\ x = y /\ l2 = l4.
Proof.
  intros tag. induction l1 as [|z l1 IH]; intros l2 l3 l4 x y E X A B; destruct l3 as [|w l3]; cbn [app] in E.
  - injection E as -> ->. auto.
  - injection E as -> ->. elim (A w); auto. now left.
  - injection E as -> E. elim (B x); auto. rewrite <- E. apply in_app_iff. right. now left.
  - injection E as -> E. destruct (IH _ _ _ _ _ E X) as (-> & -> & ->); auto. intros k I. apply A. now right.
Qed.

Section Details.
Context {AR : Ops}.
Variable value : text -> option T.

(** The first ring of a boundary with an exterior. *)
Lemma first_ring : forall ba bx pa px st ext ints r st' l,
  standard st -> x_tag ext = EXTERIOR -> x_kids ext = [r] -> x_tag r = LINEAR_RING -> x_kids r = st' ++ [l] -> standard st' ->
  x_tag l = POS_LIST ->
  let ab := Elem AREA_BOUNDARY ba bx [Elem POLYGON pa px (st ++ [ext] ++ ints)] in
  first_tagged LINEAR_RING (below ab) r /\ first_tagged POS_LIST (below ab) l.
Proof.
  intros ba bx pa px st ext ints r st' l S E K R K' S' L ab. unfold ab. rewrite below_desc. cbn [x_kids flat_map].
  rewrite app_nil_r, iter_split, below_desc. cbn [x_kids]. rewrite !flat_map_app. cbn [flat_map].
  rewrite app_nil_r, (iter_split ext), below_desc, K. cbn [flat_map]. rewrite app_nil_r, (iter_split r), below_desc, K', flat_map_app.
  cbn [flat_map]. rewrite app_nil_r, (iter_split l).
  assert (O := standard_only _ S). assert (O' := standard_only _ S'). split.
  - set (p := Elem POLYGON pa px (st ++ [ext] ++ ints)).
    change (p :: flat_map iter_elems st ++ (ext :: r :: flat_map iter_elems st' ++ l :: below l) ++ flat_map iter_elems ints)
      with ([p] ++ flat_map iter_elems st ++ ([ext] ++ r :: flat_map iter_elems st' ++ l :: below l) ++ flat_map iter_elems ints).
    rewrite <- (app_assoc [ext]), (app_assoc [p]), (app_assoc ([p] ++ flat_map iter_elems st)). cbn [app].
    apply (first_at LINEAR_RING (p :: flat_map iter_elems st ++ [ext]) r); auto.
    intros y [<-|I]; [cbn [x_tag p]; tneq|]. apply in_app_iff in I. destruct I as [I|[<-|[]]]; [|rewrite E; tneq].
    revert I. apply (only_none _ LINEAR_RING _ O). tout.
  - set (p := Elem POLYGON pa px (st ++ [ext] ++ ints)).
    replace (p :: flat_map iter_elems st ++ (ext :: r :: flat_map iter_elems st' ++ l :: below l) ++ flat_map iter_elems ints)
      with ((p :: flat_map iter_elems st ++ ext :: r :: flat_map iter_elems st') ++ l :: below l ++ flat_map iter_elems ints)
      by (repeat (progress (rewrite <- ?app_assoc; cbn [app])); reflexivity).
    apply first_at; auto.
    intros y [<-|I]; [cbn [x_tag p]; tneq|]. apply in_app_iff in I. destruct I as [I|[<-|[<-|I]]]; [|rewrite E; tneq|rewrite R; tneq|].
    + revert I. apply (only_none _ POS_LIST _ O). tout.
    + revert I. apply (only_none _ POS_LIST _ O'). tout.
Qed.

(** Sources with the same parts but for the boundary and the later rate models. *)
Lemma represents_same : forall e e' ft tr ab ab' r rs rs' dd h anc s,
  parts value e ft tr ab (r :: rs) dd h -> parts value e' ft tr ab' (r :: rs') dd h -> x_attrs e = x_attrs e' ->
  (forall tag k, In tag [LINEAR_RING; POS_LIST] -> first_tagged tag (below ab) k -> first_tagged tag (below ab') k) ->
  represents value anc e s -> represents value anc e' s.
Proof.
  intros e e' ft tr ab ab' r rs rs' dd h anc s P P' HA HB [R1 R2 (k & Fk & R3) (k2 & F2 & R4) (b & rg & l & Fb & Fr & R5 & Fl & R6) (r0 & F0 & R7) (d0 & m & q & Fd & R8) (hk & hs & Fh & R9) R10].
  assert (X2 := first_unique _ _ _ _ F2 (f_tr value _ _ _ _ _ _ _ P)). subst k2.
  assert (Xb := first_unique _ _ _ _ Fb (f_ab value _ _ _ _ _ _ _ P)). subst b.
  assert (Xd := first_unique _ _ _ _ Fd (f_dd value _ _ _ _ _ _ _ P)). subst d0.
  assert (Xh := first_unique _ _ _ _ Fh (f_h value _ _ _ _ _ _ _ P)). subst hk.
  destruct (f_rate value _ _ _ _ _ _ _ P) as (r1 & rs1 & Er & Fr1 & _). injection Er as <- <-.
  assert (X0 := first_unique _ _ _ _ F0 Fr1). subst r0.
  destruct (f_rate value _ _ _ _ _ _ _ P') as (r2 & rs2 & Er & Fr2 & _). injection Er as <- <-.
  constructor; auto.
  - unfold attr in *. now rewrite <- HA.
  - exists k. split; auto. rewrite (pt_kids _ _ _ _ _ _ _ _ P) in Fk. rewrite (pt_kids _ _ _ _ _ _ _ _ P').
    assert (N : forall c ab0 rs0, parts value c ft tr ab0 rs0 dd h -> forall y, In y ([tr; ab0] ++ rs0 ++ [dd; h]) -> x_tag y <> GML_NAME).
    { intros c ab0 rs0 P0 y I. cbn [app] in I. destruct I as [<-|[<-|I]].
      - rewrite (t_tr value _ _ _ _ _ _ _ P0). tneq.
      - rewrite (t_ab value _ _ _ _ _ _ _ P0). tneq.
      - apply in_app_iff in I. destruct I as [I|[<-|[<-|[]]]].
        + revert I. apply (in_rs value _ _ _ _ _ _ _ P0). tout.
        + rewrite (t_dd value _ _ _ _ _ _ _ P0). tneq.
        + rewrite (t_h value _ _ _ _ _ _ _ P0). tneq. }
    apply (first_mid GML_NAME [] ft); [intros y []|apply (N _ _ _ P')|].
    apply (first_mid GML_NAME [] ft) in Fk; [auto|intros y []|apply (N _ _ _ P)].
  - exists tr. split; auto. apply (f_tr value _ _ _ _ _ _ _ P').
  - exists ab', rg, l. split; [apply (f_ab value _ _ _ _ _ _ _ P')|]. split; [apply HB; auto; now left|]. split; auto.
    split; auto. apply HB; auto. right. now left.
  - exists r. auto.
  - exists dd, m, q. split; auto. apply (f_dd value _ _ _ _ _ _ _ P').
  - exists h, hs. split; auto. apply (f_h value _ _ _ _ _ _ _ P').
Qed.

Theorem details_unread : forall e e', area_source_type value e -> without_details e e' ->
  area_source_type value e' /\
  forall anc s, parse_area_source value anc e = Ok s <-> parse_area_source value anc e' = Ok s.
Proof.
  intros e e' V W. destruct W as [a x ft tr ba bx pa px st ea ex ek ints r rs dd h ext].
  destruct (parts_of value _ V) as (ft1 & tr1 & ab1 & rs1 & dd1 & h1 & P).
  assert (K := pt_kids _ _ _ _ _ _ _ _ P). cbn [x_kids] in K.
  set (ab0 := Elem AREA_BOUNDARY ba bx [Elem POLYGON pa px (st ++ [ext] ++ ints)]) in *.
  change (ft ++ [tr; ab0] ++ (r :: rs) ++ [dd; h]) with (ft ++ [tr] ++ ab0 :: (r :: rs) ++ [dd; h]) in K.
  change (ft1 ++ [tr1; ab1] ++ rs1 ++ [dd1; h1]) with (ft1 ++ [tr1] ++ ab1 :: rs1 ++ [dd1; h1]) in K.
  rewrite !app_assoc in K. rewrite <- (app_assoc (ft ++ [tr])) in K || idtac.
  assert (Q : ft ++ [tr] = ft1 ++ [tr1] /\ ab0 = ab1 /\ (r :: rs) ++ [dd; h] = rs1 ++ [dd1; h1]).
  { apply (split_unique AREA_BOUNDARY); auto.
    - intros k I. apply in_app_iff in I. destruct I as [I|[<-|[]]].
      + revert I. apply (in_ft value _ _ _ _ _ _ _ P). tout.
      + rewrite (t_tr value _ _ _ _ _ _ _ P). tneq.
    - intros k I. apply in_app_iff in I. destruct I as [I|[<-|[<-|[]]]].
      + revert I. apply (in_rs value _ _ _ _ _ _ _ P). tout.
      + rewrite (t_dd value _ _ _ _ _ _ _ P). tneq.
      + rewrite (t_h value _ _ _ _ _ _ _ P). tneq. }
  clear K. destruct Q as (Q1 & Q2 & Q3). apply app_inj_tail in Q1. destruct Q1 as (<- & <-). subst ab1.
  change [dd; h] with ([dd] ++ [h]) in Q3. change [dd1; h1] with ([dd1] ++ [h1]) in Q3. rewrite !app_assoc in Q3.
  apply app_inj_tail in Q3. destruct Q3 as (Q3 & <-). apply app_inj_tail in Q3. destruct Q3 as (<- & <-).
  (* the boundary *)
  assert (PB := pt_bound _ _ _ _ _ _ _ _ P).
  destruct PB as (_ & AB & XB & p & Kp & (_ & AP & XP & st1 & ext1 & ints1 & Kst & S1 & X1 & I1)). cbn [x_kids ab0] in Kp. injection Kp as <-.
  cbn [x_kids] in Kst.
  assert (Q : st1 = st /\ ext1 = [ext] /\ ints1 = ints).
  { assert (OS : forall k, In k st1 -> x_tag k <> EXTERIOR).
    { intros k I. apply (only_none _ EXTERIOR _ (standard_only _ S1)); [tout|]. apply kid_iter. exact I. }
    assert (OI : forall k, In k ints1 -> x_tag k <> EXTERIOR).
    { intros k I. rewrite Forall_forall in I1. destruct (I1 k I) as (G & _). rewrite G. tneq. }
    destruct X1 as [->|(c & -> & Xc)].
    - exfalso. assert (I : In ext (st1 ++ [] ++ ints1)) by (rewrite <- Kst; apply in_app_iff; right; now left).
      apply in_app_iff in I. destruct I as [I|I]; [elim (OS _ I eq_refl)|elim (OI _ I eq_refl)].
    - destruct (split_unique EXTERIOR st ints st1 ints1 ext c Kst eq_refl OS OI) as (-> & <- & ->). auto. }
  destruct Q as (-> & -> & ->). clear Kst.
  assert (RX : ring_property EXTERIOR ext) by (apply optional_Forall in X1; now inversion X1).
  assert (RX' := RX). destruct RX' as (_ & _ & _ & rg & Krg & (Grg & _ & _ & st' & l & Kl & S' & SL)).
  set (ab' := Elem AREA_BOUNDARY ba bx [Elem POLYGON pa px (st ++ [ext])]).
  destruct P as [_ P2 P3 P4 (_ & P5) P6 P7].
  assert (B' : area_boundary ab').
  { split; [reflexivity|]. split; [exact AB|]. split; [exact XB|]. eexists. split; [reflexivity|].
    split; [reflexivity|]. split; [exact AP|]. split; [exact XP|]. exists st, [ext], []. split; [reflexivity|].
    split; [exact S1|]. split; [|constructor]. right. exists ext. auto. }
  assert (V' : area_source_type value (Elem AREA_SOURCE a x (ft ++ [tr; ab'] ++ [r] ++ [dd; h]))).
  { destruct V as (VI & _ & VA & VX & _). split; [exact VI|]. split; [reflexivity|]. split; [exact VA|]. split; [exact VX|].
    exists ft, tr, ab', [r], dd, h. split; [reflexivity|]. split; auto. split; auto. split; auto. split; [discriminate|].
    split; [|auto]. inversion P5; subst. now constructor. }
  split; [exact V'|]. intros anc s. rewrite !parse_iff.
  destruct (first_ring ba bx pa px st ext ints rg st' l S1 eq_refl Krg Grg Kl S' (proj1 SL)) as (F1 & F2).
  destruct (first_ring ba bx pa px st ext [] rg st' l S1 eq_refl Krg Grg Kl S' (proj1 SL)) as (F1' & F2').
  assert (PP : parts value (Elem AREA_SOURCE a x (ft ++ [tr; ab0] ++ (r :: rs) ++ [dd; h])) ft tr ab0 (r :: rs) dd h).
  { constructor; auto. split; [discriminate|auto]. }
  assert (PP' : parts value (Elem AREA_SOURCE a x (ft ++ [tr; ab'] ++ [r] ++ [dd; h])) ft tr ab' [r] dd h).
  { constructor; auto. split; [discriminate|]. inversion P5; subst. now constructor. }
  split; intros R.
  - eapply (represents_same _ _ _ _ _ _ _ _ _ _ _ _ _ PP PP'); auto.
    intros tag k [<-|[<-|[]]] F; [rewrite (first_unique _ _ _ _ F F1); exact F1'|rewrite (first_unique _ _ _ _ F F2); exact F2'].
  - eapply (represents_same _ _ _ _ _ _ _ _ _ _ _ _ _ PP' PP); auto.
    intros tag k [<-|[<-|[]]] F; [rewrite (first_unique _ _ _ _ F F1'); exact F1|rewrite (first_unique _ _ _ _ F F2'); exact F2].
Qed.
End Details.

(** ** Writing back *)

Section Back.
Context {AR : Ops}.
Variable value : text -> option T.
Variable str : T -> text.
Variable xml_ok : text -> bool.
Hypothesis XP : accepts_printable xml_ok.
Hypothesis SW : prints_words str.

Lemma iter_trans : forall d k y, In k (iter_elems d) -> In y (iter_elems k) -> In y (iter_elems d).
Proof.
  induction d as [g a x kids IH] using xml_ind2. intros k y I J. cbn [iter_elems] in I. destruct I as [<-|I]; auto.
  apply in_flat_map in I. destruct I as (c & Ic & I). cbn [iter_elems]. right. apply in_flat_map. exists c. split; auto.
  rewrite Forall_forall in IH. eapply IH; eauto.
Qed.

Lemma attr_in : forall name e v, attr name e = Some v -> exists a, In a (x_attrs e) /\ snd a = v.
Proof.
  intros name e v. unfold attr. induction (x_attrs e) as [|(k, w) l IH]; cbn [assoc]; [discriminate|].
  destruct (String.eqb _ _); [intros E; injection E as <-; exists (k, w); split; [now left|reflexivity]|].
  intros E. destruct (IH E) as (a & I & X). exists a. split; auto. now right.
Qed.

Lemma accepted_attr : forall d k name v, all_accepted xml_ok d -> In k (iter_elems d) -> attr name k = Some v -> xml_ok v = true.
Proof.
  intros d k name v A I E. rewrite <- (located_elems d []) in I. apply in_map_iff in I. destruct I as (p & <- & I).
  destruct (A p I) as (_ & H). apply attr_in in E. destruct E as (a & J & <-). auto.
Qed.
Lemma accepted_text : forall d k s, all_accepted xml_ok d -> In k (iter_elems d) -> x_text k = Some s -> xml_ok s = true.
Proof.
  intros d k s A I E. rewrite <- (located_elems d []) in I. apply in_map_iff in I. destruct I as (p & <- & I).
  destruct (A p I) as (H & _). auto.
Qed.

Lemma elem_writes : forall s, Forall (fun x => exists v, x = Some v /\ xml_ok v = true)
    [as_id s; ab_srs (as_boundary s); tg_type (rm_tgr (as_rate s)); dd_type (as_depth s)] ->
  Forall (fun x => forall v, x = Some v -> xml_ok v = true) [as_name s; as_tect s] ->
  exists e, area_source_elem str xml_ok s = Ok e.
Proof.
  intros s W1 W2.
  inversion W1 as [|? ? (i & Ei & Oi) W1c]; subst.
  inversion W1c as [|? ? (b & Eb & Ob) W1d]; subst. inversion W1d as [|? ? (g & Eg & Og) W1e]; subst.
  inversion W1e as [|? ? (d & Ed & Od) _]; subst.
  inversion W2 as [|? ? N1 W2a]; subst. inversion W2a as [|? ? N2 _]; subst.
  assert (TO : forall tag v, (forall w, v = Some w -> xml_ok w = true) -> leaf xml_ok tag v = Ok (Elem tag [] v [])).
  { intros tag [w|] H; unfold leaf, set_text; [|reflexivity]. now rewrite (H w eq_refl). }
  assert (NO : forall tag v, num_leaf str xml_ok tag v = Ok (Elem tag [] (Some (str v)) [])).
  { intros tag v. apply TO. intros w E. injection E as <-. apply XP, SW. }
  assert (LO : forall vs, xml_ok (join [chr_space] (map str vs)) = true).
  { intros vs. apply XP, join_printable, Forall_forall. intros w I. apply in_map_iff in I. destruct I as (v & <- & _). apply SW. }
  unfold area_source_elem. rewrite Ei. unfold set_attr at 1. rewrite Oi. cbn [bind].
  rewrite (TO GML_NAME) by exact N1. cbn [bind]. rewrite (TO TECTONIC_REGION) by exact N2. cbn [bind].
  unfold write_area_boundary. rewrite Eb. unfold set_attr at 1. rewrite Ob. cbn [bind]. unfold leaf at 1, set_text at 1.
  rewrite LO. cbn [bind].
  unfold write_rupture_rate_model, write_truncated_guten_richter. rewrite Eg. unfold set_attr at 1. rewrite Og. cbn [bind].
  rewrite !NO. cbn [bind].
  unfold write_rupture_depth_distrib. rewrite Ed. unfold set_attr at 1. rewrite Od. cbn [bind].
  unfold set_text at 1. rewrite LO. cbn [bind]. unfold leaf, set_text. rewrite LO. cbn [bind]. eauto.
Qed.

(** The labels of a source that represents a valid element. *)
Lemma labels_of : forall anc e s, area_source_type value e -> represents value anc e s ->
  exists r g m, first_tagged LINEAR_RING (below e) r /\ ab_srs (as_boundary s) = attr SRS_NAME r /\
    first_tagged TRUNCATED_GUTEN_RICHTER (below e) g /\ tg_type (rm_tgr (as_rate s)) = attr TYPE g /\
    first_tagged MAGNITUDE (below e) m /\ dd_type (as_depth s) = attr TYPE m.
Proof.
  intros anc e s V R. destruct (parts_of value _ V) as (ft & tr & ab & rs & dd & h & P).
  destruct R as [_ _ _ _ (b & rg & l & Fb & Fr & R5 & Fl & R6) (r0 & F0 & _ & _ & _ & g & Fg & _ & _ & _ & _ & Tg) (d0 & m & q & Fd & Fm & Tm & _) _ _].
  assert (Xb := first_unique _ _ _ _ Fb (f_ab value _ _ _ _ _ _ _ P)). subst b.
  assert (Xd := first_unique _ _ _ _ Fd (f_dd value _ _ _ _ _ _ _ P)). subst d0.
  destruct (f_rate value _ _ _ _ _ _ _ P) as (r1 & rs1 & Er & Fr1 & R1). assert (X0 := first_unique _ _ _ _ F0 Fr1). subst r1.
  exists rg, g, m. split; [|split; [exact R5|split; [|split; [exact Tg|split; [|exact Tm]]]]].
  - rewrite (below_parts value _ _ _ _ _ _ _ P). change (ab :: below ab) with ([ab] ++ below ab).
    rewrite <- (app_assoc [ab]), (app_assoc _ [ab]). apply first_mid; auto.
    + intros y I. apply in_app_iff in I. destruct I as [I|[<-|[]]]; [|rewrite (t_ab value _ _ _ _ _ _ _ P); tneq].
      revert y I. apply (only_none (FEATURE_TAGS ++ [TECTONIC_REGION])); [|tout].
      apply only_app; [eapply only_sub; [|apply (o_ft value _ _ _ _ _ _ _ P)]; tincl|eapply only_sub; [|apply (o_tr value _ _ _ _ _ _ _ P)]; tincl].
    + apply (only_none (RATE_TAGS ++ DEPTH_TAGS ++ [HYPOCENTRAL_DEPTH])); [|tout].
      apply only_app; [eapply only_sub; [|apply (o_rs value _ _ _ _ _ _ _ P)]; tincl|].
      apply only_cons; [eapply only_sub; [|apply (o_dd value _ _ _ _ _ _ _ P)]; tincl|eapply only_sub; [|apply (o_h value _ _ _ _ _ _ _ P)]; tincl].
  - assert (Hg : exists post, x_kids r0 = g :: post).
    { destruct R1 as (_ & _ & _ & m0 & sk & dp & rk & K & M & SK & DP & RK). rewrite K in *.
      apply first_in in Fg. destruct Fg as (I & E). exists [sk; dp; rk]. f_equal.
      destruct I as [<-|[<-|[<-|[<-|[]]]]]; auto; exfalso.
      - rewrite (proj1 SK) in E. revert E. tneq.
      - rewrite (proj1 DP) in E. revert E. tneq.
      - rewrite (proj1 RK) in E. revert E. tneq. }
    destruct Hg as (post & Kr). apply first_in in Fg. destruct Fg as (_ & Eg).
    rewrite below_desc, (pt_kids _ _ _ _ _ _ _ _ P), Er. rewrite app_assoc, flat_map_app. cbn [app flat_map].
    rewrite (iter_split r0), below_desc, Kr. cbn [flat_map]. rewrite (iter_split g).
    change (flat_map iter_elems (ft ++ [tr; ab]) ++ (r0 :: (g :: below g) ++ flat_map iter_elems post) ++ flat_map iter_elems (rs1 ++ [dd; h]))
      with (flat_map iter_elems (ft ++ [tr; ab]) ++ [r0] ++ g :: (below g ++ flat_map iter_elems post) ++ flat_map iter_elems (rs1 ++ [dd; h])).
    rewrite app_assoc. apply first_at; auto. intros y I. apply in_app_iff in I. destruct I as [I|[<-|[]]].
    + revert y I. apply (only_none (FEATURE_TAGS ++ [TECTONIC_REGION] ++ BOUNDARY_TAGS)); [|tout].
      apply only_app; [eapply only_sub; [|apply (o_ft value _ _ _ _ _ _ _ P)]; tincl|].
      apply only_cons; [eapply only_sub; [|apply (o_tr value _ _ _ _ _ _ _ P)]; tincl|eapply only_sub; [|apply (o_ab value _ _ _ _ _ _ _ P)]; tincl].
    + destruct R1 as (Gr & _). rewrite Gr. tneq.
  - apply (depth_below value _ _ _ _ _ _ _ P); [now left|auto].
Qed.

Theorem read_written : forall d ss, valid_document value d -> all_accepted xml_ok d -> read_doc value d = (ss, None) ->
  ((exists dc, write_doc str xml_ok ss = Ok dc) <->
   area_elements d <> [] /\ Forall (fun p => labelled (snd p)) (area_elements d)).
Proof.
  intros d ss (R & _) A RD. destruct (valid_areas value d R) as (sm & es & AE & F & SM).
  destruct (C62_proof value d (valid_not_nested value d R)) as [(ss1 & E & G)|(pre & q & post & ss1 & x & B & E & _ & N)]; [|congruence].
  rewrite RD in E. injection E as <-.
  assert (G' : Forall2 (fun e s => represents value [sm; d] e s) es ss).
  { clear - G AE. rewrite AE in G. revert ss G. clear AE. induction es as [|e es IH]; intros ss G; inversion G; subst; constructor; auto. }
  split.
  - intros (dc & W). destruct (write_inv str xml_ok ss dc W) as (s0 & ss' & -> & _ & _ & FF). split.
    + intros Z. rewrite Z in G. inversion G.
    + rewrite AE. clear - G' F FF. revert FF. generalize dependent (s0 :: ss'). intros ss G FF.
      induction G as [|e s es ss Re G IH]; [constructor|]. inversion FF as [|? ? (i & b & g & d0 & HI & HB & HG & HD) FF']; subst.
      inversion F as [|? ? V F']; subst. cbn [map]. constructor; auto. cbn [snd].
      destruct (labels_of _ _ _ V Re) as (r & gg & m & F1 & E1 & F2 & E2 & F3 & E3).
      exists r, gg, m. repeat split; auto; congruence.
  - intros (NE & L).
    assert (NE' : es <> []). { intros ->. apply NE. now rewrite AE. }
    destruct (SM NE') as (I1 & I2 & I3). destruct R as (RI & _).
    assert (Dd : In d (iter_elems d)) by (rewrite iter_split; now left).
    assert (Dsm : In sm (iter_elems d)).
    { apply (iter_trans d sm sm); [|rewrite iter_split; now left]. rewrite iter_split. right. rewrite below_desc. now apply kid_iter. }
    assert (De : forall e, In e es -> In e (iter_elems d)).
    { intros e I. apply (iter_trans d sm e); auto. rewrite iter_split. right. rewrite below_desc. apply kid_iter. auto. }
    assert (EL : forall s, In s ss -> (exists e, area_source_elem str xml_ok s = Ok e) /\ as_nrml_id s = attr GML_ID d /\ as_sm_id s = attr GML_ID sm).
    { intros s I. assert (Q : exists e, In e es /\ represents value [sm; d] e s).
      { clear - G' I. induction G' as [|e s0 es ss Re G IH]; [destruct I|]. destruct I as [<-|I]; [exists e; split; auto; now left|].
        destruct (IH I) as (e' & J & Q). exists e'. split; auto. now right. }
      destruct Q as (e & Ie & Re). assert (V : area_source_type value e) by (rewrite Forall_forall in F; auto).
      assert (Le : labelled e). { rewrite Forall_forall in L. apply (L ([sm; d], e)). rewrite AE. now apply (in_map (fun e => ([sm; d], e))). }
      destruct (labels_of _ _ _ V Re) as (r & gg & m & F1 & E1 & F2 & E2 & F3 & E3).
      destruct Le as (r' & gg' & m' & F1' & N1 & F2' & N2 & F3' & N3).
      rewrite <- (first_unique _ _ _ _ F1 F1') in N1. rewrite <- (first_unique _ _ _ _ F2 F2') in N2. rewrite <- (first_unique _ _ _ _ F3 F3') in N3.
      assert (BI : forall tag k, first_tagged tag (below e) k -> In k (iter_elems d)).
      { intros tag k Fk. apply first_in in Fk. apply (iter_trans d e k); auto. rewrite iter_split. right. tauto. }
      assert (AO : forall k name, In k (iter_elems d) -> attr name k <> None -> exists v, attr name k = Some v /\ xml_ok v = true).
      { intros k name Ik Nk. destruct (attr name k) as [v|] eqn:Ek; [|contradiction]. exists v. split; auto. eapply accepted_attr; eauto. }
      assert (KI : forall tag k, first_tagged tag (x_kids e) k -> In k (iter_elems d)).
      { intros tag k Fk. apply first_in in Fk. apply (iter_trans d e k); auto. rewrite iter_split. right. rewrite below_desc. apply kid_iter. tauto. }
      destruct Re as [(p & g & rest & Ea & J1 & J2) J3 (k & Fk & J4) (k2 & F4 & J5) _ _ _ _ _]. injection Ea as <- <- <-.
      split; [|auto]. apply elem_writes.
      - constructor; [rewrite J3; apply AO; auto; apply V|]. constructor; [rewrite E1; apply AO; eauto|].
        constructor; [rewrite E2; apply AO; eauto|]. constructor; [rewrite E3; apply AO; eauto|constructor].
      - constructor; [intros v Ev; rewrite J4 in Ev; apply (accepted_text d k); eauto|].
        constructor; [intros v Ev; rewrite J5 in Ev; apply (accepted_text d k2); eauto|constructor]. }
    destruct ss as [|s0 ss']; [inversion G' as [Z|]; subst; congruence|].
    destruct (EL s0 (or_introl eq_refl)) as (_ & Q1 & Q2). cbn [write_doc]. rewrite Q1, Q2.
    assert (SA : forall k, In k (iter_elems d) -> attr GML_ID k <> None -> exists a, set_attr xml_ok GML_ID (attr GML_ID k) = Ok a).
    { intros k Ik Nk. destruct (attr GML_ID k) as [v|] eqn:Ek; [|contradiction]. unfold set_attr.
      rewrite (accepted_attr d k GML_ID v); eauto. }
    destruct (SA d Dd RI) as (a1 & ->). destruct (SA sm Dsm I2) as (a2 & ->). cbn [bind].
    assert (M : exists l, mapM (area_source_elem str xml_ok) (s0 :: ss') = Ok l).
    { clear - EL. revert EL. generalize (s0 :: ss'). induction l as [|s l IH]; intros H; [exists []; reflexivity|].
      destruct (H s (or_introl eq_refl)) as ((e & Ee) & _). destruct IH as (l' & El); [intros s1 I; apply H; now right|].
      exists (e :: l'). cbn [mapM]. rewrite Ee. cbn [bind]. rewrite El. reflexivity. }
    destruct M as (l & ->). cbn [bind]. eauto.
Qed.
End Back.
