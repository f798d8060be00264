(** Which source models written by the writer the NRML schema allows. *)
From Coq Require Import ZArith Bool Ascii String List Lia.
From Verif Require Import Base Ops BaseFacts PyStr SourceModel Nrml NrmlSpec NrmlRead NrmlRound NrmlFinal NrmlSchema NrmlValid NrmlValid2.
Import ListNotations.
Local Open Scope nat_scope.

Section Written.
Context {AR : Ops}.
Variable value : text -> option T.
Variable str : T -> text.
Variable xml_ok : text -> bool.
Variable indent : nat -> option text.
Hypothesis SW : prints_words str.
Hypothesis IB : forall n s, indent n = Some s -> blanks s.

(** ** What a successful write gives *)

Lemma set_attr_ok : forall name v a, set_attr xml_ok name v = Ok a -> exists s, v = Some s /\ a = [(name, s)].
Proof. intros name [s|] a E; cbn in E; [|discriminate]. destruct (xml_ok s); [injection E as <-; eauto|discriminate]. Qed.

Lemma set_text_ok : forall v x, set_text xml_ok v = Ok x -> x = v.
Proof. intros [s|] x E; cbn in E; [destruct (xml_ok s)|]; congruence. Qed.

Lemma leaf_ok : forall tag v e, leaf xml_ok tag v = Ok e -> e = Elem tag [] v [].
Proof. intros tag v e E. apply bind_ok in E. destruct E as (x & X & E). apply set_text_ok in X. congruence. Qed.

Lemma elem_inv : forall s e, area_source_elem str xml_ok s = Ok e ->
  (exists i b g d, as_id s = Some i /\ ab_srs (as_boundary s) = Some b /\ tg_type (rm_tgr (as_rate s)) = Some g /\
     dd_type (as_depth s) = Some d) /\ e = elem_of str s.
Proof.
  intros s e E. unfold area_source_elem in E.
  apply bind_ok in E. destruct E as (a & E1 & E). apply set_attr_ok in E1. destruct E1 as (i & I & ->).
  apply bind_ok in E. destruct E as (nm & E1 & E). apply leaf_ok in E1. subst nm.
  apply bind_ok in E. destruct E as (tc & E1 & E). apply leaf_ok in E1. subst tc.
  apply bind_ok in E. destruct E as (be & E1 & E). unfold write_area_boundary in E1.
  apply bind_ok in E1. destruct E1 as (ba & A1 & E1). apply set_attr_ok in A1. destruct A1 as (b & B & ->).
  apply bind_ok in E1. destruct E1 as (pl & A1 & E1). apply leaf_ok in A1. subst pl. injection E1 as <-.
  apply bind_ok in E. destruct E as (re & E1 & E). unfold write_rupture_rate_model in E1.
  apply bind_ok in E1. destruct E1 as (ge & G1 & E1). unfold write_truncated_guten_richter in G1.
  apply bind_ok in G1. destruct G1 as (ga & A1 & G1). apply set_attr_ok in A1. destruct A1 as (g & G & ->).
  apply bind_ok in G1. destruct G1 as (e1 & A1 & G1). apply leaf_ok in A1. subst e1.
  apply bind_ok in G1. destruct G1 as (e1 & A1 & G1). apply leaf_ok in A1. subst e1.
  apply bind_ok in G1. destruct G1 as (e1 & A1 & G1). apply leaf_ok in A1. subst e1.
  apply bind_ok in G1. destruct G1 as (e1 & A1 & G1). apply leaf_ok in A1. subst e1. injection G1 as <-.
  apply bind_ok in E1. destruct E1 as (e1 & A1 & E1). apply leaf_ok in A1. subst e1.
  apply bind_ok in E1. destruct E1 as (e1 & A1 & E1). apply leaf_ok in A1. subst e1.
  apply bind_ok in E1. destruct E1 as (e1 & A1 & E1). apply leaf_ok in A1. subst e1. injection E1 as <-.
  apply bind_ok in E. destruct E as (de & E1 & E). unfold write_rupture_depth_distrib in E1.
  apply bind_ok in E1. destruct E1 as (da & A1 & E1). apply set_attr_ok in A1. destruct A1 as (d & D & ->).
  apply bind_ok in E1. destruct E1 as (x & A1 & E1). apply set_text_ok in A1. subst x.
  apply bind_ok in E1. destruct E1 as (e1 & A1 & E1). apply leaf_ok in A1. subst e1. injection E1 as <-.
  apply bind_ok in E. destruct E as (e1 & A1 & E). apply leaf_ok in A1. subst e1. injection E as <-.
  split; [exists i, b, g, d; auto|]. unfold elem_of. rewrite I, B, G, D. reflexivity.
Qed.

Definition four (s : area_source AR) : Prop :=
  exists i b g d, as_id s = Some i /\ ab_srs (as_boundary s) = Some b /\ tg_type (rm_tgr (as_rate s)) = Some g /\
     dd_type (as_depth s) = Some d.

Lemma write_inv : forall ss d, write_doc str xml_ok ss = Ok d -> exists s0 ss', ss = s0 :: ss' /\
  d = doc_of str s0 ss /\ (exists n m, as_nrml_id s0 = Some n /\ as_sm_id s0 = Some m) /\ Forall four ss.
Proof.
  intros ss d E. destruct ss as [|s0 ss']; [discriminate|]. cbn [write_doc] in E.
  apply bind_ok in E. destruct E as (ra & E1 & E). apply set_attr_ok in E1. destruct E1 as (n & N & ->).
  apply bind_ok in E. destruct E as (ma & E1 & E). apply set_attr_ok in E1. destruct E1 as (m & M & ->).
  apply bind_ok in E. destruct E as (es & E1 & E). injection E as <-. exists s0, ss'. split; auto.
  assert (Q : es = map (elem_of str) (s0 :: ss') /\ Forall four (s0 :: ss')).
  { revert es E1. generalize (s0 :: ss'). induction l as [|s l IH]; intros es E1; cbn [mapM] in E1.
    - injection E1 as <-. split; [reflexivity|constructor].
    - apply bind_ok in E1. destruct E1 as (e & X & E1). apply bind_ok in E1. destruct E1 as (es' & Y & E1). injection E1 as <-.
      apply elem_inv in X. destruct X as (F & ->). destruct (IH _ Y) as (-> & G). split; [reflexivity|]. now constructor. }
  destruct Q as (-> & F). split; [|split; [eauto|exact F]]. unfold doc_of. rewrite N, M. reflexivity.
Qed.

(** ** Texts *)

Lemma blanks_word : forall b w b' s, blanks b -> blanks b' -> Forall (fun c => is_space c = false) s -> s = b ++ w ++ b' -> w = s.
Proof.
  intros b w b' s B B' S E. subst s. apply Forall_app in S. destruct S as (S1 & S2). apply Forall_app in S2. destruct S2 as (_ & S3).
  assert (N : forall l, blanks l -> Forall (fun c => is_space c = false) l -> l = []).
  { intros [|c l] X Y; auto. inversion X; inversion Y; subst. congruence. }
  rewrite (N b), (N b') by auto. now rewrite app_nil_r.
Qed.

Lemma literal_str : forall x w, literal (Some (str x)) w <-> w = str x.
Proof.
  intros x w. destruct (SW x) as ((_ & S) & _). split.
  - intros (b & b' & B & B' & E). injection E as E. now apply (blanks_word b w b').
  - intros ->. exists [], []. split; [constructor|]. split; [constructor|]. now rewrite app_nil_r.
Qed.

Definition listed (vs : list T) : option text :=
  match join [chr_space] (map str vs) with [] => None | _ :: _ => Some (join [chr_space] (map str vs)) end.

Lemma listed_literals : forall vs ws, literals (listed vs) ws <-> ws = map str vs.
Proof.
  intros vs ws. unfold listed. destruct vs as [|v vs].
  - cbn. split; [intros [(_ & ->)|(s & E & _)]; [reflexivity|discriminate]|]. intros ->. left. auto.
  - assert (W : words (join [chr_space] (map str (v :: vs))) (map str (v :: vs))).
    { apply words_join; [discriminate|]. apply Forall_forall. intros s I. apply in_map_iff in I. destruct I as (y & <- & _). apply SW. }
    destruct (join [chr_space] (map str (v :: vs))) as [|c r] eqn:J.
    { exfalso. apply split_ws_iff in W. cbn [map] in W. discriminate. }
    split.
    + intros [(E & _)|(s & E & X)]; [discriminate|]. injection E as <-. apply (words_fun _ _ _ X W).
    + intros ->. right. eexists. split; [reflexivity|exact W].
Qed.

Lemma Forall_map_iff : forall {A B : Type} (f : A -> B) (P : B -> Prop) l, Forall P (map f l) <-> Forall (fun a => P (f a)) l.
Proof. intros A B f P l. induction l as [|a l IH]; cbn [map]; split; intros H; inversion H; subst; constructor; auto; now apply IH. Qed.

Lemma double_list_listed : forall vs, double_list (listed vs) <-> Forall (fun x => xs_double (str x)) vs.
Proof.
  intros vs. unfold double_list. rewrite <- Forall_map_iff. split.
  - intros (ws & L & F). apply listed_literals in L. now subst.
  - intros F. exists (map str vs). split; auto. now apply listed_literals.
Qed.
Lemma nonneg_list_listed : forall vs, non_negative_list value (listed vs) <-> Forall (fun x => non_negative_literal value (str x)) vs.
Proof.
  intros vs. unfold non_negative_list. rewrite <- Forall_map_iff. split.
  - intros (ws & L & F). apply listed_literals in L. now subst.
  - intros F. exists (map str vs). split; auto. now apply listed_literals.
Qed.
Lemma double_str : forall x, double (Some (str x)) <-> xs_double (str x).
Proof.
  intros x. split.
  - intros (w & L & D). apply literal_str in L. now subst.
  - intros D. exists (str x). split; auto. now apply literal_str.
Qed.
Lemma nonneg_str : forall x, non_negative value (Some (str x)) <-> non_negative_literal value (str x).
Proof.
  intros x. split.
  - intros (w & L & D). apply literal_str in L. now subst.
  - intros D. exists (str x). split; auto. now apply literal_str.
Qed.
Lemma between_str : forall lo hi x, double_between value lo hi (Some (str x)) <-> printed_between value lo hi (str x).
Proof.
  intros lo hi x. split.
  - intros (w & v & L & D & V). apply literal_str in L. subst. split; eauto.
  - intros (D & v & V). exists (str x), v. split; [now apply literal_str|]. auto.
Qed.

Lemma text_str : forall x, match str x with [] => None | _ :: _ => Some (str x) end = Some (str x).
Proof. intros x. destruct (SW x) as ((N & _) & _). destruct (str x); [contradiction|reflexivity]. Qed.

(** ** The element of a source after parsing *)

Definition shown (o : option text) : option text := match o with Some [] => None | _ => o end.

Section One.
Variables (s : area_source AR) (n : nat) (i b g d : text).
Hypotheses (HI : as_id s = Some i) (HB : ab_srs (as_boundary s) = Some b)
  (HG : tg_type (rm_tgr (as_rate s)) = Some g) (HD : dd_type (as_depth s) = Some d).

Let num tag v := Elem tag [] (Some (str v)) [].
Let bd := as_boundary s.
Let rm := as_rate s.
Let tg := rm_tgr rm.
Let dp := as_depth s.

Let pos := Elem POS_LIST [] (listed (flat_points (ab_pos bd))) [].
Let bnd := Elem AREA_BOUNDARY [] (indent (S n)) [Elem POLYGON [] (indent (S (S n)))
  [Elem EXTERIOR [] (indent (S (S (S n)))) [Elem LINEAR_RING [(SRS_NAME, b)] (indent (S (S (S (S n))))) [pos]]]].
Let tge := Elem TRUNCATED_GUTEN_RICHTER [(TYPE, g)] (indent (S (S n)))
  [num A_VALUE_CUMULATIVE (tg_a tg); num B_VALUE (tg_b tg); num MIN_MAGNITUDE (tg_min tg); num MAX_MAGNITUDE (tg_max tg)].
Let rte := Elem RUPTURE_RATE_MODEL [] (indent (S n)) [tge; num STRIKE (rm_strike rm); num DIP (rm_dip rm); num RAKE (rm_rake rm)].
Let mge := Elem MAGNITUDE [(TYPE, d)] (listed (dd_mags dp)) [].
Let dpe := Elem DEPTH [] (listed (dd_depth dp)) [].
Let dde := Elem RUPTURE_DEPTH_DISTRIB [] (indent (S n)) [mge; dpe].
Let tce := Elem TECTONIC_REGION [] (shown (as_tect s)) [].
Let nme := Elem GML_NAME [] (shown (as_name s)) [].
Let hye := num HYPOCENTRAL_DEPTH (as_hypo s).
Let whole := Elem AREA_SOURCE [(GML_ID, i)] (indent n) [nme; tce; bnd; rte; dde; hye].

Lemma re_num : forall m tag x, reparsed indent m (Elem tag [] (Some (str x)) []) = Elem tag [] (Some (str x)) [].
Proof. intros m tag x. cbn [reparsed map]. now rewrite text_str. Qed.

Lemma re_elem : reparsed indent n (elem_of str s) = whole.
Proof.
  unfold elem_of. rewrite HI, HB, HG, HD. cbn [reparsed map].
  fold (listed (flat_points (ab_pos (as_boundary s)))). fold (listed (dd_mags (as_depth s))). fold (listed (dd_depth (as_depth s))).
  rewrite !text_str. reflexivity.
Qed.

Lemma amongst : forall e names, NoDup (map fst (x_attrs e)) ->
  (forall a, In a (x_attrs e) -> In (fst a) names) -> attrs_among names e.
Proof. intros e names N H. split; auto. apply Forall_forall. intros a I. apply in_app_iff. right. auto. Qed.
Lemma no_attrs : forall e names, x_attrs e = [] -> attrs_among names e.
Proof. intros e names E. apply amongst; rewrite E; [constructor|intros a []]. Qed.
Lemma one_attr : forall e names k v, x_attrs e = [(k, v)] -> In k names -> attrs_among names e.
Proof. intros e names k v E I. apply amongst; rewrite E; [repeat constructor; intros []|]. intros a [<-|[]]. exact I. Qed.

Lemma ind_blank : forall m s0, indent m = Some s0 -> blanks s0. Proof. exact IB. Qed.

Lemma num_simple : forall tag names (ok : option text -> Prop) x, ok (Some (str x)) -> simple tag names ok (num tag x).
Proof. intros tag names ok x O. split; [reflexivity|]. split; [now apply no_attrs|]. split; [reflexivity|exact O]. Qed.

Lemma whole_valid : area_source_type value whole <-> fits_schema value str s.
Proof.
  split.
  - intros V. destruct (parts_of value _ V) as (ft & tr & ab & rs & dd & h & P).
    assert (Etr : tr = tce). { eapply first_unique; [apply (f_tr value _ _ _ _ _ _ _ P)|]. apply find_iff. reflexivity. }
    assert (Eab : ab = bnd). { eapply first_unique; [apply (f_ab value _ _ _ _ _ _ _ P)|]. apply find_iff. reflexivity. }
    assert (Edd : dd = dde). { eapply first_unique; [apply (f_dd value _ _ _ _ _ _ _ P)|]. apply find_iff. reflexivity. }
    assert (Eh : h = hye). { eapply first_unique; [apply (f_h value _ _ _ _ _ _ _ P)|]. apply find_iff. reflexivity. }
    destruct (f_rate value _ _ _ _ _ _ _ P) as (r & rs' & _ & Fr & R).
    assert (Er : r = rte). { eapply first_unique; [exact Fr|]. apply find_iff. reflexivity. }
    subst tr ab dd h r. clear Fr rs'.
    assert (PD := pos_doubles value _ _ _ _ _ _ _ P pos). assert (PD' : double_list (x_text pos)).
    { apply PD. apply find_iff. reflexivity. }
    clear PD. cbn [x_text pos] in PD'. apply double_list_listed in PD'.
    destruct R as (_ & _ & _ & tg0 & sk & dp0 & rk & K & TG & SK & DP & RK). cbn [x_kids rte] in K. injection K as <- <- <- <-.
    destruct TG as [(MT & _ & _ & _ & ae & be & mn & mx & K & SA & SB & SMn & SMx)|(_ & (X & _) & _)].
    2:{ exfalso. cbn [x_tag tge] in X. revert X. tneq. }
    cbn [x_kids tge] in K. injection K as <- <- <- <-.
    destruct (pt_depth _ _ _ _ _ _ _ _ P) as (_ & _ & _ & m0 & d0 & K & SM & MM & SD). cbn [x_kids dde] in K. injection K as <- <-.
    assert (SH := pt_hypo _ _ _ _ _ _ _ _ P). assert (ST := pt_tect _ _ _ _ _ _ _ _ P).
    destruct SA as (_ & _ & _ & SA). destruct SB as (_ & _ & _ & SB). destruct SMn as (_ & _ & _ & SMn). destruct SMx as (_ & _ & _ & SMx).
    destruct SK as (_ & _ & _ & SK). destruct DP as (_ & _ & _ & DP). destruct RK as (_ & _ & _ & RK).
    destruct SM as (_ & _ & _ & SM). destruct SD as (_ & _ & _ & SD). destruct SH as (_ & _ & _ & SH). destruct ST as (_ & _ & _ & ST).
    cbn [x_text num tce mge dpe hye] in *.
    apply double_str in SA, SMn, SMx. apply nonneg_str in SB, SH. apply between_str in SK, DP, RK.
    apply double_list_listed in SM. apply nonneg_list_listed in SD.
    constructor.
    + destruct ST as (v & E & I). exists v. split; auto. unfold shown in E. destruct (as_tect s) as [[|c r]|]; congruence.
    + exists g, d. repeat split; first [assumption|apply MT; reflexivity|apply MM; reflexivity].
    + apply Forall_app. split; auto. apply Forall_app. split; auto.
      constructor; [exact SA|constructor; [exact SMn|constructor; [exact SMx|constructor]]].
    + auto.
    + constructor; auto.
  - intros [(v & Ev & Iv) (v1 & v2 & E1 & I1 & E2 & I2) FD (L1 & L2 & L3) FS].
    rewrite HG in E1. injection E1 as <-. rewrite HD in E2. injection E2 as <-.
    apply Forall_app in FD. destruct FD as (D1 & FD). apply Forall_app in FD. destruct FD as (D2 & FD). cbn zeta in FD.
    inversion FD as [|? ? A1 FD1]; subst. inversion FD1 as [|? ? A2 FD2]; subst. inversion FD2 as [|? ? A3 _]; subst.
    inversion FS as [|? ? S1 FS1]; subst. inversion FS1 as [|? ? S2 S3]; subst.
    split; [discriminate|]. split; [reflexivity|]. split; [eapply one_attr; [reflexivity|now left]|].
    split; [apply ind_blank|].
    exists [nme], tce, bnd, [rte], dde, hye. split; [reflexivity|].
    split. { exists [nme], []. split; [reflexivity|]. split; [|now left]. exists [], [nme]. split; [reflexivity|]. split; [now left|].
      constructor; [|constructor]. split; [reflexivity|]. split; [now apply no_attrs|]. split; [reflexivity|exact I]. }
    split. { split; [reflexivity|]. split; [now apply no_attrs|]. split; [reflexivity|]. exists v. split; auto.
      cbn [x_text tce]. unfold shown. rewrite Ev. destruct v as [|c r]; [exfalso; revert Iv; clear; cbn; intuition discriminate|reflexivity]. }
    split. { split; [reflexivity|]. split; [now apply no_attrs|]. split; [apply ind_blank|]. eexists. split; [reflexivity|].
      split; [reflexivity|]. split; [now apply no_attrs|]. split; [apply ind_blank|].
      eexists [], [_], []. split; [reflexivity|]. split; [exists [], []; split; auto; split; [now left|constructor]|].
      split; [|constructor]. right. eexists. split; [reflexivity|].
      split; [reflexivity|]. split; [now apply no_attrs|]. split; [apply ind_blank|]. eexists. split; [reflexivity|].
      split; [reflexivity|]. split; [eapply one_attr; [reflexivity|right; now left]|]. split; [apply ind_blank|].
      exists [], pos. split; [reflexivity|]. split; [exists [], []; split; auto; split; [now left|constructor]|].
      split; [reflexivity|]. split; [now apply no_attrs|]. split; [reflexivity|]. now apply double_list_listed. }
    split; [discriminate|]. split.
    { constructor; [|constructor]. split; [reflexivity|]. split; [now apply no_attrs|]. split; [apply ind_blank|].
      eexists _, _, _, _. split; [reflexivity|]. split.
      - left. split; [intros w W; cbn in W; injection W as <-; exact I1|]. split; [reflexivity|].
        split; [eapply one_attr; [reflexivity|now left]|]. split; [apply ind_blank|]. eexists _, _, _, _. split; [reflexivity|].
        split; [now apply num_simple, double_str|]. split; [now apply num_simple, nonneg_str|].
        split; now apply num_simple, double_str.
      - split; [now apply num_simple, between_str|]. split; now apply num_simple, between_str. }
    split.
    { split; [reflexivity|]. split; [now apply no_attrs|]. split; [apply ind_blank|]. exists mge, dpe. split; [reflexivity|].
      split. { split; [reflexivity|]. split; [eapply one_attr; [reflexivity|now left]|]. split; [reflexivity|]. now apply double_list_listed. }
      split; [intros w W; cbn in W; injection W as <-; exact I2|].
      split; [reflexivity|]. split; [now apply no_attrs|]. split; [reflexivity|]. now apply nonneg_list_listed. }
    now apply num_simple, nonneg_str.
Qed.

Definition id_of (p : list xml * xml) : list text := match attr GML_ID (snd p) with Some v => [v] | None => [] end.

Lemma whole_ids : forall anc, flat_map id_of (located anc whole) = [i].
Proof. intros anc. reflexivity. Qed.
End One.

(** ** The document *)

Definition id_list (s0 : area_source AR) (ss : list (area_source AR)) : list (option text) :=
  as_nrml_id s0 :: as_sm_id s0 :: map as_id ss.

Lemma re_doc : forall s0 ss nn mm, as_nrml_id s0 = Some nn -> as_sm_id s0 = Some mm ->
  reparsed indent 0 (doc_of str s0 ss) =
  Elem ROOT [(GML_ID, nn)] (indent 0) [Elem SOURCE_MODEL [(GML_ID, mm)] (indent 1)
    (Elem CONFIG [] None [] :: map (reparsed indent 2) (map (elem_of str) ss))].
Proof. intros s0 ss nn mm N M. unfold doc_of. rewrite N, M. reflexivity. Qed.

Theorem written_valid : forall ss dc, write_doc str xml_ok ss = Ok dc -> exists s0 ss', ss = s0 :: ss' /\
  exists l, map Some l = id_list s0 ss /\
  (valid_document value (reparsed indent 0 dc) <-> NoDup l /\ Forall nc_name l /\ Forall (fits_schema value str) ss).
Proof.
  intros ss dc W. destruct (write_inv ss dc W) as (s0 & ss' & E & -> & (nn & mm & N & M) & F). exists s0, ss'. split; auto.
  assert (L : exists l, map Some l = map as_id ss /\
     (forall anc, flat_map id_of (flat_map (located anc) (map (reparsed indent 2) (map (elem_of str) ss))) = l) /\
     Forall2 (fun e s => (area_source_type value e <-> fits_schema value str s) /\ x_tag e = AREA_SOURCE)
       (map (reparsed indent 2) (map (elem_of str) ss)) ss).
  { clear - F SW IB. induction F as [|s l (i & b & g & d & HI & HB & HG & HD) F IH].
    - exists []. split; [reflexivity|]. split; [reflexivity|constructor].
    - destruct IH as (l' & L1 & L2 & L3). exists (i :: l'). cbn [map flat_map]. split; [now rewrite L1, HI|].
      rewrite (re_elem s 2 i b g d HI HB HG HD). split.
      + intros anc. rewrite flat_map_app, L2. rewrite whole_ids. reflexivity.
      + constructor; auto. split; [|reflexivity]. now apply whole_valid. }
  destruct L as (l & L1 & L2 & L3). exists (nn :: mm :: l). split; [unfold id_list; cbn [map]; now rewrite N, M, L1|].
  rewrite (re_doc s0 ss nn mm N M). set (es := map (reparsed indent 2) (map (elem_of str) ss)) in *.
  assert (ID : ids (Elem ROOT [(GML_ID, nn)] (indent 0) [Elem SOURCE_MODEL [(GML_ID, mm)] (indent 1) (Elem CONFIG [] None [] :: es)]) = nn :: mm :: l).
  { change (ids ?x) with (flat_map id_of (located [] x)).
    change (flat_map id_of (located [] ?x)) with ((id_of ([], x)) ++ flat_map id_of (flat_map (located [x]) (x_kids x))).
    cbn [x_kids flat_map]. rewrite app_nil_r.
    rewrite (located_unfold _ (Elem SOURCE_MODEL _ _ _)). cbn [x_kids flat_map]. rewrite (located_unfold _ (Elem CONFIG _ _ _)).
    cbn [x_kids flat_map app]. rewrite L2. reflexivity. }
  unfold valid_document. rewrite ID.
  assert (R : root value (Elem ROOT [(GML_ID, nn)] (indent 0) [Elem SOURCE_MODEL [(GML_ID, mm)] (indent 1) (Elem CONFIG [] None [] :: es)]) <->
     Forall (area_source_type value) es).
  { split.
    - intros R. destruct R as (_ & _ & _ & _ & ft & ch & K & FT & C). cbn [x_kids] in K.
      assert (Q : source_model value (Elem SOURCE_MODEL [(GML_ID, mm)] (indent 1) (Elem CONFIG [] None [] :: es))).
      { destruct ft as [|f ft].
        - cbn [app] in K. subst ch. destruct C as [C|(c & C & Q)]; [discriminate|]. injection C as <-. destruct Q as [Q|(Q & _)]; auto.
          exfalso. revert Q. cbn [x_tag]. tout.
        - exfalso. cbn [app] in K. injection K as <- _. assert (O := feature_only _ FT).
          assert (X : In SOURCE_MODEL FEATURE_TAGS); [|revert X; tout].
          change SOURCE_MODEL with (x_tag (Elem SOURCE_MODEL [(GML_ID, mm)] (indent 1) (Elem CONFIG [] None [] :: es))). apply O.
          cbn [flat_map]. apply in_app_iff. left. rewrite iter_split. now left. }
      clear K. destruct Q as (_ & _ & _ & _ & ft' & cf & srcs & K & FT' & CF & _ & S). cbn [x_kids] in K.
      assert (X : forall e, In e es -> In e (Elem CONFIG [] None [] :: es)) by (intros e I; now right). rewrite K in X.
      apply Forall_forall. intros e I. assert (T : x_tag e = AREA_SOURCE).
      { clear - L3 I. induction L3 as [|e' s l ss (_ & T) L3 IH]; [destruct I|destruct I as [<-|I]; auto]. }
      specialize (X e I). apply in_app_iff in X. destruct X as [X|X].
      { exfalso. assert (O := only_none _ AREA_SOURCE _ (feature_only _ FT')). apply (O ltac:(tout) e); auto.
        apply in_flat_map. exists e. split; auto. rewrite iter_split. now left. }
      apply in_app_iff in X. destruct X as [X|X].
      { exfalso. destruct CF as [->|(c & -> & (G & _))]; [destruct X|]. destruct X as [<-|[]]. rewrite G in T. revert T. tneq. }
      rewrite Forall_forall in S. destruct (S e X) as [V|(G & _)]; auto. exfalso. rewrite T in G. revert G. tout.
    - intros V. split; [discriminate|]. split; [reflexivity|]. split; [eapply one_attr; [reflexivity|now left]|]. split; [apply ind_blank|].
      eexists [], [_]. split; [reflexivity|]. split; [exists [], []; split; auto; split; [|now left]; exists [], []; split; auto; split; [now left|constructor]|].
      right. eexists. split; [reflexivity|]. left. split; [discriminate|]. split; [reflexivity|].
      split; [eapply one_attr; [reflexivity|now left]|]. split; [apply ind_blank|].
      exists [], [Elem CONFIG [] None []], es. split; [reflexivity|].
      split; [exists [], []; split; auto; split; [|now left]; exists [], []; split; auto; split; [now left|constructor]|].
      split. { right. eexists. split; [reflexivity|]. split; [reflexivity|]. split; [now apply no_attrs|]. split; [discriminate|now left]. }
      split; [unfold es; rewrite E; discriminate|]. revert V. apply Forall_impl. auto. }
  rewrite R. assert (Q : Forall (area_source_type value) es <-> Forall (fits_schema value str) ss).
  { clear - L3. induction L3 as [|e s l ss (H & _) L3 IH]; [split; constructor|].
    split; intros X; inversion X; subst; constructor; try (now apply H); now apply IH. }
  rewrite Q. tauto.
Qed.
End Written.
