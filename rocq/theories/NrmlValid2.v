(** Which documents allowed by the NRML schema are read. *)
From Coq Require Import ZArith Bool Ascii String List Lia.
From Verif Require Import Base Ops BaseFacts PyStr SourceModel Nrml NrmlSpec NrmlRead NrmlRound NrmlFinal NrmlSchema NrmlValid.
Import ListNotations.
Local Open Scope nat_scope.

Section Read.
Context {AR : Ops}.
Variable value : text -> option T.
Hypothesis RD : reads_doubles value.

Lemma literal_number : forall x w, literal x w -> xs_double w -> exists s v, x = Some s /\ value s = Some v.
Proof.
  intros x w (b & b' & B & B' & ->) D. destruct (RD b w b' B B' D) as ((v & V) & E). exists (b ++ w ++ b'), v. split; auto. congruence.
Qed.

Lemma simple_number : forall tag names ok e k, simple tag names ok k -> first_tagged tag (x_kids e) k ->
  (ok (x_text k) -> exists w, literal (x_text k) w /\ xs_double w) -> exists v, number_in value tag e v.
Proof.
  intros tag names ok e k (_ & _ & _ & O) F H. destruct (H O) as (w & L & D). destruct (literal_number _ _ L D) as (s & v & X & V).
  exists v, k, s. auto.
Qed.

Lemma doubles_values : forall ws, Forall xs_double ws -> exists vs, Forall2 (fun w v => value w = Some v) ws vs.
Proof.
  intros ws H. induction H as [|w ws D _ (vs & IH)]; [exists []; constructor|].
  destruct (RD [] w [] (Forall_nil _) (Forall_nil _) D) as ((v & V) & _). exists (v :: vs). now constructor.
Qed.

Lemma words_fun : forall s ws ws', words s ws -> words s ws' -> ws = ws'.
Proof. intros s ws ws' A B. apply split_ws_iff in A, B. congruence. Qed.

Lemma list_numbers : forall k s ws, x_text k = Some s -> words s ws -> Forall xs_double ws ->
  exists vs, numbers_in value k vs /\ length vs = length ws.
Proof.
  intros k s ws X W D. destruct (doubles_values ws D) as (vs & V). exists vs. split; [exists s, ws; auto|].
  symmetry. now apply Forall2_len in V.
Qed.

Lemma doubles_words : forall x, double_list x -> x <> None -> exists s ws, x = Some s /\ words s ws /\ Forall xs_double ws.
Proof. intros x (ws & [(-> & _)|(s & -> & W)] & D) N; [contradiction|]. exists s, ws. auto. Qed.

Lemma even_points : forall n (vs : list T), length vs <= n -> Nat.even (length vs) = true -> exists ps, vs = flat_points ps.
Proof.
  induction n as [|n IH]; intros vs L E.
  - destruct vs; [exists []; reflexivity|cbn in L; lia].
  - destruct vs as [|x [|y vs]]; [exists []; reflexivity|discriminate|].
    destruct (IH vs) as (ps & ->); [cbn in L; lia|exact E|]. exists ((x, y) :: ps). reflexivity.
Qed.

Lemma even_flat : forall ps : list (T * T), Nat.even (length (flat_points ps)) = true.
Proof. induction ps as [|[x y] ps IH]; auto. Qed.

Lemma non_negative_double : forall w, non_negative_literal value w -> xs_double w.
Proof. intros w (D & _). exact D. Qed.

(** What is missing when a valid areaSource is not read. *)
Lemma readable_represents : forall p g e, area_source_type value e ->
  ((exists s, represents value [p; g] e s) <-> readable e).
Proof.
  intros p g e V. destruct (parts_of value e V) as (ft & tr & ab & rs & dd & h & P). split.
  - intros (s & [_ _ (k & Fk & _) _ (b & r & l & Fb & _ & _ & Fl & Nl) (r0 & Fr & _ & _ & _ & t0 & Ft & _) (d0 & m & q & Fd & Fm & _ & Nm & Fq & Nq) _ _]).
    rewrite (first_unique _ _ _ _ Fb (f_ab value _ _ _ _ _ _ _ P)) in *.
    rewrite (first_unique _ _ _ _ Fd (f_dd value _ _ _ _ _ _ _ P)) in *.
    constructor.
    + exists k. now apply first_in in Fk.
    + destruct Nl as (s0 & ws & X & W & F2). exists l, s0, ws. split; [now apply (pos_below value _ _ _ _ _ _ _ P)|].
      split; auto. split; auto. rewrite (Forall2_len _ _ _ F2). apply even_flat.
    + exists r0, t0. split; auto. now apply first_in in Ft.
    + exists m, q. split; [apply (depth_below value _ _ _ _ _ _ _ P); [now left|auto]|].
      split; [destruct Nm as (s0 & ws & X & _); congruence|].
      split; [apply (depth_below value _ _ _ _ _ _ _ P); [right; now left|auto]|].
      destruct Nq as (s0 & ws & X & _); congruence.
  - intros [(k & Ik & Tk) (l & s0 & ws & Fl & Xl & Wl & El) (r0 & t0 & Fr & It & Tt) (m & q & Fm & Xm & Fq & Xq)].
    destruct (first_some GML_NAME (x_kids e) k Ik Tk) as (k' & Fk).
    apply (pos_below value _ _ _ _ _ _ _ P) in Fl. destruct (ring_around value _ _ _ _ _ _ _ P l Fl) as (r & FR).
    assert (DL := pos_doubles value _ _ _ _ _ _ _ P l Fl).
    destruct (doubles_words _ DL) as (s1 & ws1 & X1 & W1 & D1); [congruence|].
    assert (s1 = s0) by congruence; subst s1. rewrite <- (words_fun _ _ _ Wl W1) in D1.
    destruct (list_numbers l s0 ws Xl Wl D1) as (vs & NV & LV).
    destruct (even_points (length vs) vs (le_n _)) as (ps & ->); [now rewrite LV|].
    apply (depth_below value _ _ _ _ _ _ _ P) in Fm; [|now left]. apply (depth_below value _ _ _ _ _ _ _ P) in Fq; [|right; now left].
    destruct (pt_depth _ _ _ _ _ _ _ _ P) as (Gd & _ & _ & m' & q' & Kd & Sm & _ & Sq).
    assert (m = m'). { rewrite Kd in Fm. apply (first_tag_only MAGNITUDE [] m' [q']); auto; try (intros ? []); apply Sm. }
    assert (q = q'). { rewrite Kd in Fq. apply (first_tag_only DEPTH [m'] q' []); auto; [|apply Sq].
      intros y [<-|[]]. rewrite (proj1 Sm). tneq. }
    subst m' q'.
    destruct (doubles_words (x_text m)) as (sm & wm & Ym & Wm & Dm); [apply Sm|auto|].
    destruct (list_numbers m sm wm Ym Wm Dm) as (mv & NM & _).
    assert (DQ : double_list (x_text q)).
    { destruct (proj2 (proj2 (proj2 Sq))) as (wq & Lq & Fq'). exists wq. split; auto. revert Fq'. apply Forall_impl, non_negative_double. }
    destruct (doubles_words (x_text q) DQ Xq) as (sq & wq & Yq & Wq & Dq).
    destruct (list_numbers q sq wq Yq Wq Dq) as (qv & NQ & _).
    destruct (f_rate value _ _ _ _ _ _ _ P) as (r1 & rs' & _ & Fr1 & R1).
    rewrite <- (first_unique _ _ _ _ Fr Fr1) in R1. clear r1 rs' Fr1.
    destruct R1 as (_ & _ & _ & tg & sk & dp & rk & Kr & TG & SK & DP & RK).
    assert (TG' : truncated value tg).
    { destruct TG as [TG|(_ & (T1 & _) & _)]; auto. exfalso. rewrite Kr in It. destruct It as [<-|[<-|[<-|[<-|[]]]]].
      - rewrite T1 in Tt. revert Tt. tneq.
      - rewrite (proj1 SK) in Tt. revert Tt. tneq.
      - rewrite (proj1 DP) in Tt. revert Tt. tneq.
      - rewrite (proj1 RK) in Tt. revert Tt. tneq. }
    clear TG. destruct TG' as (_ & T1 & _ & _ & ae & be & mn & mx & Kt & SA & SB & SMn & SMx).
    destruct (simple_number STRIKE _ _ r0 sk SK) as (vsk & Nsk).
    { rewrite Kr. apply (first_at STRIKE [tg]); [apply SK|]. intros y [<-|[]]. rewrite T1. tneq. }
    { intros (w & v & A & B & _). eauto. }
    destruct (simple_number DIP _ _ r0 dp DP) as (vdp & Ndp).
    { rewrite Kr. apply (first_at DIP [tg; sk]); [apply DP|]. intros y [<-|[<-|[]]]; [rewrite T1; tneq|rewrite (proj1 SK); tneq]. }
    { intros (w & v & A & B & _). eauto. }
    destruct (simple_number RAKE _ _ r0 rk RK) as (vrk & Nrk).
    { rewrite Kr. apply (first_at RAKE [tg; sk; dp]); [apply RK|].
      intros y [<-|[<-|[<-|[]]]]; [rewrite T1; tneq|rewrite (proj1 SK); tneq|rewrite (proj1 DP); tneq]. }
    { intros (w & v & A & B & _). eauto. }
    destruct (simple_number A_VALUE_CUMULATIVE _ _ tg ae SA) as (va & Na).
    { rewrite Kt. apply (first_at A_VALUE_CUMULATIVE []); [apply SA|]. intros y []. }
    { intros (w & A & B). eauto. }
    destruct (simple_number B_VALUE _ _ tg be SB) as (vb & Nb).
    { rewrite Kt. apply (first_at B_VALUE [ae]); [apply SB|]. intros y [<-|[]]. rewrite (proj1 SA). tneq. }
    { intros (w & A & B & _). eauto. }
    destruct (simple_number MIN_MAGNITUDE _ _ tg mn SMn) as (vmn & Nmn).
    { rewrite Kt. apply (first_at MIN_MAGNITUDE [ae; be]); [apply SMn|].
      intros y [<-|[<-|[]]]; [rewrite (proj1 SA); tneq|rewrite (proj1 SB); tneq]. }
    { intros (w & A & B). eauto. }
    destruct (simple_number MAX_MAGNITUDE _ _ tg mx SMx) as (vmx & Nmx).
    { rewrite Kt. apply (first_at MAX_MAGNITUDE [ae; be; mn]); [apply SMx|].
      intros y [<-|[<-|[<-|[]]]]; [rewrite (proj1 SA); tneq|rewrite (proj1 SB); tneq|rewrite (proj1 SMn); tneq]. }
    { intros (w & A & B). eauto. }
    assert (SH := pt_hypo _ _ _ _ _ _ _ _ P).
    destruct (simple_number HYPOCENTRAL_DEPTH _ _ e h SH) as (vh & Nh).
    { apply (f_h value _ _ _ _ _ _ _ P). }
    { intros (w & A & B & _). eauto. }
    exists (mkSource (attr GML_ID g) (attr GML_ID p) (attr GML_ID e) (x_text k') (x_text tr)
      (mkBoundary (attr LINEAR_RING_NAME r) ps)
      (mkRate (mkTgr va vb vmn vmx (attr TYPE tg)) vsk vdp vrk)
      (mkDepth (attr TYPE m) mv qv) vh None None None).
    constructor; cbn.
    + exists p, g, []. auto.
    + reflexivity.
    + exists k'. auto.
    + exists tr. split; auto. apply (f_tr value _ _ _ _ _ _ _ P).
    + exists ab, r, l. split; [apply (f_ab value _ _ _ _ _ _ _ P)|]. auto.
    + exists r0. split; auto. split; auto. split; auto. split; auto. exists tg. split.
      { rewrite Kr. apply (first_at _ []); [exact T1|intros y []]. } auto 10.
    + exists dd, m, q. split; [apply (f_dd value _ _ _ _ _ _ _ P)|]. auto 10.
    + auto.
    + auto.
Qed.

(** ** Documents *)

Lemma no_areas : forall e anc, (forall k, In k (iter_elems e) -> x_tag k <> AREA_SOURCE) -> filter is_area (located anc e) = [].
Proof.
  intros e anc H. apply filter_none. intros q I. apply String.eqb_neq, H. now apply located_below in I.
Qed.

Lemma no_areas_list : forall l anc, (forall k, In k (flat_map iter_elems l) -> x_tag k <> AREA_SOURCE) ->
  filter is_area (flat_map (located anc) l) = [].
Proof.
  induction l as [|e l IH]; intros anc H; auto. cbn [flat_map]. rewrite filter_app, no_areas, IH; auto;
    intros k I; apply H; cbn [flat_map]; apply in_app_iff; auto.
Qed.

Lemma located_unfold : forall anc e, located anc e = (anc, e) :: flat_map (located (e :: anc)) (x_kids e).
Proof. intros anc [g a x ks]. reflexivity. Qed.

Lemma one_area : forall e anc, area_source_type value e -> filter is_area (located anc e) = [(anc, e)].
Proof.
  intros e anc V. destruct (parts_of value e V) as (ft & tr & ab & rs & dd & h & P).
  rewrite located_unfold. cbn [filter]. unfold is_area at 1. cbn [snd]. destruct V as (_ & G & _). rewrite G, String.eqb_refl.
  rewrite no_areas_list; auto. intros k I. rewrite <- below_desc in I. revert I. apply (parts_no_area value _ _ _ _ _ _ _ P).
Qed.

(** The areaSource elements of a document: they lie in the source model. *)
Lemma valid_areas : forall d, root value d -> exists sm es, area_elements d = map (fun e => ([sm; d], e)) es /\
  Forall (area_source_type value) es /\
  (es <> [] -> In sm (x_kids d) /\ attr GML_ID sm <> None /\ forall e, In e es -> In e (x_kids sm)).
Proof.
  intros d (_ & G & _ & _ & ft & ch & K & F & C). unfold area_elements. rewrite located_unfold. cbn [filter].
  unfold is_area at 1. cbn [snd]. rewrite G. change (String.eqb ROOT AREA_SOURCE) with false. cbv iota. rewrite K.
  rewrite flat_map_app, filter_app, no_areas_list.
  2:{ apply (only_none _ _ _ (feature_only _ F)). tout. }
  cbn [app]. destruct C as [->|(c & -> & C)].
  - exists d, []. cbn. split; auto. split; [constructor|]. intros []. reflexivity.
  - cbn [flat_map]. rewrite app_nil_r. destruct C as [(I0 & G' & _ & _ & ft' & cf & srcs & K' & F' & Cf & _ & S)|(Gc & O)].
    + rewrite located_unfold. cbn [filter]. unfold is_area at 1. cbn [snd]. rewrite G'.
      change (String.eqb SOURCE_MODEL AREA_SOURCE) with false. cbv iota. rewrite K'.
      rewrite flat_map_app, filter_app, no_areas_list.
      2:{ apply (only_none _ _ _ (feature_only _ F')). tout. }
      cbn [app]. rewrite flat_map_app, filter_app, no_areas_list.
      2:{ apply (only_none [CONFIG; HAZARD_PROCESSING]); [|tout]. destruct Cf as [->|(cc & -> & (Gf & _ & _ & Kc))]; [apply only_nil|].
          apply only_one; [rewrite Gf; tin|]. destruct Kc as [->|(hp & -> & (Gh & Kh))]; [apply only_nil|].
          apply only_one; [rewrite Gh; tin|]. rewrite Kh. apply only_nil. }
      cbn [app].
      exists c, (filter (fun e => String.eqb (x_tag e) AREA_SOURCE) srcs). split; [|split].
      * clear K'. induction S as [|s srcs Hs S IH]; auto. cbn [flat_map filter]. rewrite filter_app, IH.
        destruct Hs as [V|(Gs & Os)].
        -- rewrite (one_area s _ V). destruct V as (_ & Gs & _). rewrite Gs, String.eqb_refl. reflexivity.
        -- assert (N : x_tag s <> AREA_SOURCE) by (destruct Gs as [Q|[Q|[Q|[]]]]; rewrite <- Q; tneq).
           rewrite no_areas; [|intros k I; rewrite iter_split in I; destruct I as [<-|I]; auto].
           apply String.eqb_neq in N. now rewrite N.
      * apply Forall_forall. intros e I. apply filter_In in I. destruct I as (I & E). apply String.eqb_eq in E.
        rewrite Forall_forall in S. destruct (S e I) as [V|(Gs & _)]; auto. exfalso. rewrite E in Gs. revert Gs. tout.
      * intros _. split; [try rewrite K; apply in_app_iff; right; now left|]. split; auto. intros e I. apply filter_In in I.
        rewrite K', !in_app_iff. tauto.
    + exists d, []. cbn. split; [|split; [constructor|intros []; reflexivity]].
      apply no_areas. intros k I. rewrite iter_split in I. destruct I as [<-|I]; auto. intros E. rewrite E in Gc. revert Gc. tout.
Qed.

Lemma valid_not_nested : forall d, root value d -> not_nested d.
Proof.
  intros d R anc e I y J. destruct (valid_areas d R) as (sm & es & A & F & _). rewrite A in I. apply in_map_iff in I.
  destruct I as (e' & E & I). injection E as _ <-. rewrite Forall_forall in F.
  destruct (parts_of value _ (F _ I)) as (ft & tr & ab & rs & dd & h & P). revert y J. apply (parts_no_area value _ _ _ _ _ _ _ P).
Qed.

Theorem valid_read : forall d, valid_document value d ->
  ((exists ss, read_doc value d = (ss, None)) <-> Forall (fun p => readable (snd p)) (area_elements d)).
Proof.
  intros d (R & _). destruct (valid_areas d R) as (sm & es & A & F & _).
  assert (Q : forall q, In q (area_elements d) -> ((exists s, represents value (fst q) (snd q) s) <-> readable (snd q))).
  { intros q I. rewrite A in I. apply in_map_iff in I. destruct I as (e & <- & I). cbn [fst snd].
    apply readable_represents. rewrite Forall_forall in F. auto. }
  destruct (C62_proof value d (valid_not_nested d R)) as [(ss & E & G)|(pre & q & post & ss & x & B & E & _ & N)].
  - split; [intros _|eauto]. apply Forall_forall. intros q I. apply Q; auto.
    destruct (In_nth_error _ _ I) as (n & Hn). clear - G Hn. revert n Hn.
    induction G as [|p s l ss G _ IH]; intros [|n] Hn; cbn in Hn; try discriminate; [injection Hn as ->; eauto|eauto].
  - split; [intros (ss' & E'); congruence|]. intros H. exfalso. apply N. apply Q.
    + rewrite B. apply in_app_iff. right. now left.
    + rewrite Forall_forall in H. apply H. rewrite B. apply in_app_iff. right. now left.
Qed.
End Read.
