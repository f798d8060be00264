(** Writing a source model and reading it back. *)
From Coq Require Import ZArith Bool Ascii String List Lia.
From Verif Require Import Base Ops BaseFacts PyStr SourceModel Nrml NrmlSpec NrmlRead.
Import ListNotations.
Local Open Scope res_scope.

(** Printable ASCII; lxml accepts it everywhere. *)
Definition printable (c : ascii) : Prop := (32 <= nat_of_ascii c <= 126)%nat.

Lemma words_join : forall ws, ws <> [] -> Forall word ws -> words (join [chr_space] ws) ws.
Proof.
  induction ws as [|w ws IH]; intros N H; [contradiction|]. inversion H as [|? ? W H']; subst.
  destruct ws as [|w' ws].
  - cbn [join]. assert (E : w = [] ++ w ++ []) by (now rewrite app_nil_r). rewrite E at 1. constructor; auto; constructor.
  - change (join [chr_space] (w :: w' :: ws)) with ([] ++ w ++ chr_space :: join [chr_space] (w' :: ws)).
    constructor; auto; [constructor|]. apply IH; [discriminate|auto].
Qed.

Lemma join_printable : forall ws, Forall (Forall printable) ws -> Forall printable (join [chr_space] ws).
Proof.
  intros ws H. induction H as [|w ws W H IH]; [constructor|]. destruct ws as [|w' ws]; auto.
  cbn [join app]. apply Forall_app. split; auto. constructor; auto. unfold printable. cbn. lia.
Qed.

Section Round.
Context {AR : Ops}.
Variable parse_float : text -> option T.
Variable str_float : T -> text.
Variable xml_ok : text -> bool.
Variable indent : nat -> option text.

Hypothesis xml_printable : forall s, Forall printable s -> xml_ok s = true.
(** str(x) is a printable word. *)
Hypothesis str_word : forall x, word (str_float x) /\ Forall printable (str_float x).

(** The number read back for [x]. *)
Definition reread (x y : T) : Prop := parse_float (str_float x) = Some y.

(** What reading back the written source [s] gives, [s0] being the first source written. *)
Record back (s0 s s' : area_source AR) : Prop := {
  bk_nrml : as_nrml_id s' = as_nrml_id s0;
  bk_sm : as_sm_id s' = as_sm_id s0;
  bk_texts : source_texts s' = source_texts s;
  bk_shape : source_shape s' = source_shape s;
  bk_numbers : Forall2 reread (source_numbers s) (source_numbers s');
  bk_sigmas : as_sigb s' = None /\ as_siga s' = None /\ as_mmsig s' = None }.

Definition re (depth : nat) (e : xml) : xml := reparsed indent depth e.

(** The element written for a source whose texts can be written. *)
Definition elem_of (s : area_source AR) : xml :=
  let num tag v := Elem tag [] (Some (str_float v)) [] in
  let at_ name o := match o with Some v => [(name, v)] | None => [] end in
  let b := as_boundary s in let r := as_rate s in let g := rm_tgr r in let d := as_depth s in
  Elem AREA_SOURCE (at_ GML_ID (as_id s)) None
    [Elem GML_NAME [] (as_name s) [];
     Elem TECTONIC_REGION [] (as_tect s) [];
     Elem AREA_BOUNDARY [] None [Elem POLYGON [] None [Elem EXTERIOR [] None [Elem LINEAR_RING (at_ SRS_NAME (ab_srs b)) None
       [Elem POS_LIST [] (Some (join [chr_space] (map str_float (flat_points (ab_pos b))))) []]]]];
     Elem RUPTURE_RATE_MODEL [] None
       [Elem TRUNCATED_GUTEN_RICHTER (at_ TYPE (tg_type g)) None
          [num A_VALUE_CUMULATIVE (tg_a g); num B_VALUE (tg_b g); num MIN_MAGNITUDE (tg_min g); num MAX_MAGNITUDE (tg_max g)];
        num STRIKE (rm_strike r); num DIP (rm_dip r); num RAKE (rm_rake r)];
     Elem RUPTURE_DEPTH_DISTRIB [] None
       [Elem MAGNITUDE (at_ TYPE (dd_type d)) (Some (join [chr_space] (map str_float (dd_mags d)))) [];
        Elem DEPTH [] (Some (join [chr_space] (map str_float (dd_depth d)))) []];
     num HYPOCENTRAL_DEPTH (as_hypo s)].

Lemma num_leaf_ok : forall tag v, num_leaf str_float xml_ok tag v = Ok (Elem tag [] (Some (str_float v)) []).
Proof. intros tag v. unfold num_leaf, leaf, set_text. rewrite xml_printable by apply str_word. reflexivity. Qed.

Lemma list_leaf_ok : forall vs, xml_ok (join [chr_space] (map str_float vs)) = true.
Proof.
  intros vs. apply xml_printable, join_printable, Forall_forall. intros w I. apply in_map_iff in I.
  destruct I as (v & <- & _). apply str_word.
Qed.

Lemma text_ok : forall tag v, (forall s, v = Some s -> s <> [] /\ xml_ok s = true) -> leaf xml_ok tag v = Ok (Elem tag [] v []).
Proof. intros tag [s|] H; unfold leaf, set_text; [|reflexivity]. destruct (H s eq_refl) as (_ & ->). reflexivity. Qed.

Lemma elem_ok : forall s, writable xml_ok s -> area_source_elem str_float xml_ok s = Ok (elem_of s).
Proof.
  intros s [W1 W2 W3].
  inversion W1 as [|? ? _ W1a]; subst. inversion W1a as [|? ? _ W1b]; subst. inversion W1b as [|? ? (i & Ei & Oi) W1c]; subst.
  inversion W1c as [|? ? (b & Eb & Ob) W1d]; subst. inversion W1d as [|? ? (g & Eg & Og) W1e]; subst.
  inversion W1e as [|? ? (d & Ed & Od) _]; subst.
  inversion W2 as [|? ? N1 W2a]; subst. inversion W2a as [|? ? N2 _]; subst.
  unfold area_source_elem, elem_of. rewrite Ei, Eb, Eg, Ed. unfold set_attr at 1. rewrite Oi. cbn [bind].
  rewrite (text_ok GML_NAME) by exact N1. cbn [bind]. rewrite (text_ok TECTONIC_REGION) by exact N2. cbn [bind].
  unfold write_area_boundary. rewrite Eb. unfold set_attr at 1. rewrite Ob. cbn [bind]. unfold leaf at 1, set_text at 1.
  change (flat_map (fun p => [fst p; snd p]) (ab_pos (as_boundary s))) with (flat_points (ab_pos (as_boundary s))).
  rewrite list_leaf_ok. cbn [bind].
  unfold write_rupture_rate_model, write_truncated_guten_richter. rewrite Eg. unfold set_attr at 1. rewrite Og. cbn [bind].
  rewrite !num_leaf_ok. cbn [bind].
  unfold write_rupture_depth_distrib. rewrite Ed. unfold set_attr at 1. rewrite Od. cbn [bind].
  unfold set_text at 1. rewrite list_leaf_ok. cbn [bind]. unfold leaf, set_text. rewrite list_leaf_ok. reflexivity.
Qed.

Lemma reread_all : forall xs ys, Forall2 reread xs ys -> Forall2 (fun w v => parse_float w = Some v) (map str_float xs) ys.
Proof. intros xs ys H. induction H; cbn [map]; constructor; auto. Qed.

Lemma flat_points_inv : forall xs ys, Forall2 reread (flat_points xs) ys ->
  exists ps, ys = flat_points ps /\ length ps = length xs.
Proof.
  induction xs as [|(x, y) xs IH]; intros ys H; cbn [flat_points flat_map app fst snd] in H.
  - inversion H. exists []. auto.
  - inversion H as [|? a ? ys1 A H1]; subst. inversion H1 as [|? b ? ys2 B H2]; subst.
    destruct (IH _ H2) as (ps & -> & L). exists ((a, b) :: ps). split; auto. cbn. now rewrite L.
Qed.

Lemma flat_points_nil : forall ps : list (T * T), ps <> [] -> flat_points ps <> [].
Proof. intros [|[x y] ps] H; [contradiction|]. cbn. discriminate. Qed.

Lemma reread_list : forall tag depth a xs ys, xs <> [] -> Forall2 reread xs ys ->
  numbers_in parse_float (re depth (Elem tag a (Some (join [chr_space] (map str_float xs))) [])) ys.
Proof.
  intros tag depth a xs ys N H. exists (join [chr_space] (map str_float xs)), (map str_float xs).
  assert (W : Forall word (map str_float xs)).
  { apply Forall_forall. intros w I. apply in_map_iff in I. destruct I as (v & <- & _). apply str_word. }
  split; [|split].
  - destruct xs as [|x xs]; [contradiction|]. cbn [re reparsed x_text].
    destruct (join [chr_space] (map str_float (x :: xs))) eqn:J; [|reflexivity]. exfalso.
    inversion W as [|? ? (NW & _) _]; subst. destruct (str_float x) as [|c r] eqn:Q; [contradiction|]. revert J. cbn [map]. rewrite Q.
    destruct (map str_float xs); cbn [join app]; discriminate.
  - apply words_join; auto. destruct xs; [contradiction|discriminate].
  - now apply reread_all.
Qed.

Lemma reread_num : forall depth depth' tag l x y e a g x0 post pre,
  e = re depth (Elem g a x0 (pre ++ Elem tag [] (Some (str_float x)) [] :: post)) -> depth' = S depth ->
  forallb (fun k => negb (String.eqb (x_tag k) tag)) pre = true ->
  l = x_kids e -> reread x y -> number_in parse_float tag e y.
Proof.
  intros depth depth' tag l x y e a g x0 post pre -> -> P _ H.
  exists (re (S depth) (Elem tag [] (Some (str_float x)) [])), (str_float x). split; [|split; [|exact H]].
  - unfold re. cbn [reparsed x_kids]. exists (map (reparsed indent (S depth)) pre), (map (reparsed indent (S depth)) post).
    rewrite map_app. split; [reflexivity|]. split; [reflexivity|].
    intros k' I. apply in_map_iff in I. destruct I as (k & <- & I). rewrite forallb_forall in P. specialize (P k I).
    apply negb_true_iff, String.eqb_neq in P. destruct k. exact P.
  - cbn [re reparsed x_text]. destruct (str_word x) as ((N & _) & _). destruct (str_float x); [contradiction|reflexivity].
Qed.

Lemma forall2_app_inv : forall {A B : Type} (P : A -> B -> Prop) l1 l2 l, Forall2 P (l1 ++ l2) l ->
  exists k1 k2, l = k1 ++ k2 /\ Forall2 P l1 k1 /\ Forall2 P l2 k2.
Proof. intros A B P l1 l2 l H. apply Forall2_app_inv_l in H. destruct H as (k1 & k2 & H1 & H2 & E). eauto. Qed.

(** The written element, parsed again below [p] and [g], is read as a source. *)
Lemma elem_back : forall s s0 p g rest ys depth,
  writable xml_ok s -> attr GML_ID g = as_nrml_id s0 -> attr GML_ID p = as_sm_id s0 ->
  Forall2 reread (source_numbers s) ys ->
  exists s', represents parse_float (p :: g :: rest) (re depth (elem_of s)) s' /\ back s0 s s' /\ source_numbers s' = ys.
Proof.
  intros s s0 p g rest ys depth [W1 W2 (W3 & W4 & W5)] G P N.
  inversion W1 as [|? ? _ W1a]; subst. inversion W1a as [|? ? _ W1b]; subst. inversion W1b as [|? ? (i & Ei & Oi) W1c]; subst.
  inversion W1c as [|? ? (b & Eb & Ob) W1d]; subst. inversion W1d as [|? ? (tg & Eg & Og) W1e]; subst.
  inversion W1e as [|? ? (d & Ed & Od) _]; subst.
  inversion W2 as [|? ? N1 W2a]; subst. inversion W2a as [|? ? N2 _]; subst.
  assert (N0 := N). unfold source_numbers in N.
  apply forall2_app_inv in N. destruct N as (k1 & k2 & -> & F1 & N).
  apply forall2_app_inv in N. destruct N as (k3 & k4 & -> & F2 & N).
  apply forall2_app_inv in N. destruct N as (k5 & k6 & -> & F3 & N).
  apply forall2_app_inv in N. destruct N as (k7 & k8 & -> & F4 & N).
  inversion N as [|? h ? ? Fh N']; subst. inversion N'; subst. clear N N'.
  destruct (flat_points_inv _ _ F1) as (ps & -> & L1).
  do 7 (let v := fresh "v" in let F := fresh "F" in let R := fresh "R" in inversion F2 as [|? v ? ? F R]; subst; clear F2; rename R into F2).
  inversion F2; subst. clear F2.
  exists (mkSource (as_nrml_id s0) (as_sm_id s0) (as_id s) (as_name s) (as_tect s)
    (mkBoundary (ab_srs (as_boundary s)) ps)
    (mkRate (mkTgr v v0 v1 v2 (tg_type (rm_tgr (as_rate s)))) v3 v4 v5)
    (mkDepth (dd_type (as_depth s)) k5 k7) h None None None).
  split; [|split].
  - unfold elem_of. rewrite Ei, Eb, Eg, Ed. constructor; cbn [as_nrml_id as_sm_id as_id as_name as_tect as_boundary as_rate as_depth as_hypo
      as_sigb as_siga as_mmsig ab_srs ab_pos rm_tgr rm_strike rm_dip rm_rake tg_a tg_b tg_min tg_max tg_type dd_type dd_mags dd_depth].
    + exists p, g, rest. auto.
    + reflexivity.
    + exists (re (S depth) (Elem GML_NAME [] (as_name s) [])). split; [apply find_iff; reflexivity|].
      destruct (as_name s) as [[|c w]|] eqn:Q; try reflexivity. now destruct (N1 [] eq_refl).
    + exists (re (S depth) (Elem TECTONIC_REGION [] (as_tect s) [])). split; [apply find_iff; reflexivity|].
      destruct (as_tect s) as [[|c w]|] eqn:Q; try reflexivity. now destruct (N2 [] eq_refl).
    + eexists; eexists; exists (re (S (S (S (S (S depth))))) (Elem POS_LIST [] (Some (join [chr_space] (map str_float (flat_points (ab_pos (as_boundary s)))))) [])).
      split; [apply find_iff; reflexivity|]. split; [apply find_iff; reflexivity|].
      split; [reflexivity|]. split; [apply find_iff; reflexivity|].
      apply reread_list; auto. now apply flat_points_nil.
    + exists (re (S depth) (Elem RUPTURE_RATE_MODEL [] None
       [Elem TRUNCATED_GUTEN_RICHTER [(TYPE, tg)] None
          [Elem A_VALUE_CUMULATIVE [] (Some (str_float (tg_a (rm_tgr (as_rate s))))) [];
           Elem B_VALUE [] (Some (str_float (tg_b (rm_tgr (as_rate s))))) [];
           Elem MIN_MAGNITUDE [] (Some (str_float (tg_min (rm_tgr (as_rate s))))) [];
           Elem MAX_MAGNITUDE [] (Some (str_float (tg_max (rm_tgr (as_rate s))))) []];
        Elem STRIKE [] (Some (str_float (rm_strike (as_rate s)))) [];
        Elem DIP [] (Some (str_float (rm_dip (as_rate s)))) [];
        Elem RAKE [] (Some (str_float (rm_rake (as_rate s)))) []])).
      split; [apply find_iff; reflexivity|].
      split; [eapply (reread_num _ _ STRIKE _ _ _ _ _ _ _ _ [_]); eauto; reflexivity|].
      split; [eapply (reread_num _ _ DIP _ _ _ _ _ _ _ _ [_; _]); eauto; reflexivity|].
      split; [eapply (reread_num _ _ RAKE _ _ _ _ _ _ _ _ [_; _; _]); eauto; reflexivity|].
      exists (re (S (S depth)) (Elem TRUNCATED_GUTEN_RICHTER [(TYPE, tg)] None
          [Elem A_VALUE_CUMULATIVE [] (Some (str_float (tg_a (rm_tgr (as_rate s))))) [];
           Elem B_VALUE [] (Some (str_float (tg_b (rm_tgr (as_rate s))))) [];
           Elem MIN_MAGNITUDE [] (Some (str_float (tg_min (rm_tgr (as_rate s))))) [];
           Elem MAX_MAGNITUDE [] (Some (str_float (tg_max (rm_tgr (as_rate s))))) []])).
      split; [apply find_iff; reflexivity|].
      split; [eapply (reread_num _ _ A_VALUE_CUMULATIVE _ _ _ _ _ _ _ _ []); eauto; reflexivity|].
      split; [eapply (reread_num _ _ B_VALUE _ _ _ _ _ _ _ _ [_]); eauto; reflexivity|].
      split; [eapply (reread_num _ _ MIN_MAGNITUDE _ _ _ _ _ _ _ _ [_; _]); eauto; reflexivity|].
      split; [eapply (reread_num _ _ MAX_MAGNITUDE _ _ _ _ _ _ _ _ [_; _; _]); eauto; reflexivity|].
      reflexivity.
    + eexists; exists (re (S (S depth)) (Elem MAGNITUDE [(TYPE, d)] (Some (join [chr_space] (map str_float (dd_mags (as_depth s))))) [])),
        (re (S (S depth)) (Elem DEPTH [] (Some (join [chr_space] (map str_float (dd_depth (as_depth s))))) [])).
      split; [apply find_iff; reflexivity|]. split; [apply find_iff; reflexivity|]. split; [reflexivity|].
      split; [apply reread_list; auto|]. split; [apply find_iff; reflexivity|]. apply reread_list; auto.
    + eapply (reread_num _ _ HYPOCENTRAL_DEPTH _ _ _ _ _ _ _ _ [_; _; _; _; _]); eauto; reflexivity.
    + auto.
  - constructor; cbn; auto.
    + unfold source_shape. cbn. rewrite L1. apply Forall2_len in F3, F4. now rewrite F3, F4.
  - reflexivity.
Qed.

Definition doc_of (s0 : area_source AR) (ss : list (area_source AR)) : xml :=
  let at_ name o := match o with Some v => [(name, v)] | None => [] end in
  Elem ROOT (at_ GML_ID (as_nrml_id s0)) None
    [Elem SOURCE_MODEL (at_ GML_ID (as_sm_id s0)) None (Elem CONFIG [] None [] :: map elem_of ss)].

Lemma attr_id : forall o, (exists v, o = Some v /\ xml_ok v = true) ->
  set_attr xml_ok GML_ID o = Ok (match o with Some v => [(GML_ID, v)] | None => [] end).
Proof. intros o (v & -> & H). unfold set_attr. now rewrite H. Qed.

Lemma write_ok : forall s0 ss, Forall (writable xml_ok) (s0 :: ss) -> write_doc str_float xml_ok (s0 :: ss) = Ok (doc_of s0 (s0 :: ss)).
Proof.
  intros s0 ss H. assert (H0 := Forall_inv H). destruct H0 as [W _ _].
  inversion W as [|? ? W1 W']; subst. inversion W' as [|? ? W2 _]; subst.
  cbn [write_doc]. rewrite (attr_id _ W1), (attr_id _ W2). cbn [bind].
  assert (M : mapM (area_source_elem str_float xml_ok) (s0 :: ss) = Ok (map elem_of (s0 :: ss))).
  { clear W W1 W2 W'. induction H as [|s l W H IH]; auto. cbn [mapM map]. rewrite elem_ok by auto. cbn [bind]. now rewrite IH. }
  rewrite M. reflexivity.
Qed.

Lemma elem_events : forall anc depth s, filter is_area (end_events anc (re depth (elem_of s))) = [(anc, re depth (elem_of s))].
Proof. intros anc depth s. reflexivity. Qed.

Lemma elems_events : forall anc depth ss,
  filter is_area (flat_map (end_events anc) (map (re depth) (map elem_of ss))) = map (fun s => (anc, re depth (elem_of s))) ss.
Proof.
  intros anc depth. induction ss as [|s ss IH]; auto. cbn [map flat_map]. rewrite filter_app, elem_events, IH. reflexivity.
Qed.

Lemma doc_events : forall a x b y c z es,
  filter is_area (end_events [] (Elem ROOT a x [Elem SOURCE_MODEL b y (Elem CONFIG c z [] :: es)])) =
  filter is_area (flat_map (end_events [Elem SOURCE_MODEL b y (Elem CONFIG c z [] :: es);
    Elem ROOT a x [Elem SOURCE_MODEL b y (Elem CONFIG c z [] :: es)]]) es).
Proof.
  intros a x b y c z es. cbn [end_events flat_map app]. rewrite app_nil_r.
  assert (S1 : forall (q : list xml * xml) l, is_area q = false -> filter is_area (q :: l) = filter is_area l).
  { intros q l H. cbn [filter]. now rewrite H. }
  rewrite S1 by reflexivity. rewrite !filter_app. rewrite !S1 by reflexivity. cbn [filter]. now rewrite !app_nil_r.
Qed.

(** The number lists that reading back gives, source by source. *)
Theorem write_read : forall s0 ss yss, Forall (writable xml_ok) (s0 :: ss) ->
  Forall2 (fun s ys => Forall2 reread (source_numbers s) ys) (s0 :: ss) yss ->
  exists d ss', write_doc str_float xml_ok (s0 :: ss) = Ok d /\
    read_doc parse_float (reparsed indent 0 d) = (ss', None) /\
    Forall2 (back s0) (s0 :: ss) ss' /\ map source_numbers ss' = yss.
Proof.
  intros s0 ss yss W N. exists (doc_of s0 (s0 :: ss)).
  set (d := doc_of s0 (s0 :: ss)).
  assert (E : exists p g, attr GML_ID g = as_nrml_id s0 /\ attr GML_ID p = as_sm_id s0 /\
     filter is_area (end_events [] (reparsed indent 0 d)) = map (fun s => ([p; g], re 2 (elem_of s))) (s0 :: ss)).
  { eexists; eexists. split; [|split].
    3: { unfold d, doc_of. cbn zeta. cbn [reparsed].
         change (map (reparsed indent 1) [Elem SOURCE_MODEL ?b ?y (?k :: ?l)]) with [reparsed indent 1 (Elem SOURCE_MODEL b y (k :: l))].
         cbn [reparsed map]. rewrite doc_events. rewrite <- elems_events. reflexivity. }
    - unfold attr. cbn [x_attrs]. destruct (as_nrml_id s0); reflexivity.
    - unfold attr. cbn [x_attrs]. destruct (as_sm_id s0); reflexivity. }
  destruct E as (p & g & G & P & E).
  assert (B : exists ss', read_events parse_float (map (fun s => ([p; g], re 2 (elem_of s))) (s0 :: ss)) = (ss', None) /\
     Forall2 (back s0) (s0 :: ss) ss' /\ map source_numbers ss' = yss).
  { clear E d. revert W N. generalize (s0 :: ss). intros l W N. induction N as [|s ys l yss N _ IH].
    - exists []. split; [reflexivity|]. split; [constructor|reflexivity].
    - inversion W as [|? ? Ws W']; subst. destruct (IH W') as (ss' & R & F & M).
      destruct (elem_back s s0 p g [] ys 2 Ws G P N) as (s' & Rs & Bs & Ms). apply parse_iff in Rs.
      exists (s' :: ss'). cbn [map read_events]. rewrite Rs, R. split; [reflexivity|]. split; [now constructor|]. cbn [map]. now rewrite Ms, M. }
  destruct B as (ss' & R & F & M). exists ss'. split; [now apply write_ok|]. split; auto.
  unfold read_doc. rewrite read_events_areas, E. exact R.
Qed.
End Round.
