(** Reading a source model: what each object holds, and which objects are read. *)
From Coq Require Import ZArith Bool Ascii String List Permutation Lia.
From Verif Require Import Base Ops BaseFacts PyStr SourceModel Nrml NrmlSpec.
Import ListNotations.
Local Open Scope res_scope.

(** ** split() *)

Lemma split_blanks : forall b s, blanks b -> split_ws (b ++ s) = split_ws s.
Proof.
  intros b s H. induction H as [|c b C _ IH]; auto.
  unfold split_ws in *. cbn [app split_ws_from]. now rewrite C.
Qed.

Lemma split_word : forall w cur s, Forall (fun c => is_space c = false) w ->
  split_ws_from cur (w ++ s) = split_ws_from (rev w ++ cur) s.
Proof.
  induction w as [|c w IH]; intros cur s H; auto. inversion H as [|? ? C H']; subst.
  cbn [app split_ws_from]. rewrite C, IH by auto. cbn [rev]. now rewrite <- app_assoc.
Qed.

Lemma words_split : forall s ws, words s ws -> split_ws s = ws.
Proof.
  intros s ws H. induction H as [b B|b w b' B [N W] B'|b w c s ws B [N W] C H IH].
  - rewrite <- (app_nil_r b). now rewrite split_blanks.
  - rewrite split_blanks by auto. unfold split_ws. rewrite split_word by auto. rewrite app_nil_r.
    destruct (rev w) as [|x r] eqn:R; [elim N; now rewrite <- (rev_involutive w), R|].
    destruct b' as [|y b']; cbn [split_ws_from].
    + now rewrite <- R, rev_involutive.
    + inversion B' as [|? ? Y B'']; subst. rewrite Y, <- R, rev_involutive. f_equal.
      change (split_ws b' = []). rewrite <- (app_nil_r b'). now rewrite split_blanks.
  - rewrite split_blanks by auto. unfold split_ws. rewrite split_word by auto. rewrite app_nil_r.
    destruct (rev w) as [|x r] eqn:R; [elim N; now rewrite <- (rev_involutive w), R|].
    cbn [split_ws_from]. rewrite C, <- R, rev_involutive. f_equal. exact IH.
Qed.

Lemma words_blank : forall c s ws, is_space c = true -> words s ws -> words (c :: s) ws.
Proof.
  intros c s ws C H. inversion H as [b B|b w b' B W B'|b w c' s' ws' B W C' H']; subst.
  - constructor. now constructor.
  - change (c :: b ++ w ++ b') with ((c :: b) ++ w ++ b'). constructor; auto. now constructor.
  - change (c :: b ++ w ++ c' :: s') with ((c :: b) ++ w ++ c' :: s'). constructor; auto. now constructor.
Qed.

Lemma split_words_from : forall s,
  words s (split_ws s) /\
  (forall cur, cur <> [] -> Forall (fun c => is_space c = false) cur -> words (rev cur ++ s) (split_ws_from cur s)).
Proof.
  induction s as [|c s (IH0 & IH)].
  - split; [constructor; constructor|]. intros cur N W. cbn [split_ws_from].
    destruct cur as [|x cur]; [contradiction|]. rewrite app_nil_r.
    assert (E : rev (x :: cur) = [] ++ rev (x :: cur) ++ []) by (now rewrite app_nil_r).
    rewrite E at 1. constructor; try constructor.
    + intros A. apply N. rewrite <- (rev_involutive (x :: cur)), A. reflexivity.
    + apply Forall_rev. exact W.
  - destruct (is_space c) eqn:C.
    + split.
      * unfold split_ws. cbn [split_ws_from]. rewrite C. now apply words_blank.
      * intros cur N W. cbn [split_ws_from]. rewrite C. destruct cur as [|x cur]; [contradiction|].
        apply (words_more [] (rev (x :: cur)) c s); auto; try constructor.
        -- intros A. apply N. rewrite <- (rev_involutive (x :: cur)), A. reflexivity.
        -- apply Forall_rev. exact W.
    + split.
      * unfold split_ws. cbn [split_ws_from]. rewrite C. apply (IH [c]); [discriminate|]. now constructor.
      * intros cur N W. cbn [split_ws_from]. rewrite C.
        replace (rev cur ++ c :: s) with (rev (c :: cur) ++ s) by (cbn [rev]; now rewrite <- app_assoc).
        apply IH; [discriminate|]. now constructor.
Qed.

Lemma split_ws_iff : forall s ws, split_ws s = ws <-> words s ws.
Proof. intros s ws. split; [intros <-; apply split_words_from|apply words_split]. Qed.

(** ** Elements *)

Section XmlInd.
Variable P : xml -> Prop.
Hypothesis H : forall g a x kids, Forall P kids -> P (Elem g a x kids).
Fixpoint xml_ind2 (e : xml) : P e :=
  match e with
  | Elem g a x kids =>
      H g a x kids ((fix go l : Forall P l := match l with [] => Forall_nil _ | k :: l' => Forall_cons _ (xml_ind2 k) (go l') end) kids)
  end.
End XmlInd.

Lemma located_elems : forall e anc, map snd (located anc e) = iter_elems e.
Proof.
  induction e as [g a x kids IH] using xml_ind2. intros anc. cbn [located iter_elems map snd]. f_equal.
  generalize (Elem g a x kids :: anc). intros anc'. induction IH as [|k kids K _ IH']; auto.
  cbn [flat_map]. now rewrite map_app, K, IH'.
Qed.

Lemma below_desc : forall e, below e = flat_map iter_elems (x_kids e).
Proof. intros [g a x kids]. unfold below. now rewrite located_elems. Qed.

Lemma find_iff : forall tag l k, find (fun k => String.eqb (x_tag k) tag) l = Some k <-> first_tagged tag l k.
Proof.
  intros tag. induction l as [|y l IH]; intros k.
  - split; [discriminate|]. intros (pre & post & E & _). now destruct pre.
  - cbn [find]. destruct (String.eqb (x_tag y) tag) eqn:G.
    + apply String.eqb_eq in G. split.
      * intros E. injection E as <-. exists [], l. cbn. intuition.
      * intros (pre & post & E & K & N). destruct pre as [|z pre]; cbn in E; [congruence|].
        injection E as <- ->. elim (N y); [now left|exact G].
    + rewrite IH. apply String.eqb_neq in G. split; intros (pre & post & E & K & N).
      * exists (y :: pre), post. subst l. split; [reflexivity|]. split; auto.
        intros k' [<-|I]; auto.
      * destruct pre as [|z pre]; cbn in E; injection E as -> ->; [contradiction|].
        exists pre, post. split; auto. split; auto. intros k' I. apply N. now right.
Qed.

Lemma first_unique : forall tag l k k', first_tagged tag l k -> first_tagged tag l k' -> k = k'.
Proof. intros tag l k k' A B. apply find_iff in A, B. congruence. Qed.

Lemma Forall2_len : forall {A B : Type} (P : A -> B -> Prop) l l', Forall2 P l l' -> length l = length l'.
Proof. intros A B P l l' H. induction H; cbn; auto. Qed.

Section NrmlRead.
Context {AR : Ops}.
Variable parse_float : text -> option T.

Notation number_in := (number_in parse_float).
Notation numbers_in := (numbers_in parse_float).
Notation float_of := (float_of parse_float).

Lemma some_elem_ok : forall tag l (B : Type) (f : xml -> res B) b,
  bind (some_elem (find (fun k => String.eqb (x_tag k) tag) l)) f = Ok b <->
  exists k, first_tagged tag l k /\ f k = Ok b.
Proof.
  intros. split.
  - intros H. destruct (find _ l) as [k|] eqn:F; [|discriminate]. exists k. split; auto. now apply find_iff.
  - intros (k & F & E). apply find_iff in F. now rewrite F.
Qed.

Lemma float_of_ok : forall x v, float_of x = Ok v <-> exists s, x = Some s /\ parse_float s = Some v.
Proof.
  intros [s|] v; cbn [Nrml.float_of].
  - destruct (parse_float s) as [u|] eqn:P; split.
    + intros E. injection E as ->. eauto.
    + intros (s' & E & H). congruence.
    + discriminate.
    + intros (s' & E & H). congruence.
  - split; [discriminate|]. intros (? & ? & _). discriminate.
Qed.

Lemma float_child_ok : forall tag e v, float_child parse_float tag e = Ok v <-> number_in tag e v.
Proof.
  intros tag e v. unfold float_child. unfold find_child. rewrite some_elem_ok. split.
  - intros (k & F & E). apply float_of_ok in E. destruct E as (s & A & B). exists k, s. auto.
  - intros (k & s & F & A & B). exists k. split; auto. apply float_of_ok. eauto.
Qed.

Lemma floats_ok : forall ws vs,
  mapM (fun s => float_of (Some s)) ws = Ok vs <-> Forall2 (fun w v => parse_float w = Some v) ws vs.
Proof.
  induction ws as [|w ws IH]; intros vs.
  - split; [intros E; injection E as <-; constructor|intros H; now inversion H].
  - cbn [mapM]. split.
    + intros E. apply bind_ok in E. destruct E as (v & A & E). apply bind_ok in E. destruct E as (vs' & B & E).
      injection E as <-. apply float_of_ok in A. destruct A as (s & S' & A). injection S' as <-.
      constructor; auto. now apply IH.
    + intros H. inversion H as [|? v ? vs' A B]; subst.
      assert (A' : float_of (Some w) = Ok v) by (apply float_of_ok; eauto). rewrite A'. cbn [bind].
      apply IH in B. now rewrite B.
Qed.

Lemma points_ok : forall n ws ps, length ws <= n ->
  (points parse_float ws = Ok ps <-> Forall2 (fun w v => parse_float w = Some v) ws (flat_points ps)).
Proof.
  induction n as [|n IH]; intros ws ps L.
  - destruct ws; [|cbn in L; lia]. split.
    + intros E. injection E as <-. constructor.
    + intros H. inversion H as [A B|]. destruct ps; [reflexivity|discriminate].
  - destruct ws as [|a [|b ws]].
    + split; [intros E; injection E as <-; constructor|]. intros H. inversion H as [A B|]. destruct ps; [reflexivity|discriminate].
    + split.
      * cbn [points]. intros E. apply bind_ok in E. destruct E as (? & _ & E). discriminate.
      * intros H. apply Forall2_len in H. exfalso. destruct ps as [|p ps]; cbn in H; [discriminate|].
        injection H as H. discriminate.
    + cbn [points]. split.
      * intros E. apply bind_ok in E. destruct E as (x & A & E). apply bind_ok in E. destruct E as (y & B & E).
        apply bind_ok in E. destruct E as (ps' & C & E). injection E as <-.
        apply float_of_ok in A, B. destruct A as (s & S1 & A), B as (s' & S2 & B). injection S1 as <-. injection S2 as <-.
        cbn [flat_points flat_map app fst snd]. constructor; auto. constructor; auto. apply IH; [cbn in L; lia|exact C].
      * intros H. destruct ps as [|[x y] ps]; cbn [flat_points flat_map app fst snd] in H; [inversion H|].
        inversion H as [|? ? ? ? A H']; subst. inversion H' as [|? ? ? ? B H'']; subst.
        assert (A' : float_of (Some a) = Ok x) by (apply float_of_ok; eauto).
        assert (B' : float_of (Some b) = Ok y) by (apply float_of_ok; eauto).
        rewrite A', B'. cbn [bind]. apply IH in H''; [|cbn in L; lia]. now rewrite H''.
Qed.

Lemma split_bind : forall x (B : Type) (f : list text -> res B) b,
  bind (split_of x) f = Ok b <-> exists s ws, x = Some s /\ words s ws /\ f ws = Ok b.
Proof.
  intros [s|] B f b; cbn [split_of bind].
  - split.
    + intros E. exists s, (split_ws s). repeat split; auto. now apply split_ws_iff.
    + intros (s' & ws & E & W & H). injection E as <-. apply split_ws_iff in W. now rewrite W.
  - split; [discriminate|]. intros (? & ? & ? & _). discriminate.
Qed.

Lemma numbers_bind : forall k vs, 
  bind (split_of (x_text k)) (fun ws => mapM (fun s => float_of (Some s)) ws) = Ok vs <-> numbers_in k vs.
Proof.
  intros k vs. rewrite split_bind. unfold NrmlSpec.numbers_in. split; intros (s & ws & A & B & C); exists s, ws; (split; [exact A|split; [exact B|]]); now apply floats_ok.
Qed.

Lemma boundary_ok : forall b bd, parse_area_boundary parse_float b = Ok bd <->
  exists r l, first_tagged LINEAR_RING (below b) r /\ ab_srs bd = attr LINEAR_RING_NAME r /\
    first_tagged POS_LIST (below b) l /\ numbers_in l (flat_points (ab_pos bd)).
Proof.
  intros b bd. unfold parse_area_boundary, find_desc. rewrite <- below_desc. rewrite some_elem_ok. split.
  - intros (r & F & E). apply some_elem_ok in E. destruct E as (l & G & E). apply split_bind in E.
    destruct E as (s & ws & A & W & E). apply bind_ok in E. destruct E as (ps & Q & E). injection E as <-.
    apply (points_ok (length ws)) in Q; [|lia]. exists r, l. cbn [ab_srs ab_pos]. repeat split; auto. exists s, ws. auto.
  - intros (r & l & F & A & G & s & ws & B & W & Q). exists r. split; auto. apply some_elem_ok. exists l. split; auto.
    apply split_bind. exists s, ws. split; auto. split; auto. apply (points_ok (length ws)) in Q; [|lia]. rewrite Q. cbn [bind].
    destruct bd as [srs ps]. cbn in *. now subst.
Qed.

Lemma rate_ok : forall r m, parse_rupture_rate_model parse_float r = Ok m <->
  number_in STRIKE r (rm_strike m) /\ number_in DIP r (rm_dip m) /\ number_in RAKE r (rm_rake m) /\
  exists g, first_tagged TRUNCATED_GUTEN_RICHTER (x_kids r) g /\
    number_in A_VALUE_CUMULATIVE g (tg_a (rm_tgr m)) /\ number_in B_VALUE g (tg_b (rm_tgr m)) /\
    number_in MIN_MAGNITUDE g (tg_min (rm_tgr m)) /\ number_in MAX_MAGNITUDE g (tg_max (rm_tgr m)) /\
    tg_type (rm_tgr m) = attr TYPE g.
Proof.
  intros r m. unfold parse_rupture_rate_model, find_child. rewrite some_elem_ok. split.
  - intros (g & F & E).
    repeat (apply bind_ok in E; let v := fresh "v" in let Q := fresh "Q" in destruct E as (v & Q & E); apply float_child_ok in Q).
    injection E as <-. cbn. split; auto. split; auto. split; auto. exists g. auto 10.
  - intros (A & B & C & g & F & D1 & D2 & D3 & D4 & D5). exists g. split; auto.
    apply float_child_ok in A, B, C, D1, D2, D3, D4. rewrite D1, D2, D3, D4. cbn [bind]. rewrite A, B, C. cbn [bind].
    destruct m as [[]]. cbn in *. now subst.
Qed.

Lemma depth_ok : forall d m, parse_rupture_depth_distrib parse_float d = Ok m <->
  exists k p, first_tagged MAGNITUDE (x_kids d) k /\ dd_type m = attr TYPE k /\ numbers_in k (dd_mags m) /\
    first_tagged DEPTH (x_kids d) p /\ numbers_in p (dd_depth m).
Proof.
  intros d m. unfold parse_rupture_depth_distrib, find_child. rewrite some_elem_ok. split.
  - intros (k & F & E). apply split_bind in E. destruct E as (s & ws & A & W & E).
    apply bind_ok in E. destruct E as (vs & V & E). apply floats_ok in V.
    apply some_elem_ok in E. destruct E as (p & G & E). apply split_bind in E. destruct E as (s' & ws' & A' & W' & E).
    apply bind_ok in E. destruct E as (vs' & V' & E). apply floats_ok in V'. injection E as <-.
    exists k, p. cbn. split; auto. split; auto. split; [exists s, ws; auto|]. split; auto. exists s', ws'; auto.
  - intros (k & p & F & T' & (s & ws & A & W & V) & G & (s' & ws' & A' & W' & V')).
    exists k. split; auto. apply split_bind. exists s, ws. split; auto. split; auto. apply floats_ok in V. rewrite V. cbn [bind].
    apply some_elem_ok. exists p. split; auto. apply split_bind. exists s', ws'. split; auto. split; auto.
    apply floats_ok in V'. rewrite V'. cbn [bind]. destruct m. cbn in *. now subst.
Qed.

(** An object is made from an element exactly when the element is complete, and it says what
    the element says. *)
Theorem parse_iff : forall anc e s, parse_area_source parse_float anc e = Ok s <-> represents parse_float anc e s.
Proof.
  intros anc e s. split.
  - intros E. destruct anc as [|p [|g rest]]; try discriminate. cbn [parse_area_source] in E. unfold find_child in E.
    apply some_elem_ok in E. destruct E as (name & F1 & E).
    apply some_elem_ok in E. destruct E as (tect & F2 & E).
    apply some_elem_ok in E. destruct E as (be & F3 & E).
    apply bind_ok in E. destruct E as (b & Q3 & E). apply boundary_ok in Q3.
    apply some_elem_ok in E. destruct E as (re & F4 & E).
    apply bind_ok in E. destruct E as (r & Q4 & E). apply rate_ok in Q4.
    apply some_elem_ok in E. destruct E as (de & F5 & E).
    apply bind_ok in E. destruct E as (d & Q5 & E). apply depth_ok in Q5.
    apply bind_ok in E. destruct E as (h & Q6 & E). apply float_child_ok in Q6. injection E as <-.
    constructor; cbn.
    + exists p, g, rest. auto.
    + auto.
    + eauto.
    + eauto.
    + destruct Q3 as (rg & l & Q3). exists be, rg, l. auto.
    + exists re. auto.
    + destruct Q5 as (k & q & Q5). exists de, k, q. auto.
    + auto.
    + auto.
  - intros [(p & g & rest & -> & I1 & I2) I3 (name & F1 & I4) (tect & F2 & I5) (be & rg & l & F3 & Q3) (re & F4 & Q4) (de & k & q & F5 & Q5) Q6 (N1 & N2 & N3)].
    cbn [parse_area_source]. unfold find_child.
    apply some_elem_ok. exists name. split; auto.
    apply some_elem_ok. exists tect. split; auto.
    apply some_elem_ok. exists be. split; auto.
    assert (Q3' : parse_area_boundary parse_float be = Ok (as_boundary s)) by (apply boundary_ok; eauto). rewrite Q3'. cbn [bind].
    apply some_elem_ok. exists re. split; auto. apply rate_ok in Q4. rewrite Q4. cbn [bind].
    apply some_elem_ok. exists de. split; auto.
    assert (Q5' : parse_rupture_depth_distrib parse_float de = Ok (as_depth s)) by (apply depth_ok; eauto). rewrite Q5'. cbn [bind].
    apply float_child_ok in Q6. rewrite Q6. cbn [bind]. destruct s. cbn in *. now subst.
Qed.

(** ** The elements that are read *)

Lemma filter_flat_map : forall {A B : Type} (f : B -> bool) (g : A -> list B) l,
  filter f (flat_map g l) = flat_map (fun a => filter f (g a)) l.
Proof. intros A B f g. induction l as [|a l IH]; auto. cbn [flat_map]. now rewrite filter_app, IH. Qed.

Lemma filter_none : forall {A : Type} (f : A -> bool) l, (forall a, In a l -> f a = false) -> filter f l = [].
Proof.
  intros A f. induction l as [|a l IH]; intros H; auto. cbn [filter]. rewrite (H a) by now left.
  apply IH. intros b I. apply H. now right.
Qed.

Lemma events_located : forall e anc x, In x (end_events anc e) <-> In x (located anc e).
Proof.
  induction e as [g a x0 kids IH] using xml_ind2. intros anc x. cbn [end_events located].
  rewrite in_app_iff. cbn [In]. rewrite !in_flat_map. rewrite Forall_forall in IH. split.
  - intros [(k & K & I)|[I|[]]]; [right; exists k; split; auto; now apply IH|now left].
  - intros [I|(k & K & I)]; [right; now left|left; exists k; split; auto; now apply IH].
Qed.

Lemma located_below : forall e anc p, In p (located anc e) -> In (snd p) (iter_elems e).
Proof. intros e anc p I. rewrite <- (located_elems e anc). now apply in_map. Qed.

(** Depth first in either order gives the same areaSource elements when they are not nested. *)
Lemma events_areas : forall e anc,
  (forall a x, In (a, x) (filter is_area (located anc e)) -> forall y, In y (below x) -> x_tag y <> AREA_SOURCE) ->
  filter is_area (end_events anc e) = filter is_area (located anc e).
Proof.
  induction e as [g a x0 kids IH] using xml_ind2. intros anc H. cbn [end_events located].
  rewrite filter_app. rewrite !filter_flat_map. cbn [filter].
  destruct (is_area (anc, Elem g a x0 kids)) eqn:A.
  - assert (N : forall k, In k kids -> forall p, In p (located (Elem g a x0 kids :: anc) k) -> is_area p = false).
    { intros k K p I. apply String.eqb_neq. apply (H anc (Elem g a x0 kids)).
      - apply filter_In. split; [now left|exact A].
      - rewrite below_desc. apply in_flat_map. exists k. split; auto. now apply located_below in I. }
    assert (N1 : flat_map (fun k => filter is_area (end_events (Elem g a x0 kids :: anc) k)) kids = []).
    { rewrite <- filter_flat_map. apply filter_none. intros p I. apply in_flat_map in I. destruct I as (k & K & I).
      apply (N k K). now apply events_located. }
    assert (N2 : filter is_area (flat_map (located (Elem g a x0 kids :: anc)) kids) = []).
    { apply filter_none. intros p I. apply in_flat_map in I. destruct I as (k & K & I). now apply (N k K). }
    now rewrite N1, N2.
  - cbn [filter]. rewrite app_nil_r.
    assert (H' : forall k, In k kids -> forall b x, In (b, x) (filter is_area (located (Elem g a x0 kids :: anc) k)) ->
       forall y, In y (below x) -> x_tag y <> AREA_SOURCE).
    { intros k K b x I. apply (H b). apply filter_In in I. destruct I as (I & J). apply filter_In. split; auto.
      right. apply in_flat_map. eauto. }
    rewrite filter_flat_map. clear H A. revert IH H'. generalize (Elem g a x0 kids :: anc). intros anc' IH H'. induction IH as [|k kids K _ IH']; auto.
    cbn [flat_map]. rewrite K by (apply H'; now left). f_equal. apply IH'. intros k' I. apply H'. now right.
Qed.

Lemma read_events_areas : forall evs, read_events parse_float evs = read_events parse_float (filter is_area evs).
Proof.
  induction evs as [|(anc, e) evs IH]; auto. cbn [filter]. change (is_area (anc, e)) with (String.eqb (x_tag e) AREA_SOURCE).
  cbn [read_events]. destruct (String.eqb (x_tag e) AREA_SOURCE) eqn:A; auto. cbn [read_events]. rewrite A.
  destruct (parse_area_source parse_float anc e); auto. now rewrite IH.
Qed.

Lemma read_areas : forall ps, Forall (fun p => is_area p = true) ps ->
  (exists ss, read_events parse_float ps = (ss, None) /\ Forall2 (fun p s => represents parse_float (fst p) (snd p) s) ps ss) \/
  (exists pre p post ss x, ps = pre ++ p :: post /\ read_events parse_float ps = (ss, Some x) /\
     Forall2 (fun p s => represents parse_float (fst p) (snd p) s) pre ss /\
     ~ (exists s, represents parse_float (fst p) (snd p) s) /\
     parse_area_source parse_float (fst p) (snd p) = Err x).
Proof.
  intros ps H. induction H as [|(anc, e) ps A H IH].
  - left. exists []. split; [reflexivity|constructor].
  - unfold is_area in A. cbn [snd] in A. cbn [read_events]. rewrite A.
    destruct (parse_area_source parse_float anc e) as [s|x] eqn:P.
    + destruct IH as [(ss & R & F)|(pre & p & post & ss & x & E & R & F & N & X)].
      * left. exists (s :: ss). rewrite R. split; auto. constructor; auto. now apply parse_iff.
      * right. exists ((anc, e) :: pre), p, post, (s :: ss), x. subst ps. rewrite R. split; auto. split; auto.
        split; [constructor; auto; now apply parse_iff|]. auto.
    + right. exists [], (anc, e), ps, [], x. split; auto. split; auto. split; [constructor|]. split; auto.
      intros (s & R). apply parse_iff in R. cbn [fst snd] in R. congruence.
Qed.

Lemma area_elements_area : forall d, Forall (fun p => is_area p = true) (area_elements d).
Proof. intros d. apply Forall_forall. intros p I. now apply filter_In in I. Qed.

(** C62. *)
Theorem C62_proof : forall d, not_nested d ->
  (exists ss, read_doc parse_float d = (ss, None) /\
     Forall2 (fun p s => represents parse_float (fst p) (snd p) s) (area_elements d) ss) \/
  (exists pre p post ss x, area_elements d = pre ++ p :: post /\ read_doc parse_float d = (ss, Some x) /\
     Forall2 (fun p s => represents parse_float (fst p) (snd p) s) pre ss /\
     ~ (exists s, represents parse_float (fst p) (snd p) s)).
Proof.
  intros d H. unfold read_doc. rewrite read_events_areas, events_areas by exact H.
  change (filter is_area (located [] d)) with (area_elements d).
  destruct (read_areas (area_elements d) (area_elements_area d)) as [L|(pre & p & post & ss & x & A & B & C & D & _)]; [now left|].
  right. exists pre, p, post, ss, x. auto.
Qed.

(** Without the restriction: every areaSource is read once, nested ones before the enclosing
    one. *)
Lemma perm_flat_map : forall {A B : Type} (f g : A -> list B) l,
  Forall (fun a => Permutation (f a) (g a)) l -> Permutation (flat_map f l) (flat_map g l).
Proof. intros A B f g l H. induction H; cbn [flat_map]; auto. now apply Permutation_app. Qed.

Lemma events_perm : forall e anc, Permutation (end_events anc e) (located anc e).
Proof.
  induction e as [g a x kids IH] using xml_ind2. intros anc. cbn [end_events located].
  etransitivity; [apply Permutation_app_comm|]. cbn [app]. constructor. apply perm_flat_map.
  apply Forall_forall. intros k K. rewrite Forall_forall in IH. now apply IH.
Qed.

Lemma perm_filter : forall {A : Type} (f : A -> bool) l l', Permutation l l' -> Permutation (filter f l) (filter f l').
Proof.
  intros A f l l' H. induction H as [|x l l' H IH|x y l|l l' l'' H1 IH1 H2 IH2]; cbn [filter].
  - constructor.
  - destruct (f x); auto.
  - destruct (f x), (f y); auto. constructor.
  - etransitivity; eauto.
Qed.

Theorem C62_any_proof : forall d ss, read_doc parse_float d = (ss, None) ->
  exists ps, Permutation ps (area_elements d) /\ Forall2 (fun p s => represents parse_float (fst p) (snd p) s) ps ss.
Proof.
  intros d ss R. unfold read_doc in R. rewrite read_events_areas in R. exists (filter is_area (end_events [] d)). split.
  - apply perm_filter, events_perm.
  - destruct (read_areas (filter is_area (end_events [] d))) as [(ss' & R' & F)|(pre & p & post & ss' & x & _ & R' & _)].
    + apply Forall_forall. intros p I. now apply filter_In in I.
    + rewrite R in R'. injection R' as ->. exact F.
    + rewrite R in R'. discriminate.
Qed.

(** Nothing else in the document matters. *)
Lemma represents_unique : forall anc e s s', represents parse_float anc e s -> represents parse_float anc e s' -> s = s'.
Proof. intros anc e s s' A B. apply parse_iff in A, B. congruence. Qed.

End NrmlRead.
