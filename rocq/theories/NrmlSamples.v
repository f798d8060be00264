(** Sample documents for the properties of the schema. *)
From Coq Require Import ZArith Bool Ascii String List Lia.
From Coq Require Import Floats.SpecFloat.
From Verif Require Import Base Ops BaseFacts FloatOps PyStr PyStrProofs PyFloat PyFloatProofs SourceModel Nrml NrmlSpec NrmlRead NrmlRound NrmlFinal
  NrmlSchema NrmlValid NrmlValid2 PyXsd NrmlValid3 NrmlValid4.
From Coq Require Import List.
Import ListNotations.
Local Open Scope nat_scope.

(** ** Builders *)

Definition lit_elem (tag s : string) : xml := Elem tag [] (Some (t s)) [].
Definition ring_elem (tag : string) (a : list (string * text)) (pos : string) : xml :=
  Elem tag [] None [Elem LINEAR_RING a None [lit_elem POS_LIST pos]].
Definition tgr_elem (a : list (string * text)) : xml :=
  Elem TRUNCATED_GUTEN_RICHTER a None
    [lit_elem A_VALUE_CUMULATIVE "5.0"; lit_elem B_VALUE "0.8"; lit_elem MIN_MAGNITUDE "5.0"; lit_elem MAX_MAGNITUDE "7.0"].
Definition evenly_elem : xml :=
  Elem EVENLY_MFD [("minVal"%string, t "5.0"); ("binSize"%string, t "0.1")] (Some (t "0.5 0.4 0.3")) [].
Definition rate_elem (m : xml) (strike : string) : xml :=
  Elem RUPTURE_RATE_MODEL [] None [m; lit_elem STRIKE strike; lit_elem DIP "90.0"; lit_elem RAKE "0.0"].
Definition area_elem (names rings rates : list xml) (mags : option text) : xml :=
  Elem AREA_SOURCE [(GML_ID, t "a")] None
    (names ++ [lit_elem TECTONIC_REGION "Volcanic"; Elem AREA_BOUNDARY [] None [Elem POLYGON [] None rings]] ++ rates ++
     [Elem RUPTURE_DEPTH_DISTRIB [] None [Elem MAGNITUDE [(TYPE, t "ML")] mags []; lit_elem DEPTH "5000.0 0.0"];
      lit_elem HYPOCENTRAL_DEPTH "5000.0"]).
Definition doc_with (srcs : list xml) : xml :=
  Elem ROOT [(GML_ID, t "n1")] None [Elem SOURCE_MODEL [(GML_ID, t "sm1")] None (Elem CONFIG [] None [] :: srcs)].

Definition a_name : xml := lit_elem GML_NAME "zone".
Definition ML : list (string * text) := [(TYPE, t "ML")].
Definition SRS : list (string * text) := [(SRS_NAME, t "EPSG:4326")].
Definition square_pos : string := "20.0 38.0 21.0 38.0 21.0 39.0 20.0 39.0".
Definition hole_pos : string := "20.2 38.2 20.8 38.2 20.8 38.8".
Definition ext_ring : xml := ring_elem EXTERIOR SRS square_pos.
Definition hole_ring : xml := ring_elem INTERIOR SRS hole_pos.
Definition a_rate : xml := rate_elem (tgr_elem ML) "0.0".
Definition mags2 : option text := Some (t "6.0 7.0").

Definition plain_area : xml := area_elem [a_name] [ext_ring] [a_rate] mags2.

(** Valid, and not read. *)
Definition unnamed := area_elem [] [ext_ring] [a_rate] mags2.
Definition discretised := area_elem [a_name] [ext_ring] [rate_elem evenly_elem "0.0"] mags2.
Definition odd_ring := area_elem [a_name] [ring_elem EXTERIOR SRS "20.0 38.0 21.0"] [a_rate] mags2.
Definition no_ring := area_elem [a_name] [] [a_rate] mags2.
Definition no_mags := area_elem [a_name] [ext_ring] [a_rate] None.

(** Valid, and read without a part. *)
Definition with_hole := area_elem [a_name] [ext_ring; hole_ring] [a_rate] mags2.
Definition two_rates := area_elem [a_name] [ext_ring] [a_rate; rate_elem (tgr_elem ML) "45.0"] mags2.

(** Valid and read, and not written. *)
Definition no_srs := area_elem [a_name] [ring_elem EXTERIOR [] square_pos] [a_rate] mags2.
Definition no_type := area_elem [a_name] [ext_ring] [rate_elem (tgr_elem []) "0.0"] mags2.
Definition point_source : xml := Elem (NRML ++ "pointSource")%string [(GML_ID, t "p")] None [].

(** ** Validity *)

Lemma dec_double : forall a b, forallb (fun c => Nat.leb 48 (nat_of_ascii c) && Nat.leb (nat_of_ascii c) 57) (t a ++ t b) = true ->
  t a <> [] -> xs_double (t a ++ "."%char :: t b).
Proof.
  intros a b H N. change (t a ++ "."%char :: t b) with ([] ++ (t a ++ "."%char :: t b)). constructor; [now left|].
  rewrite forallb_app in H. apply andb_true_iff in H. destruct H as (A & B). apply ud_point; auto.
  - apply Forall_forall. intros c I. rewrite forallb_forall in A. specialize (A c I). apply andb_true_iff in A. destruct A as (X & Y).
    apply Nat.leb_le in X, Y. lia.
  - apply Forall_forall. intros c I. rewrite forallb_forall in B. specialize (B c I). apply andb_true_iff in B. destruct B as (X & Y).
    apply Nat.leb_le in X, Y. lia.
Qed.

Lemma lit_literal : forall w, literal (Some w) w.
Proof. intros w. exists [], []. rewrite app_nil_r. repeat split; constructor. Qed.

Lemma no_attrs_ok : forall g x k names, attrs_among names (Elem g [] x k).
Proof. intros. split; constructor. Qed.

Lemma attr_ok : forall g n v x k names, In n names -> attrs_among names (Elem g [(n, v)] x k).
Proof. intros g n v x k names I. split; [constructor; [intros []|constructor]|]. constructor; [|constructor]. apply in_app_iff. now right. Qed.

Section Samples.
Variable lm : libm.
Notation val := (py_float : text -> option (@T (FOps lm))).

Ltac dd a b := exact (dec_double a b eq_refl ltac:(discriminate)).

Lemma lit_simple : forall tag s names (ok : option text -> Prop), ok (Some (t s)) -> simple tag names ok (lit_elem tag s).
Proof. intros. split; [reflexivity|]. split; [apply no_attrs_ok|]. split; auto. Qed.

Lemma lit_double : forall a b, xs_double (t a ++ "."%char :: t b) -> double (Some (t a ++ "."%char :: t b)).
Proof. intros a b H. eexists. split; [apply lit_literal|exact H]. Qed.

Lemma lit_nonneg : forall w v, xs_double w -> py_float w = Some v -> SFleb (F_ofZ 0) v = true -> non_negative (AR := FOps lm) val (Some w).
Proof. intros w v A B C. exists w. split; [apply lit_literal|]. split; auto. exists v. auto. Qed.

Lemma lit_between : forall lo hi w v, xs_double w -> py_float w = Some v -> SFleb (F_ofZ lo) v = true -> SFleb v (F_ofZ hi) = true ->
  double_between (AR := FOps lm) val lo hi (Some w).
Proof. intros lo hi w v A B C D. exists w, v. split; [apply lit_literal|]. auto. Qed.

Lemma lit_list : forall s, Forall xs_double (split_ws s) -> double_list (Some s).
Proof. intros s F. exists (split_ws s). split; auto. right. exists s. split; auto. now apply split_ws_iff. Qed.

Ltac split_lit a b := change (Forall xs_double ((t a ++ "."%char :: t b) :: _)).

Lemma ring_ok : forall tag a pos, In a [SRS; []] -> Forall xs_double (split_ws (t pos)) -> ring_property tag (ring_elem tag a pos).
Proof.
  intros tag a pos A F. split; [reflexivity|]. split; [apply no_attrs_ok|]. split; [discriminate|]. eexists. split; [reflexivity|].
  split; [reflexivity|]. split. { destruct A as [<-|[<-|[]]]; [apply attr_ok; right; now left|apply no_attrs_ok]. }
  split; [discriminate|]. exists [], (lit_elem POS_LIST pos). split; [reflexivity|].
  split; [exists [], []; split; auto; split; [now left|constructor]|]. apply lit_simple. now apply lit_list.
Qed.

Lemma tgr_ok : forall a, In a [ML; []] -> truncated (AR := FOps lm) val (tgr_elem a).
Proof.
  intros a A. split. { intros v E. destruct A as [<-|[<-|[]]]; [|discriminate]. injection E as <-. now left. }
  split; [reflexivity|]. split. { destruct A as [<-|[<-|[]]]; [apply attr_ok; now left|apply no_attrs_ok]. }
  split; [discriminate|]. do 4 eexists. split; [reflexivity|]. split; [|split; [|split]]; apply lit_simple.
  - apply (lit_double "5" "0"). dd "5"%string "0"%string.
  - eapply lit_nonneg; [dd "0"%string "8"%string|vm_compute; reflexivity|vm_compute; reflexivity].
  - apply (lit_double "5" "0"). dd "5"%string "0"%string.
  - apply (lit_double "7" "0"). dd "7"%string "0"%string.
Qed.

Lemma evenly_ok : evenly (AR := FOps lm) val evenly_elem.
Proof.
  split. { intros v E. discriminate. }
  split.
  { split; [reflexivity|]. split.
    - split; [constructor; [intros [X|[]]; discriminate|constructor; [intros []|constructor]]|].
      constructor; [|constructor; [|constructor]]; apply in_app_iff; right; right; [now left|right; now left].
    - split; [reflexivity|]. apply lit_list. assert (E : split_ws (t "0.5 0.4 0.3") = [t "0.5"; t "0.4"; t "0.3"]) by (vm_compute; reflexivity). rewrite E. constructor; [dd "0"%string "5"%string|]. constructor; [dd "0"%string "4"%string|]. constructor; [dd "0"%string "3"%string|constructor]. }
  split.
  - apply (lit_double "5" "0"). dd "5"%string "0"%string.
  - eapply lit_nonneg; [dd "0"%string "1"%string|vm_compute; reflexivity|vm_compute; reflexivity].
Qed.

Lemma rate_ok : forall m strike, truncated (AR := FOps lm) val m \/ evenly (AR := FOps lm) val m -> In strike ["0.0"; "45.0"]%string ->
  rate_model_type (AR := FOps lm) val (rate_elem m strike).
Proof.
  intros m strike M S. split; [reflexivity|]. split; [apply no_attrs_ok|]. split; [discriminate|]. do 4 eexists. split; [reflexivity|].
  split; [exact M|]. split; [|split]; apply lit_simple.
  - destruct S as [<-|[<-|[]]].
    + eapply lit_between; [dd "0"%string "0"%string|vm_compute; reflexivity..].
    + eapply lit_between; [dd "45"%string "0"%string|vm_compute; reflexivity..].
  - eapply lit_between; [dd "90"%string "0"%string|vm_compute; reflexivity..].
  - eapply lit_between; [dd "0"%string "0"%string|vm_compute; reflexivity..].
Qed.

Lemma area_ok : forall names rings rates mags, In names [[a_name]; []] ->
  (exists ext ints, rings = ext ++ ints /\ optional (ring_property EXTERIOR) ext /\ Forall (ring_property INTERIOR) ints) ->
  rates <> [] -> Forall (rate_model_type (AR := FOps lm) val) rates -> double_list mags ->
  area_source_type (AR := FOps lm) val (area_elem names rings rates mags).
Proof.
  intros names rings rates mags N (ext & ints & R & X & Y) NE F M. split; [discriminate|]. split; [reflexivity|].
  split; [apply attr_ok; now left|]. split; [discriminate|]. exists names. do 2 eexists. exists rates. do 2 eexists. split; [reflexivity|]. split.
  { exists names, []. rewrite app_nil_r. split; auto. split; [|now left]. exists [], names. split; auto. split; [now left|].
    destruct N as [<-|[<-|[]]]; [|constructor]. constructor; [|constructor]. apply lit_simple. exact I. }
  split. { apply lit_simple. eexists. split; [reflexivity|]. do 4 right. now left. }
  split. { split; [reflexivity|]. split; [apply no_attrs_ok|]. split; [discriminate|]. eexists. split; [reflexivity|].
           split; [reflexivity|]. split; [apply no_attrs_ok|]. split; [discriminate|]. exists [], ext, ints. split; [exact R|]. split; auto.
           exists [], []. split; auto. split; [now left|constructor]. }
  split; auto. split; auto. split.
  { split; [reflexivity|]. split; [apply no_attrs_ok|]. split; [discriminate|]. do 2 eexists. split; [reflexivity|]. split; [|split].
    - split; [reflexivity|]. split; [apply attr_ok; now left|]. split; auto.
    - intros v E. injection E as <-. now left.
    - apply lit_simple. exists [t "5000.0"; t "0.0"]. split; [right; eexists; split; [reflexivity|apply split_ws_iff; vm_compute; reflexivity]|].
      constructor; [split; [dd "5000"%string "0"%string|eexists; split; vm_compute; reflexivity]|].
      constructor; [split; [dd "0"%string "0"%string|eexists; split; vm_compute; reflexivity]|constructor]. }
  apply lit_simple. eapply lit_nonneg; [dd "5000"%string "0"%string|vm_compute; reflexivity|vm_compute; reflexivity].
Qed.

Lemma doc_ok : forall srcs, srcs <> [] ->
  Forall (fun s => area_source_type (AR := FOps lm) val s \/ opaque OTHER_SOURCES s) srcs ->
  NoDup (ids (doc_with srcs)) -> Forall nc_name (ids (doc_with srcs)) -> valid_document (AR := FOps lm) val (doc_with srcs).
Proof.
  intros srcs NE F A B. split; [|split; auto].
  split; [discriminate|]. split; [reflexivity|]. split; [apply attr_ok; now left|]. split; [discriminate|].
  assert (E0 : feature []). { exists [], []. split; auto. split; [|now left]. exists [], []. split; auto. split; [now left|constructor]. }
  eexists [], [_]. split; [reflexivity|]. split; [exact E0|]. right. eexists. split; [reflexivity|]. left.
  split; [discriminate|]. split; [reflexivity|]. split; [apply attr_ok; now left|]. split; [discriminate|].
  exists [], [Elem CONFIG [] None []], srcs. split; [reflexivity|]. split; [exact E0|]. split; [|split; auto].
  right. eexists. split; [reflexivity|]. split; [reflexivity|]. split; [apply no_attrs_ok|]. split; [discriminate|]. now left.
Qed.

Fixpoint nodupb (l : list text) : bool := match l with [] => true | a :: l => negb (existsb (text_eqb a) l) && nodupb l end.
Definition name_startb (c : ascii) : bool := let n := nat_of_ascii c in Nat.leb 97 n && Nat.leb n 122.
Definition ncb (s : text) : bool := match s with c :: r => name_startb c && forallb (fun c => let n := nat_of_ascii c in Nat.leb 97 n && Nat.leb n 122 || Nat.leb 48 n && Nat.leb n 57) r | [] => false end.
Lemma ncb_ok : forall s, ncb s = true -> nc_name s.
Proof.
  intros [|c r] H; [discriminate|]. unfold ncb in H. apply andb_true_iff in H. destruct H as (A & B). exists c, r. split; auto. split.
  - unfold name_startb in A. apply andb_true_iff in A. destruct A as (X & Y). apply Nat.leb_le in X, Y. red. lia.
  - apply Forall_forall. intros x I. rewrite forallb_forall in B. specialize (B x I). cbv zeta in B. apply orb_true_iff in B. unfold name_char, name_start.
    destruct B as [B|B]; apply andb_true_iff in B; destruct B as (X & Y); apply Nat.leb_le in X, Y; lia.
Qed.
Lemma nodupb_ok : forall l, nodupb l = true -> NoDup l.
Proof.
  induction l as [|a l IH]; intros H; [constructor|]. cbn in H. apply andb_true_iff in H. destruct H as (A & B). constructor; auto.
  intros I. apply negb_true_iff in A. assert (X : existsb (text_eqb a) l = true); [|congruence].
  apply existsb_exists. exists a. split; auto. now apply text_eqb_eq.
Qed.
Lemma names_ok : forall l, forallb ncb l = true -> Forall nc_name l.
Proof. intros l H. apply Forall_forall. intros s I. rewrite forallb_forall in H. apply ncb_ok. auto. Qed.

Lemma ext_ok : ring_property EXTERIOR ext_ring.
Proof.
  apply ring_ok; [now left|].
  assert (E : split_ws (t square_pos) = [t "20.0"; t "38.0"; t "21.0"; t "38.0"; t "21.0"; t "39.0"; t "20.0"; t "39.0"]) by (vm_compute; reflexivity). rewrite E.
  apply Forall_cons; [dd "20"%string "0"%string|].
  apply Forall_cons; [dd "38"%string "0"%string|].
  apply Forall_cons; [dd "21"%string "0"%string|].
  apply Forall_cons; [dd "38"%string "0"%string|].
  apply Forall_cons; [dd "21"%string "0"%string|].
  apply Forall_cons; [dd "39"%string "0"%string|].
  apply Forall_cons; [dd "20"%string "0"%string|].
  apply Forall_cons; [dd "39"%string "0"%string|].
  constructor.
Qed.
Lemma bare_ok : ring_property EXTERIOR (ring_elem EXTERIOR [] square_pos).
Proof.
  apply ring_ok; [right; now left|].
  assert (E : split_ws (t square_pos) = [t "20.0"; t "38.0"; t "21.0"; t "38.0"; t "21.0"; t "39.0"; t "20.0"; t "39.0"]) by (vm_compute; reflexivity). rewrite E.
  apply Forall_cons; [dd "20"%string "0"%string|].
  apply Forall_cons; [dd "38"%string "0"%string|].
  apply Forall_cons; [dd "21"%string "0"%string|].
  apply Forall_cons; [dd "38"%string "0"%string|].
  apply Forall_cons; [dd "21"%string "0"%string|].
  apply Forall_cons; [dd "39"%string "0"%string|].
  apply Forall_cons; [dd "20"%string "0"%string|].
  apply Forall_cons; [dd "39"%string "0"%string|].
  constructor.
Qed.
Lemma odd_ok : ring_property EXTERIOR (ring_elem EXTERIOR SRS "20.0 38.0 21.0").
Proof.
  apply ring_ok; [now left|].
  assert (E : split_ws (t "20.0 38.0 21.0") = [t "20.0"; t "38.0"; t "21.0"]) by (vm_compute; reflexivity). rewrite E.
  apply Forall_cons; [dd "20"%string "0"%string|].
  apply Forall_cons; [dd "38"%string "0"%string|].
  apply Forall_cons; [dd "21"%string "0"%string|].
  constructor.
Qed.
Lemma hole_ok : ring_property INTERIOR hole_ring.
Proof.
  apply ring_ok; [now left|].
  assert (E : split_ws (t hole_pos) = [t "20.2"; t "38.2"; t "20.8"; t "38.2"; t "20.8"; t "38.8"]) by (vm_compute; reflexivity). rewrite E.
  apply Forall_cons; [dd "20"%string "2"%string|].
  apply Forall_cons; [dd "38"%string "2"%string|].
  apply Forall_cons; [dd "20"%string "8"%string|].
  apply Forall_cons; [dd "38"%string "2"%string|].
  apply Forall_cons; [dd "20"%string "8"%string|].
  apply Forall_cons; [dd "38"%string "8"%string|].
  constructor.
Qed.
Lemma mags_ok : double_list mags2.
Proof.
  apply lit_list. assert (E : split_ws (t "6.0 7.0") = [t "6.0"; t "7.0"]) by (vm_compute; reflexivity). rewrite E.
  constructor; [dd "6"%string "0"%string|]. constructor; [dd "7"%string "0"%string|constructor]. Qed.
Lemma no_mags_ok : double_list None.
Proof. exists []. split; [left; auto|constructor]. Qed.
Lemma a_rate_ok : rate_model_type (AR := FOps lm) val a_rate.
Proof. apply rate_ok; [left; apply tgr_ok; now left|now left]. Qed.

Lemma rings_ext : forall r ints, ring_property EXTERIOR r -> Forall (ring_property INTERIOR) ints ->
  exists ext ints', r :: ints = ext ++ ints' /\ optional (ring_property EXTERIOR) ext /\ Forall (ring_property INTERIOR) ints'.
Proof. intros r ints R F. exists [r], ints. split; auto. split; auto. right. eauto. Qed.

Ltac area := apply area_ok; [first [now left|right; now left]|first [apply rings_ext; [first [exact ext_ok|exact odd_ok|exact bare_ok]|first [apply Forall_nil|apply Forall_cons; [exact hole_ok|apply Forall_nil]]]
      |exists [], []; split; [reflexivity|split; [now left|constructor]]]|discriminate| |first [exact mags_ok|exact no_mags_ok]].
Ltac one := apply Forall_cons; [exact a_rate_ok|apply Forall_nil].

Lemma plain_ok : area_source_type (AR := FOps lm) val plain_area. Proof. area. one. Qed.
Lemma unnamed_ok : area_source_type (AR := FOps lm) val unnamed. Proof. area. one. Qed.
Lemma discretised_ok : area_source_type (AR := FOps lm) val discretised.
Proof. area. apply Forall_cons; [|apply Forall_nil]. apply rate_ok; [right; exact evenly_ok|now left]. Qed.
Lemma odd_ring_ok : area_source_type (AR := FOps lm) val odd_ring. Proof. area. one. Qed.
Lemma no_ring_ok : area_source_type (AR := FOps lm) val no_ring. Proof. area. one. Qed.
Lemma no_mags_area_ok : area_source_type (AR := FOps lm) val no_mags. Proof. area. one. Qed.
Lemma with_hole_ok : area_source_type (AR := FOps lm) val with_hole. Proof. area. one. Qed.
Lemma two_rates_ok : area_source_type (AR := FOps lm) val two_rates.
Proof. area. apply Forall_cons; [exact a_rate_ok|]. apply Forall_cons; [|apply Forall_nil]. apply rate_ok; [left; apply tgr_ok; now left|right; now left]. Qed.
Lemma no_srs_ok : area_source_type (AR := FOps lm) val no_srs. Proof. area. one. Qed.
Lemma no_type_ok : area_source_type (AR := FOps lm) val no_type.
Proof. area. apply Forall_cons; [|apply Forall_nil]. apply rate_ok; [left; apply tgr_ok; right; now left|now left]. Qed.
Lemma point_ok : opaque OTHER_SOURCES point_source.
Proof. split; [now left|]. intros k []. Qed.

Ltac whole L := apply doc_ok; [discriminate|apply Forall_cons; [first [left; exact L|right; exact L]|apply Forall_nil]|apply nodupb_ok; vm_compute; reflexivity|apply names_ok; vm_compute; reflexivity].
Notation valid d := (valid_document (AR := FOps lm) val d).
Lemma plain_doc : valid (doc_with [plain_area]). Proof. whole plain_ok. Qed.

(** ** What the reader makes of them *)

Definition num (s : string) : spec_float := match py_float (t s) with Some x => x | None => S754_nan end.
Definition sample (srs ty : option text) : area_source (FOps lm) :=
  mkSource (AR := FOps lm) (Some (t "n1")) (Some (t "sm1")) (Some (t "a")) (Some (t "zone")) (Some (t "Volcanic"))
    (mkBoundary (AR := FOps lm) srs [(num "20.0", num "38.0"); (num "21.0", num "38.0"); (num "21.0", num "39.0"); (num "20.0", num "39.0")])
    (mkRate (AR := FOps lm) (mkTgr (AR := FOps lm) (num "5.0") (num "0.8") (num "5.0") (num "7.0") ty) (num "0.0") (num "90.0") (num "0.0"))
    (mkDepth (AR := FOps lm) (Some (t "ML")) [num "6.0"; num "7.0"] [num "5000.0"; num "0.0"]) (num "5000.0") None None None.
Definition plain_source := sample (Some (t "EPSG:4326")) (Some (t "ML")).

Notation reads d ss x := (read_doc (AR := FOps lm) val d = (ss, x)).
Ltac computed := match goal with |- @eq ?A _ ?r => vm_cast_no_check (@eq_refl A r) end.

Lemma plain_reads : reads (doc_with [plain_area]) [plain_source] None. Proof. computed. Qed.

(** C102. *)
Lemma C102_refuted_proof :
  (valid (doc_with [unnamed]) /\ reads (doc_with [unnamed]) [] (Some AttributeError)) /\
  (valid (doc_with [discretised]) /\ reads (doc_with [discretised]) [] (Some AttributeError)) /\
  (valid (doc_with [odd_ring]) /\ reads (doc_with [odd_ring]) [] (Some IndexError)) /\
  (valid (doc_with [no_ring]) /\ reads (doc_with [no_ring]) [] (Some AttributeError)) /\
  (valid (doc_with [no_mags]) /\ reads (doc_with [no_mags]) [] (Some AttributeError)).
Proof.
  split; [|split; [|split; [|split]]]; (split; [|computed]).
  - whole unnamed_ok.
  - whole discretised_ok.
  - whole odd_ring_ok.
  - whole no_ring_ok.
  - whole no_mags_area_ok.
Qed.

(** C103. *)
Lemma C103_refuted_proof :
  valid (doc_with [with_hole]) /\ valid (doc_with [two_rates]) /\ valid (doc_with [plain_area]) /\
  (exists s, reads (doc_with [with_hole]) [s] None /\ reads (doc_with [two_rates]) [s] None /\ reads (doc_with [plain_area]) [s] None) /\
  without_details with_hole plain_area /\ without_details two_rates plain_area /\ with_hole <> plain_area /\ two_rates <> plain_area.
Proof.
  split; [whole with_hole_ok|]. split; [whole two_rates_ok|]. split; [exact plain_doc|].
  split; [exists plain_source; split; [computed|split; computed]|].
  split; [exact (wd [(GML_ID, t "a")] None [a_name] (lit_elem TECTONIC_REGION "Volcanic") [] None [] None [] [] None [Elem LINEAR_RING SRS None [lit_elem POS_LIST square_pos]] [hole_ring] a_rate [] _ _)|].
  split; [exact (wd [(GML_ID, t "a")] None [a_name] (lit_elem TECTONIC_REGION "Volcanic") [] None [] None [] [] None [Elem LINEAR_RING SRS None [lit_elem POS_LIST square_pos]] [] a_rate [rate_elem (tgr_elem ML) "45.0"] _ _)|].
  split; intros E.
  - assert (X : length (flat_map iter_elems (x_kids with_hole)) = length (flat_map iter_elems (x_kids plain_area))) by now rewrite E.
    vm_compute in X. discriminate X.
  - assert (X : length (x_kids two_rates) = length (x_kids plain_area)) by now rewrite E. vm_compute in X. discriminate X.
Qed.

(** C104. *)
Lemma C104_refuted_proof :
  (exists s, valid (doc_with [no_srs]) /\ reads (doc_with [no_srs]) [s] None /\
     write_doc (AR := FOps lm) py_str printableb [s] = Err TypeError) /\
  (exists s, valid (doc_with [no_type]) /\ reads (doc_with [no_type]) [s] None /\
     write_doc (AR := FOps lm) py_str printableb [s] = Err TypeError) /\
  (valid (doc_with [point_source]) /\ reads (doc_with [point_source]) [] None /\
     write_doc (AR := FOps lm) py_str printableb [] = Err IndexError).
Proof.
  split; [|split].
  - exists (sample None (Some (t "ML"))). split; [whole no_srs_ok|]. split; computed.
  - exists (sample (Some (t "EPSG:4326")) None). split; [whole no_type_ok|]. split; computed.
  - split; [whole point_ok|]. split; [computed|reflexivity].
Qed.

(** ** Cases *)

Definition acceptedb (d : xml) : bool :=
  forallb (fun p => match x_text (snd p) with Some s => printableb s | None => true end && forallb (fun a => printableb (snd a)) (x_attrs (snd p)))
    (located [] d).
Lemma acceptedb_ok : forall d, acceptedb d = true -> all_accepted printableb d.
Proof.
  intros d H p I. unfold acceptedb in H. rewrite forallb_forall in H. specialize (H p I). apply andb_true_iff in H. destruct H as (A & B). split.
  - intros s E. now rewrite E in A.
  - intros a J. rewrite forallb_forall in B. now apply B.
Qed.

Lemma writes_ok : forall s, (match write_doc (AR := FOps lm) py_str printableb [s] with Ok _ => true | Err _ => false end) = true ->
  exists d, write_doc (AR := FOps lm) py_str printableb [s] = Ok d.
Proof. intros s H. destruct (write_doc _ _ _); [eauto|discriminate]. Qed.

Lemma plain_writes : exists d, write_doc (AR := FOps lm) py_str printableb [plain_source] = Ok d.
Proof. apply writes_ok. computed. Qed.

(** The plain document meets every condition. *)
Lemma plain_case : valid (doc_with [plain_area]) /\ area_elements (doc_with [plain_area]) <> [] /\
  Forall (fun p => readable (snd p)) (area_elements (doc_with [plain_area])) /\
  Forall (fun p => labelled (snd p)) (area_elements (doc_with [plain_area])) /\
  all_accepted printableb (doc_with [plain_area]) /\ reads (doc_with [plain_area]) [plain_source] None.
Proof.
  assert (AC : all_accepted printableb (doc_with [plain_area])) by (apply acceptedb_ok; vm_compute; reflexivity).
  pose proof (read_written (AR := FOps lm) val py_str printableb printableb_ok py_str_word _ [plain_source] plain_doc AC plain_reads) as RW.
  destruct (proj1 RW plain_writes) as (NE & LB).
  split; [exact plain_doc|]. split; auto. split; [|split; [exact LB|split; [exact AC|exact plain_reads]]].
  apply (valid_read (AR := FOps lm) val (py_reads_doubles lm) _ plain_doc). exists [plain_source]. exact plain_reads.
Qed.

(** C105. *)
Definition unbounded : area_source (FOps lm) :=
  let s := plain_source in let r := as_rate s in let g := rm_tgr r in
  mkSource (AR := FOps lm) (as_nrml_id s) (as_sm_id s) (as_id s) (as_name s) (as_tect s) (as_boundary s)
    (mkRate (AR := FOps lm) (mkTgr (AR := FOps lm) (tg_a g) (tg_b g) (tg_min g) (S754_infinity false) (tg_type g)) (rm_strike r) (rm_dip r) (rm_rake r))
    (as_depth s) (as_hypo s) None None None.

Lemma blank_indent : forall n s, demo_indent n = Some s -> blanks s.
Proof.
  intros n s E. assert (X : s = chr_lf :: repeat chr_space (2 * S n)) by (unfold demo_indent in E; congruence). rewrite X.
  constructor; [reflexivity|]. apply Forall_forall. intros c I. apply (repeat_spec (2 * S n)) in I. now rewrite I.
Qed.

Lemma some_two : forall (l : list text) a b r, map Some l = Some a :: Some b :: r -> exists l', l = a :: b :: l'.
Proof. intros [|x [|y l]] a b r H; try discriminate. cbn in H. injection H as -> -> _. eauto. Qed.
Lemma some_three : forall (l : list text) a b c, map Some l = [Some a; Some b; Some c] -> l = [a; b; c].
Proof. intros [|x [|y [|z [|w l]]]] a b c H; try discriminate. cbn in H. now injection H as -> -> ->. Qed.

Lemma C105_refuted_proof :
  (exists d, write_doc (AR := FOps lm) py_str printableb [default_area_source] = Ok d /\ ~ valid (reparsed demo_indent 0 d)) /\
  (exists d, write_doc (AR := FOps lm) py_str printableb [unbounded] = Ok d /\ ~ valid (reparsed demo_indent 0 d) /\
     as_tect unbounded = Some (t "Volcanic") /\ tg_max (rm_tgr (as_rate unbounded)) = S754_infinity false).
Proof.
  split.
  - destruct (writes_ok default_area_source) as (d & E); [computed|]. exists d. split; auto. intros V.
    destruct (written_valid (AR := FOps lm) val py_str printableb demo_indent py_str_word blank_indent _ _ E) as (s0 & sl & X & l & L & WV).
    injection X as <- <-. apply WV in V. destruct V as (ND & _).
    destruct (some_two l (t "MTK") (t "MTK") [Some (t "MTK")] L) as (l' & ->). inversion ND as [|? ? N _]; subst. apply N. now left.
  - destruct (writes_ok unbounded) as (d & E); [computed|]. exists d. split; auto. split; [|split; reflexivity]. intros V.
    destruct (written_valid (AR := FOps lm) val py_str printableb demo_indent py_str_word blank_indent _ _ E) as (s0 & sl & X & l & L & WV).
    apply WV in V. destruct V as (_ & _ & F). inversion F as [|? ? F1 _]; subst. destruct F1 as [_ _ D _ _].
    rewrite Forall_forall in D. assert (I : xs_double (py_str (S754_infinity false))).
    { apply D. apply in_app_iff. right. apply in_app_iff. right. right. right. now left. }
    apply py_str_double in I. exact I.
Qed.

(** A written document that is valid. *)
Lemma C105_case_proof : exists d, write_doc (AR := FOps lm) py_str printableb [plain_source] = Ok d /\ valid (reparsed demo_indent 0 d).
Proof.
  destruct plain_writes as (d & E). exists d. split; auto.
  destruct (written_valid (AR := FOps lm) val py_str printableb demo_indent py_str_word blank_indent _ _ E) as (s0 & sl & X & l & L & WV).
  injection X as <- <-. apply WV. assert (El : l = [t "n1"; t "sm1"; t "a"]) by exact (some_three l _ _ _ L).
  subst l. split; [apply nodupb_ok; vm_compute; reflexivity|]. split; [apply names_ok; vm_compute; reflexivity|].
  constructor; [|constructor]. 
  assert (FD : forall x y : spec_float, x = y -> match y with S754_zero _ | S754_finite _ _ _ => True | _ => False end -> xs_double (py_str x)).
  { intros x y -> H. apply py_str_double. destruct y; auto. }
  constructor.
  - exists (t "Volcanic"). split; [reflexivity|]. do 4 right. now left.
  - exists (t "ML"), (t "ML"). split; [reflexivity|]. split; [now left|]. split; [reflexivity|now left].
  - cbn [flat_points flat_map fst snd app as_boundary as_depth as_rate plain_source sample ab_pos dd_mags rm_tgr tg_a tg_min tg_max].
    repeat (apply Forall_cons; [eapply FD; [vm_compute; reflexivity|exact I]|]). constructor.
  - split; [|split]; (split; [eapply FD; [vm_compute; reflexivity|exact I]|]);
      eexists; (split; [vm_compute; reflexivity|split; vm_compute; reflexivity]).
  - repeat (apply Forall_cons; [split; [eapply FD; [vm_compute; reflexivity|exact I]|eexists; split; vm_compute; reflexivity]|]). constructor.
Qed.

End Samples.
