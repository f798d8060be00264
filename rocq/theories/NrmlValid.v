(** Reading the documents that the NRML schema allows. *)
From Coq Require Import ZArith Bool Ascii String List Lia.
From Verif Require Import Base Ops BaseFacts PyStr SourceModel Nrml NrmlSpec NrmlRead NrmlRound NrmlFinal NrmlSchema.
Import ListNotations.
Local Open Scope nat_scope.

(** ** Tags *)

(** All elements in and below the list have one of the tags. *)
Definition only (tags : list string) (l : list xml) : Prop := forall k, In k (flat_map iter_elems l) -> In (x_tag k) tags.

Lemma iter_split : forall e, iter_elems e = e :: below e.
Proof. intros [g a x ks]. now rewrite below_desc. Qed.

Lemma only_nil : forall tags, only tags []. Proof. intros tags k []. Qed.
Lemma only_app : forall tags l l', only tags l -> only tags l' -> only tags (l ++ l').
Proof. intros tags l l' A B k I. rewrite flat_map_app in I. apply in_app_iff in I. destruct I; auto. Qed.
Lemma only_cons : forall tags e l, only tags [e] -> only tags l -> only tags (e :: l).
Proof. intros tags e l A B. apply (only_app tags [e] l); auto. Qed.
Lemma only_one : forall tags e, In (x_tag e) tags -> only tags (x_kids e) -> only tags [e].
Proof.
  intros tags e A B k I. cbn [flat_map] in I. rewrite app_nil_r, iter_split in I. destruct I as [<-|I]; auto.
  rewrite below_desc in I. auto.
Qed.
Lemma only_sub : forall tags tags' l, incl tags tags' -> only tags l -> only tags' l.
Proof. intros tags tags' l A B k I. auto. Qed.
Lemma only_Forall : forall tags l, Forall (fun e => only tags [e]) l -> only tags l.
Proof. intros tags l H. induction H; [apply only_nil|now apply only_cons]. Qed.

Lemma simple_only : forall tag names ok e tags, simple tag names ok e -> In tag tags -> only tags [e].
Proof. intros tag names ok e tags (A & _ & B & _) I. apply only_one; [now rewrite A|]. rewrite B. apply only_nil. Qed.

Lemma simple_below : forall tag names ok e, simple tag names ok e -> iter_elems e = [e].
Proof. intros tag names ok e (_ & _ & B & _). rewrite iter_split, below_desc, B. reflexivity. Qed.

Lemma only_none : forall tags tag l, only tags l -> ~ In tag tags -> forall k, In k (flat_map iter_elems l) -> x_tag k <> tag.
Proof. intros tags tag l A N k I E. apply N. rewrite <- E. now apply A. Qed.

(** Are the strings of the list different from [tag]?  Decided by computation. *)
Lemma not_in_b : forall tag tags, existsb (String.eqb tag) tags = false -> ~ In tag tags.
Proof.
  intros tag tags H I. assert (E : existsb (String.eqb tag) tags = true); [|congruence].
  apply existsb_exists. exists tag. split; auto. apply String.eqb_refl.
Qed.
Lemma incl_b : forall tags tags', forallb (fun a => existsb (String.eqb a) tags') tags = true -> incl tags tags'.
Proof.
  intros tags tags' H a I. rewrite forallb_forall in H. specialize (H a I). apply existsb_exists in H.
  destruct H as (b & J & E). apply String.eqb_eq in E. now subst.
Qed.
Lemma in_b : forall tag tags, existsb (String.eqb tag) tags = true -> In tag tags.
Proof. intros tag tags H. apply existsb_exists in H. destruct H as (b & J & E). apply String.eqb_eq in E. now subst. Qed.

Ltac tin := solve [apply in_b; vm_compute; reflexivity].
Ltac tout := solve [apply not_in_b; vm_compute; reflexivity].
Ltac tincl := solve [apply incl_b; vm_compute; reflexivity].
Ltac ol := lazymatch goal with
  | |- only _ [] => apply only_nil
  | |- only _ [_] => eapply simple_only; [eassumption|tin]
  | |- only _ (_ :: _) => apply only_cons; ol end.
Ltac tneq := match goal with |- ?a = ?b -> False => change (a <> b) | |- _ => idtac end;
  solve [apply String.eqb_neq; vm_compute; reflexivity].

(** ** The first element with a tag *)

Lemma first_at : forall tag pre k post, x_tag k = tag -> (forall y, In y pre -> x_tag y <> tag) -> first_tagged tag (pre ++ k :: post) k.
Proof. intros tag pre k post A B. exists pre, post. auto. Qed.

Lemma first_in : forall tag l k, first_tagged tag l k -> In k l /\ x_tag k = tag.
Proof. intros tag l k (pre & post & -> & A & _). split; auto. apply in_app_iff. right. now left. Qed.

Lemma first_some : forall tag l k, In k l -> x_tag k = tag -> exists k', first_tagged tag l k'.
Proof.
  intros tag l k I E. destruct (find (fun k => String.eqb (x_tag k) tag) l) as [k'|] eqn:F.
  - exists k'. now apply find_iff.
  - exfalso. apply (find_none _ _ F) in I. rewrite E, String.eqb_refl in I. discriminate.
Qed.

Lemma first_mid : forall tag l m l' k, (forall y, In y l -> x_tag y <> tag) -> (forall y, In y l' -> x_tag y <> tag) ->
  (first_tagged tag (l ++ m ++ l') k <-> first_tagged tag m k).
Proof.
  intros tag l m l' k A B. split.
  - intros F. assert (G := first_in _ _ _ F). destruct G as (I & E). apply in_app_iff in I.
    destruct I as [I|I]; [elim (A _ I E)|]. apply in_app_iff in I. destruct I as [I|I]; [|elim (B _ I E)].
    destruct (first_some tag m k I E) as (k' & F'). rewrite (first_unique tag (l ++ m ++ l') k k'); auto.
    destruct F' as (pre & post & -> & E' & N). exists (l ++ pre), (post ++ l'). split; [now rewrite <- !app_assoc|].
    split; auto. intros y J. apply in_app_iff in J. destruct J; auto.
  - intros (pre & post & -> & E' & N). exists (l ++ pre), (post ++ l'). split; [now rewrite <- !app_assoc|].
    split; auto. intros y J. apply in_app_iff in J. destruct J; auto.
Qed.

Lemma first_tag_only : forall tag l m l' k, (forall y, In y l -> x_tag y <> tag) -> x_tag m = tag ->
  first_tagged tag (l ++ m :: l') k -> k = m.
Proof. intros tag l m l' k A B F. eapply first_unique; [exact F|]. now apply first_at. Qed.

(** ** The parts of an area source *)

Section Valid.
Context {AR : Ops}.
Variable value : text -> option T.

Definition FEATURE_TAGS : list string := [DESCRIPTION; GML_NAME; BOUNDED_BY; ENVELOPE; LOWER_CORNER; UPPER_CORNER].
Definition BOUNDARY_TAGS : list string := [AREA_BOUNDARY; POLYGON; EXTERIOR; INTERIOR; LINEAR_RING; DESCRIPTION; GML_NAME; POS_LIST].
Definition RATE_TAGS : list string :=
  [RUPTURE_RATE_MODEL; TRUNCATED_GUTEN_RICHTER; EVENLY_MFD; A_VALUE_CUMULATIVE; B_VALUE; MIN_MAGNITUDE; MAX_MAGNITUDE; STRIKE; DIP; RAKE].
Definition DEPTH_TAGS : list string := [RUPTURE_DEPTH_DISTRIB; MAGNITUDE; DEPTH].

Lemma optional_Forall : forall P l, optional P l -> Forall P l.
Proof. intros P l [->|(e & -> & H)]; repeat constructor; auto. Qed.

Lemma standard_only : forall ks, standard ks -> only [DESCRIPTION; GML_NAME] ks.
Proof.
  intros ks (ds & ns & -> & A & B). apply only_app; apply only_Forall.
  - apply optional_Forall in A. revert A. apply Forall_impl. intros e H. eapply simple_only; [exact H|tin].
  - revert B. apply Forall_impl. intros e H. eapply simple_only; [exact H|tin].
Qed.

Lemma feature_only : forall ks, feature ks -> only FEATURE_TAGS ks.
Proof.
  intros ks (st & bb & -> & A & B). apply only_app.
  - apply (only_sub [DESCRIPTION; GML_NAME]); [tincl|now apply standard_only].
  - apply only_Forall. apply optional_Forall in B. revert B. apply Forall_impl.
    intros e (G & _ & _ & c & K & (G' & _ & _ & lo & hi & K' & L & H) & _).
    apply only_one; [rewrite G; tin|]. rewrite K. apply only_one; [rewrite G'; tin|]. rewrite K'.
    ol.
Qed.

Lemma ring_property_only : forall tag e, In tag [EXTERIOR; INTERIOR] -> ring_property tag e -> only BOUNDARY_TAGS [e].
Proof.
  intros tag e I (G & _ & _ & r & K & (G' & _ & _ & st & l & K' & S & L)).
  apply only_one; [rewrite G; destruct I as [<-|[<-|[]]]; tin|]. rewrite K. apply only_one; [rewrite G'; tin|]. rewrite K'.
  apply only_app; [apply (only_sub [DESCRIPTION; GML_NAME]); [tincl|now apply standard_only]|].
  eapply simple_only; [exact L|tin].
Qed.

Lemma boundary_only : forall e, area_boundary e -> only BOUNDARY_TAGS [e].
Proof.
  intros e (G & _ & _ & p & K & (G' & _ & _ & st & ext & ints & K' & S & X & I)).
  apply only_one; [rewrite G; tin|]. rewrite K. apply only_one; [rewrite G'; tin|]. rewrite K'.
  apply only_app; [apply (only_sub [DESCRIPTION; GML_NAME]); [tincl|now apply standard_only]|].
  apply only_app; apply only_Forall.
  - apply optional_Forall in X. revert X. apply Forall_impl. intros q. apply ring_property_only. now left.
  - revert I. apply Forall_impl. intros q. apply ring_property_only. right. now left.
Qed.

Lemma rate_only : forall e, rate_model_type value e -> only RATE_TAGS [e].
Proof.
  intros e (G & _ & _ & m & s & d & k & K & M & S & D & R).
  apply only_one; [rewrite G; tin|]. rewrite K. apply only_cons.
  - destruct M as [(_ & G' & _ & _ & a & b & mn & mx & K' & A & B & C & E)|(_ & M & _)].
    + apply only_one; [rewrite G'; tin|]. rewrite K'.
      ol.
    + ol.
  - ol.
Qed.

Lemma depth_only : forall e, depth_distribution value e -> only DEPTH_TAGS [e].
Proof.
  intros e (G & _ & _ & m & d & K & M & _ & D).
  apply only_one; [rewrite G; tin|]. rewrite K.
  ol.
Qed.

(** The parts of a valid areaSource and their tags. *)
Record parts (e : xml) (ft : list xml) (tr ab : xml) (rs : list xml) (dd h : xml) : Prop := {
  pt_kids : x_kids e = ft ++ [tr; ab] ++ rs ++ [dd; h];
  pt_feature : feature ft;
  pt_tect : tectonic_region tr;
  pt_bound : area_boundary ab;
  pt_rate : rs <> [] /\ Forall (rate_model_type value) rs;
  pt_depth : depth_distribution value dd;
  pt_hypo : simple HYPOCENTRAL_DEPTH [] (non_negative value) h }.

Lemma parts_of : forall e, area_source_type value e -> exists ft tr ab rs dd h, parts e ft tr ab rs dd h.
Proof.
  intros e (_ & _ & _ & _ & ft & tr & ab & rs & dd & h & K & A & B & C & D & E & F & G).
  exists ft, tr, ab, rs, dd, h. constructor; auto.
Qed.

Section Parts.
Variables (e : xml) (ft : list xml) (tr ab : xml) (rs : list xml) (dd h : xml).
Hypothesis P : parts e ft tr ab rs dd h.

Lemma o_ft : only FEATURE_TAGS ft. Proof. apply feature_only, (pt_feature _ _ _ _ _ _ _ P). Qed.
Lemma o_tr : only [TECTONIC_REGION] [tr]. Proof. eapply simple_only; [exact (pt_tect _ _ _ _ _ _ _ P)|now left]. Qed.
Lemma o_ab : only BOUNDARY_TAGS [ab]. Proof. apply boundary_only, (pt_bound _ _ _ _ _ _ _ P). Qed.
Lemma o_rs : only RATE_TAGS rs.
Proof. apply only_Forall. destruct (pt_rate _ _ _ _ _ _ _ P) as (_ & F). revert F. apply Forall_impl. apply rate_only. Qed.
Lemma o_dd : only DEPTH_TAGS [dd]. Proof. apply depth_only, (pt_depth _ _ _ _ _ _ _ P). Qed.
Lemma o_h : only [HYPOCENTRAL_DEPTH] [h]. Proof. eapply simple_only; [exact (pt_hypo _ _ _ _ _ _ _ P)|now left]. Qed.

Lemma kid_iter : forall (l : list xml) k, In k l -> In k (flat_map iter_elems l).
Proof. intros l k I. apply in_flat_map. exists k. split; auto. rewrite iter_split. now left. Qed.

Lemma t_tr : x_tag tr = TECTONIC_REGION. Proof. apply (pt_tect _ _ _ _ _ _ _ P). Qed.
Lemma t_ab : x_tag ab = AREA_BOUNDARY. Proof. apply (pt_bound _ _ _ _ _ _ _ P). Qed.
Lemma t_dd : x_tag dd = RUPTURE_DEPTH_DISTRIB. Proof. apply (pt_depth _ _ _ _ _ _ _ P). Qed.
Lemma t_h : x_tag h = HYPOCENTRAL_DEPTH. Proof. apply (pt_hypo _ _ _ _ _ _ _ P). Qed.

Lemma below_parts : below e = flat_map iter_elems (ft ++ [tr]) ++ (ab :: below ab) ++ flat_map iter_elems (rs ++ [dd; h]).
Proof.
  rewrite below_desc, (pt_kids _ _ _ _ _ _ _ P). rewrite !flat_map_app. cbn [flat_map]. rewrite !app_nil_r, (iter_split ab).
  now rewrite <- !app_assoc.
Qed.

Lemma below_parts2 : below e = flat_map iter_elems (ft ++ [tr; ab] ++ rs) ++ (dd :: below dd) ++ iter_elems h.
Proof.
  rewrite below_desc, (pt_kids _ _ _ _ _ _ _ P). rewrite !flat_map_app. cbn [flat_map]. rewrite !app_nil_r, (iter_split dd).
  now rewrite <- !app_assoc.
Qed.

(** No areaSource inside. *)
Lemma parts_no_area : forall k, In k (below e) -> x_tag k <> AREA_SOURCE.
Proof.
  intros k I. rewrite below_desc, (pt_kids _ _ _ _ _ _ _ P) in I.
  apply (only_none (FEATURE_TAGS ++ [TECTONIC_REGION] ++ BOUNDARY_TAGS ++ RATE_TAGS ++ DEPTH_TAGS ++ [HYPOCENTRAL_DEPTH]) AREA_SOURCE
    (ft ++ [tr; ab] ++ rs ++ [dd; h])); auto; [|tout].
  apply only_app; [eapply only_sub; [|apply o_ft]; tincl|]. cbn [app].
  apply only_cons; [eapply only_sub; [|apply o_tr]; tincl|]. apply only_cons; [eapply only_sub; [|apply o_ab]; tincl|].
  apply only_app; [eapply only_sub; [|apply o_rs]; tincl|].
  apply only_cons; [eapply only_sub; [|apply o_dd]; tincl|eapply only_sub; [|apply o_h]; tincl].
Qed.

Lemma in_ft : forall tag, ~ In tag FEATURE_TAGS -> forall y, In y ft -> x_tag y <> tag.
Proof. intros tag N y I. apply (only_none _ tag _ o_ft N). now apply kid_iter. Qed.
Lemma in_rs : forall tag, ~ In tag RATE_TAGS -> forall y, In y rs -> x_tag y <> tag.
Proof. intros tag N y I. apply (only_none _ tag _ o_rs N). now apply kid_iter. Qed.

Lemma f_tr : first_tagged TECTONIC_REGION (x_kids e) tr.
Proof. rewrite (pt_kids _ _ _ _ _ _ _ P). apply first_at; [apply t_tr|apply in_ft; tout]. Qed.

Lemma f_ab : first_tagged AREA_BOUNDARY (x_kids e) ab.
Proof.
  rewrite (pt_kids _ _ _ _ _ _ _ P). change (ft ++ [tr; ab] ++ rs ++ [dd; h]) with (ft ++ [tr] ++ ab :: rs ++ [dd; h]).
  rewrite app_assoc. apply first_at; [apply t_ab|]. intros y I. apply in_app_iff in I.
  destruct I as [I|[<-|[]]]; [revert I; apply in_ft; tout|]. rewrite t_tr. tneq.
Qed.

Lemma f_rate : exists r rs', rs = r :: rs' /\ first_tagged RUPTURE_RATE_MODEL (x_kids e) r /\ rate_model_type value r.
Proof.
  destruct (pt_rate _ _ _ _ _ _ _ P) as (N & F). rewrite (pt_kids _ _ _ _ _ _ _ P).
  assert (Q : exists r rs', rs = r :: rs' /\ rate_model_type value r).
  { inversion F as [Z|r rs' R F' Z]; [congruence|]. eauto. }
  destruct Q as (r & rs' & Q & R). rewrite Q. exists r, rs'. split; auto. split; auto.
  change (ft ++ [tr; ab] ++ (r :: rs') ++ [dd; h]) with (ft ++ [tr; ab] ++ r :: rs' ++ [dd; h]).
  rewrite app_assoc. apply first_at; [apply R|]. intros y I. apply in_app_iff in I.
  destruct I as [I|[<-|[<-|[]]]]; [revert I; apply in_ft; tout|rewrite t_tr; tneq|rewrite t_ab; tneq].
Qed.

Lemma f_dd : first_tagged RUPTURE_DEPTH_DISTRIB (x_kids e) dd.
Proof.
  rewrite (pt_kids _ _ _ _ _ _ _ P). rewrite !app_assoc.
  apply first_at; [apply t_dd|]. intros y I. apply in_app_iff in I. destruct I as [I|I].
  - apply in_app_iff in I. destruct I as [I|[<-|[<-|[]]]]; [revert I; apply in_ft; tout|rewrite t_tr; tneq|rewrite t_ab; tneq].
  - revert I. apply in_rs. tout.
Qed.

Lemma f_h : first_tagged HYPOCENTRAL_DEPTH (x_kids e) h.
Proof.
  rewrite (pt_kids _ _ _ _ _ _ _ P). rewrite !app_assoc.
  change (((ft ++ [tr; ab]) ++ rs) ++ [dd; h]) with (((ft ++ [tr; ab]) ++ rs) ++ [dd] ++ h :: []). rewrite app_assoc.
  apply first_at; [apply t_h|]. intros y I. apply in_app_iff in I. destruct I as [I|[<-|[]]]; [|rewrite t_dd; tneq].
  apply in_app_iff in I. destruct I as [I|I].
  - apply in_app_iff in I. destruct I as [I|[<-|[<-|[]]]]; [revert I; apply in_ft; tout|rewrite t_tr; tneq|rewrite t_ab; tneq].
  - revert I. apply in_rs. tout.
Qed.

Lemma pos_below : forall l, first_tagged POS_LIST (below e) l <-> first_tagged POS_LIST (below ab) l.
Proof.
  intros l. rewrite below_parts. change (ab :: below ab) with ([ab] ++ below ab). rewrite !app_assoc.
  rewrite <- app_assoc. apply first_mid.
  - intros y I. apply in_app_iff in I. destruct I as [I|[<-|[]]]; [|rewrite t_ab; tneq].
    revert y I. apply (only_none (FEATURE_TAGS ++ [TECTONIC_REGION])); [|tout].
    apply only_app; [eapply only_sub; [|apply o_ft]; tincl|eapply only_sub; [|apply o_tr]; tincl].
  - apply (only_none (RATE_TAGS ++ DEPTH_TAGS ++ [HYPOCENTRAL_DEPTH])); [|tout].
    apply only_app; [eapply only_sub; [|apply o_rs]; tincl|].
    apply only_cons; [eapply only_sub; [|apply o_dd]; tincl|eapply only_sub; [|apply o_h]; tincl].
Qed.

Lemma depth_below : forall tag l, In tag [MAGNITUDE; DEPTH] -> (first_tagged tag (below e) l <-> first_tagged tag (x_kids dd) l).
Proof.
  intros tag l IT. assert (B : below dd = x_kids dd).
  { destruct (pt_depth _ _ _ _ _ _ _ P) as (_ & _ & _ & m & d & K & M & _ & D). rewrite below_desc, K. cbn [flat_map].
    now rewrite (simple_below _ _ _ _ M), (simple_below _ _ _ _ D). }
  rewrite <- B, below_parts2. change (dd :: below dd) with ([dd] ++ below dd). rewrite <- (app_assoc [dd]), (app_assoc _ [dd]).
  apply first_mid.
  - intros y I. apply in_app_iff in I. destruct I as [I|[<-|[]]]; [|rewrite t_dd; destruct IT as [<-|[<-|[]]]; tneq].
    revert y I. apply (only_none (FEATURE_TAGS ++ [TECTONIC_REGION] ++ BOUNDARY_TAGS ++ RATE_TAGS)); [|destruct IT as [<-|[<-|[]]]; tout].
    apply only_app; [eapply only_sub; [|apply o_ft]; tincl|]. cbn [app].
    apply only_cons; [eapply only_sub; [|apply o_tr]; tincl|]. apply only_cons; [eapply only_sub; [|apply o_ab]; tincl|].
    eapply only_sub; [|apply o_rs]; tincl.
  - assert (O := o_h). intros y I. apply (only_none _ tag _ O); [destruct IT as [<-|[<-|[]]]; tout|]. cbn [flat_map].
    now rewrite app_nil_r.
Qed.

(** A posList has a ring around it. *)
Lemma ring_around : forall l, first_tagged POS_LIST (below ab) l -> exists r, first_tagged LINEAR_RING (below ab) r.
Proof.
  intros l F. apply first_in in F. destruct F as (I & E).
  destruct (pt_bound _ _ _ _ _ _ _ P) as (_ & _ & _ & p & K & (G' & _ & _ & st & ext & ints & K' & S & X & Y)).
  rewrite below_desc, K in *. cbn [flat_map] in *. rewrite app_nil_r in *. rewrite iter_split in *. destruct I as [<-|I].
  { exfalso. rewrite G' in E. revert E. tneq. }
  rewrite below_desc, K' in *.
  assert (R : exists q tag, In q (ext ++ ints) /\ ring_property tag q).
  { rewrite flat_map_app in I. apply in_app_iff in I. destruct I as [I|I].
    - exfalso. revert E. apply (only_none _ POS_LIST _ (standard_only _ S)); auto. tout.
    - apply in_flat_map in I. destruct I as (q & Iq & _). exists q. apply in_app_iff in Iq. destruct Iq as [Iq|Iq].
      + apply optional_Forall in X. rewrite Forall_forall in X. exists EXTERIOR. split; [apply in_app_iff; auto|auto].
      + rewrite Forall_forall in Y. exists INTERIOR. split; [apply in_app_iff; auto|auto]. }
  destruct R as (q & tag & Iq & (_ & _ & _ & r & Kq & L)).
  apply (first_some LINEAR_RING _ r); [|apply L]. right. rewrite flat_map_app. apply in_app_iff. right.
  apply in_flat_map. exists q. split; auto. rewrite iter_split. right. rewrite below_desc, Kq. cbn [flat_map].
  rewrite app_nil_r, iter_split. now left.
Qed.

(** The posLists of a valid boundary hold lists of doubles. *)
Lemma pos_doubles : forall l, first_tagged POS_LIST (below ab) l -> double_list (x_text l).
Proof.
  intros l F. apply first_in in F. destruct F as (I & E).
  destruct (pt_bound _ _ _ _ _ _ _ P) as (_ & _ & _ & p & K & (G' & _ & _ & st & ext & ints & K' & S & X & Y)).
  rewrite below_desc, K in *. cbn [flat_map] in *. rewrite app_nil_r in *. rewrite iter_split in *. destruct I as [<-|I].
  { exfalso. rewrite G' in E. revert E. tneq. }
  rewrite below_desc, K' in *. rewrite flat_map_app in I. apply in_app_iff in I. destruct I as [I|I].
  { exfalso. revert E. apply (only_none _ POS_LIST _ (standard_only _ S)); auto. tout. }
  apply in_flat_map in I. destruct I as (q & Iq & I).
  assert (R : exists tag, In tag [EXTERIOR; INTERIOR] /\ ring_property tag q).
  { apply in_app_iff in Iq. destruct Iq as [Iq|Iq].
    - apply optional_Forall in X. rewrite Forall_forall in X. exists EXTERIOR. split; [now left|auto].
    - rewrite Forall_forall in Y. exists INTERIOR. split; [right; now left|auto]. }
  destruct R as (tag & It & (Gq & _ & _ & r & Kq & L)). rewrite iter_split in I. destruct I as [<-|I].
  { exfalso. rewrite Gq in E. revert E. destruct It as [<-|[<-|[]]]; tneq. }
  rewrite below_desc, Kq in I. cbn [flat_map] in I. rewrite app_nil_r, iter_split in I.
  destruct L as (Gr & _ & _ & st' & l' & Kl & S' & L). destruct I as [<-|I].
  { exfalso. rewrite Gr in E. revert E. tneq. }
  rewrite below_desc, Kl, flat_map_app in I. apply in_app_iff in I. destruct I as [I|I].
  { exfalso. revert E. apply (only_none _ POS_LIST _ (standard_only _ S')); auto. tout. }
  cbn [flat_map] in I. rewrite app_nil_r, (simple_below _ _ _ _ L) in I. destruct I as [<-|[]]. apply L.
Qed.
End Parts.
End Valid.
