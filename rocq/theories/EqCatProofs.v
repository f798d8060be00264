(** Proofs about EqEntryReader (EqCatalog.v): conversion and checks of one row. *)
From Coq Require Import ZArith Bool Ascii String List Permutation Lia.
From Verif Require Import Base Ops BaseFacts PyStr Csv EqCatalog EqCatSpec.
Import ListNotations.
Local Open Scope string_scope.

Lemma key_eqb_eq : forall a b, key_eqb a b = true <-> a = b.
Proof.
  intros [a|] [b|]; simpl; split; intros H; try discriminate; auto.
  - apply String.eqb_eq in H. congruence.
  - inversion H. apply String.eqb_refl.
Qed.
Lemma key_eqb_refl : forall a, key_eqb a a = true.
Proof. intros. now apply key_eqb_eq. Qed.
Lemma key_eqb_neq : forall a b, a <> b -> key_eqb a b = false.
Proof.
  intros. destruct (key_eqb a b) eqn:E; auto. apply key_eqb_eq in E. contradiction.
Qed.

Lemma mem_in : forall f l, mem f l = true <-> In f l.
Proof.
  intros. unfold mem. rewrite existsb_exists. split.
  - intros (x & I & E). apply String.eqb_eq in E. now subst.
  - intros I. exists f. split; auto. apply String.eqb_refl.
Qed.

Section P.
Context {AR : Ops}.
Implicit Types e : entry AR.

Lemma keys_put : forall k v e, map fst (put k v e) = map fst e.
Proof. intros k v e. induction e as [|[k' v'] e IH]; simpl; auto. destruct (key_eqb k k'); simpl; congruence. Qed.

Lemma get_put_same : forall k v e, In k (map fst e) -> get k (put k v e) = v.
Proof.
  intros k v e. induction e as [|[k' v'] e IH]; simpl; [tauto|]. intros H.
  destruct (key_eqb k k') eqn:E; simpl; rewrite E; auto.
  apply IH. destruct H as [H|H]; auto. subst. rewrite key_eqb_refl in E. discriminate.
Qed.

Lemma get_put_other : forall k k' v e, k <> k' -> get k (put k' v e) = get k e.
Proof.
  intros k k' v e N. induction e as [|[k1 v1] e IH]; simpl; auto.
  destruct (key_eqb k' k1) eqn:E; simpl.
  - apply key_eqb_eq in E. subst. now rewrite key_eqb_neq.
  - now rewrite IH.
Qed.

(** ** Conversion *)
Section Conv.
Variable parse_float : text -> option T.
Variable line : Z.
Notation conv := (convert_item parse_float line).

Lemma convert_item_key : forall kv kv', conv kv = Ok kv' -> fst kv' = fst kv.
Proof.
  intros [k v] kv' H. unfold convert_item in H. cbn [fst snd] in H.
  repeat match type of H with context [match ?x with _ => _ end] => destruct x end;
    inversion H; reflexivity.
Qed.

Lemma convert_keys : forall e e', convert_values parse_float line e = Ok e' -> map fst e' = map fst e.
Proof.
  induction e as [|a e IH]; intros e' H; unfold convert_values in *; cbn [mapM] in H.
  - now inversion H.
  - apply bind_ok in H. destruct H as (b & Hb & H). apply bind_ok in H. destruct H as (bs & Hs & H).
    inversion H. simpl. f_equal; [eapply convert_item_key; eauto|eauto].
Qed.

Lemma convert_get : forall e e' k, convert_values parse_float line e = Ok e' -> In k (map fst e) ->
  conv (k, get k e) = Ok (k, get k e').
Proof.
  induction e as [|[k1 v1] e IH]; intros e' k H I; unfold convert_values in *; cbn [mapM] in H; [destruct I|].
  apply bind_ok in H. destruct H as ([k2 v2] & Hb & H). apply bind_ok in H. destruct H as (bs & Hs & H).
  inversion H. subst e'. assert (K := convert_item_key _ _ Hb). cbn [fst] in K. subst k2.
  cbn [get]. destruct (key_eqb k k1) eqn:E.
  - apply key_eqb_eq in E. now subst.
  - apply IH; auto. destruct I as [I|I]; auto. simpl in I. subst. rewrite key_eqb_refl in E. discriminate.
Qed.

Lemma get_in : forall k e, In k (map fst e) -> In (k, get k e) e.
Proof.
  intros k e. induction e as [|[k1 v1] e IH]; simpl; [tauto|]. intros [H|H].
  - subst. rewrite key_eqb_refl. now left.
  - destruct (key_eqb k k1) eqn:E; [|right; auto]. left. apply key_eqb_eq in E. now subst.
Qed.

Lemma in_get : forall k v e, NoDup (map fst e) -> In (k, v) e -> get k e = v.
Proof.
  intros k v e. induction e as [|[k1 v1] e IH]; simpl; [tauto|]. intros N H.
  inversion N as [|? ? Hn N']; subst. destruct H as [H|H].
  - inversion H; subst. now rewrite key_eqb_refl.
  - rewrite key_eqb_neq; auto. intros ->. apply Hn. apply in_map_iff. exists (k1, v). auto.
Qed.

Lemma convert_all : forall e, NoDup (map fst e) ->
  (forall k, In k (map fst e) -> exists kv, conv (k, get k e) = Ok kv) ->
  exists e', convert_values parse_float line e = Ok e'.
Proof.
  intros e N H. unfold convert_values. apply mapM_ok. intros [k v] I.
  assert (K : In k (map fst e)) by (apply in_map_iff; exists (k, v); auto).
  rewrite <- (in_get k v e N I). auto.
Qed.

Lemma convert_err : forall e x, NoDup (map fst e) -> convert_values parse_float line e = Err x ->
  exists k, In k (map fst e) /\ conv (k, get k e) = Err x.
Proof.
  intros e x N H. unfold convert_values in H. destruct (mapM_err _ _ _ _ _ H) as (pre & [k v] & post & -> & E & _).
  assert (I : In (k, v) (pre ++ (k, v) :: post)) by (apply in_elt).
  exists k. split; [apply in_map_iff; exists (k, v); auto|].
  now rewrite (in_get k v _ N I).
Qed.
End Conv.

(** ** The check loop *)

(** Verdict of the check of a field on its value (and the month), and the value it leaves:
    proof devices. *)
Definition passes (now : Z) (f : string) (v m : pyval AR) : bool :=
  if mem f ["eventID"; "Identifier"; "depth"] then py_gt_c v 0
  else if String.eqb f "year" then py_c_le (-10000) v && py_le_c v now
  else if String.eqb f "month" then py_c_le 1 v && py_le_c v 12
  else if String.eqb f "day" then
    (py_eq_c m 2 && py_le_c v 29) || (negb (py_eq_c m 2) && (py_c_le 1 v && py_le_c v 31))
  else if String.eqb f "hour" then py_c_le 0 v && py_le_c v 23
  else if String.eqb f "minute" then py_c_le 0 v && py_le_c v 59
  else if String.eqb f "longitude" then py_c_le (-180) v && py_le_c v 180
  else if String.eqb f "latitude" then py_c_le (-90) v && py_le_c v 90
  else true.

Definition upd (f : string) (v : pyval AR) : pyval AR :=
  if mem f ["SemiMajor90"; "SemiMinor90"; "depthError"; "sigmaMs"; "sigmamb"; "sigmaML"]
  then if py_lt_c v 0 then blank else v
  else if String.eqb f "second" then if negb (py_c_le 0 v && py_le_c v 59) then blank else v
  else if String.eqb f "sigmaMw" then if is_blank v || py_lt_c v 0 then VFlt (ofZ 0) else v
  else v.

Definition esbad (st mi ma : pyval AR) : bool :=
  negb (py_c_le 0 st && py_le_c st 360) || is_blank mi || is_blank ma || negb (py_le mi ma).

Ltac col_cases H :=
  repeat (destruct H as [<-|H]); try destruct H.

Lemma step : forall now f e, In f columns -> f <> "ErrorStrike" ->
  exists chk e1, check_map now (Some f) = Some chk /\
    chk e = (passes now f (get (Some f) e) (get (Some "month") e), e1) /\
    map fst e1 = map fst e /\
    (forall g, g <> f -> get (Some g) e1 = get (Some g) e) /\
    (In (Some f) (map fst e) -> get (Some f) e1 = upd f (get (Some f) e)).
Proof.
  intros now f e I N.
  assert (X : exists chk e1, check_map now (Some f) = Some chk /\
    chk e = (passes now f (get (Some f) e) (get (Some "month") e), e1) /\
    (e1 = put (Some f) (upd f (get (Some f) e)) e \/ (e1 = e /\ upd f (get (Some f) e) = get (Some f) e))).
  { assert (Y : exists chk, check_map now (Some f) = Some chk /\
      (chk e = (passes now f (get (Some f) e) (get (Some "month") e), put (Some f) (upd f (get (Some f) e)) e) \/
       chk e = (passes now f (get (Some f) e) (get (Some "month") e), e) /\ upd f (get (Some f) e) = get (Some f) e)).
    { col_cases I; try (now elim N);
      unfold upd, passes; cbn; eexists; (split; [reflexivity|]);
      unfold check_positive_value, check_year, check_month, check_day, check_hour, check_minute, no_check,
        check_second, check_longitude, check_latitude, check_sigma_mw; cbn;
      first [ right; split; reflexivity
            | match goal with |- (if ?b then _ else _) = _ \/ _ => destruct b end;
              first [left; reflexivity | right; split; reflexivity] ]. }
    destruct Y as (chk & A & [B|(B & B')]); exists chk; eexists; (split; [exact A|]); split; eauto. }
  destruct X as (chk & e1 & C & E & X). exists chk, e1. split; auto. split; auto.
  destruct X as [->|(-> & U)].
  - split; [apply keys_put|]. split.
    + intros g Hg. apply get_put_other. congruence.
    + intros. now apply get_put_same.
  - split; auto.
Qed.

Lemma step_es : forall now e, incl (map Some ellipse) (map fst e) ->
  exists e1, check_map now (Some "ErrorStrike") = Some (check_epicentre_error_location "ErrorStrike") /\
    check_epicentre_error_location "ErrorStrike" e = (true, e1) /\
    map fst e1 = map fst e /\
    (forall g, ~ In g ellipse -> get (Some g) e1 = get (Some g) e) /\
    (esbad (get (Some "ErrorStrike") e) (get (Some "SemiMinor90") e) (get (Some "SemiMajor90") e) = true ->
       forall f, In f ellipse -> get (Some f) e1 = blank) /\
    (esbad (get (Some "ErrorStrike") e) (get (Some "SemiMinor90") e) (get (Some "SemiMajor90") e) = false ->
       e1 = e).
Proof.
  intros now e I. unfold check_epicentre_error_location. cbv zeta. fold (esbad (get (Some "ErrorStrike") e) (get (Some "SemiMinor90") e) (get (Some "SemiMajor90") e)).
  destruct (esbad (get (Some "ErrorStrike") e) (get (Some "SemiMinor90") e) (get (Some "SemiMajor90") e)) eqn:B;
    eexists; (split; [reflexivity|]); (split; [reflexivity|]).
  - split; [now rewrite !keys_put|]. split; [|split; [|discriminate]].
    + intros g Hg. simpl in Hg. rewrite !get_put_other; auto; intros X; inversion X; subst; tauto.
    + intros _ f Hf.
      assert (K : forall f, In f ellipse -> In (Some f) (map fst e)).
      { intros f0 H0. apply I. now apply in_map. }
      destruct Hf as [<-|[<-|[<-|[]]]].
      * rewrite get_put_other by discriminate. apply get_put_same. rewrite keys_put. apply K. simpl. tauto.
      * rewrite !get_put_other by discriminate. apply get_put_same. apply K. simpl. tauto.
      * apply get_put_same. rewrite !keys_put. apply K. simpl. tauto.
  - split; auto. split; auto. split; [discriminate|auto].
Qed.

Lemma upd_compulsory : forall f v, mem f compulsory_fields = true -> upd f v = v.
Proof. intros f v M. apply mem_in in M. vm_compute in M. col_cases M; reflexivity. Qed.

Lemma compulsory_not_ellipse : forall f, mem f compulsory_fields = true -> ~ In f ellipse.
Proof.
  intros f M I. apply mem_in in M. destruct I as [<-|[<-|[<-|[]]]]; vm_compute in M; intuition discriminate.
Qed.

Definition columns_of (ks : list key) : Prop := forall k, In k ks -> exists f, k = Some f /\ In f columns.

Lemma loop : forall now line ks e, NoDup ks -> columns_of ks -> incl ks (map fst e) ->
  incl (map Some ellipse) (map fst e) ->
  match check_fields now line ks e with
  | Ok e' => map fst e' = map fst e /\
      (forall f, In (Some f) ks -> mem f compulsory_fields = true ->
         passes now f (get (Some f) e) (get (Some "month") e) = true) /\
      (forall g, ~ In g ellipse -> In (Some g) ks -> get (Some g) e' = upd g (get (Some g) e)) /\
      (forall g, ~ In g ellipse -> ~ In (Some g) ks -> get (Some g) e' = get (Some g) e)
  | Err x => exists f, In (Some f) ks /\ mem f compulsory_fields = true /\
      passes now f (get (Some f) e) (get (Some "month") e) = false /\
      x = EqEntryValidationError f line
  end.
Proof.
  intros now line ks. induction ks as [|k ks IH]; intros e N C I EI; cbn [check_fields].
  - split; auto. split; [intros f []|]. split; auto. intros g _ [].
  - destruct (C k) as (f & -> & F); [now left|].
    assert (X : exists chk e1 b, check_map now (Some f) = Some chk /\ chk e = (b, e1) /\
      (mem f compulsory_fields = true -> b = passes now f (get (Some f) e) (get (Some "month") e)) /\
      map fst e1 = map fst e /\
      (forall g, ~ In g ellipse -> g <> f -> get (Some g) e1 = get (Some g) e) /\
      (~ In f ellipse -> get (Some f) e1 = upd f (get (Some f) e))).
    { destruct (string_dec f "ErrorStrike") as [->|Hf].
      - destruct (step_es now e EI) as (e1 & A & B & K & G & _ & _).
        exists (check_epicentre_error_location "ErrorStrike"), e1, true. split; [exact A|]. split; [exact B|].
        split; [discriminate|]. split; [exact K|]. split; [auto|].
        intros H. elim H. unfold ellipse. simpl. tauto.
      - destruct (step now f e F Hf) as (chk & e1 & A & B & K & G & U).
        exists chk, e1, (passes now f (get (Some f) e) (get (Some "month") e)).
        split; [exact A|]. split; [exact B|]. split; [reflexivity|]. split; [exact K|]. split; [auto|].
        intros _. apply U. apply I. now left. }
    destruct X as (chk & e1 & b & A & B & P & K & G & U). rewrite A, B.
    inversion N as [|? ? Nk N']; subst.
    assert (IH' := IH e1 N' (fun k H => C k (or_intror H))). rewrite K in IH'.
    specialize (IH' (fun k H => I k (or_intror H)) EI).
    assert (M1 : get (Some "month") e1 = get (Some "month") e).
    { destruct (string_dec "month" f) as [<-|Hf].
      - rewrite U by (simpl; intuition discriminate); reflexivity.
      - apply G; auto. simpl. intuition discriminate. }
    rewrite M1 in IH'.
    assert (Same : forall g, In (Some g) ks -> ~ In g ellipse -> get (Some g) e1 = get (Some g) e).
    { intros g Hg He. apply G; auto. intros ->. contradiction. }
    destruct (negb b && mem f compulsory_fields) eqn:D.
    + apply andb_true_iff in D. destruct D as [D1 D2]. exists f. split; [now left|]. split; auto.
      split; auto. rewrite <- P by auto. now apply negb_true_iff in D1.
    + destruct (check_fields now line ks e1) as [e'|x].
      * destruct IH' as (K' & P' & U' & S'). split; auto. split; [|split].
        { intros g [Hg|Hg] Hm.
          - inversion Hg. subst g. rewrite <- P by auto. rewrite Hm in D. destruct b; [reflexivity|discriminate].
          - rewrite <- (Same g) by (auto using compulsory_not_ellipse). auto. }
        { intros g He [Hg|Hg].
          - inversion Hg. subst g. rewrite S'; auto.
          - rewrite U' by auto. now rewrite Same. }
        { intros g He Hg. rewrite S' by (auto; intros X; apply Hg; now right).
          apply G; auto. intros ->. apply Hg. now left. }
      * destruct IH' as (g & Hg & Hm & Hp & ->). exists g. split; [now right|]. split; auto. split; auto.
        rewrite <- (Same g); auto using compulsory_not_ellipse.
Qed.

Lemma check_fields_app : forall now line l1 l2 e,
  check_fields now line (l1 ++ l2) e = bind (check_fields now line l1 e) (check_fields now line l2).
Proof.
  intros now line l1 l2. induction l1 as [|k l1 IH]; intros e; [reflexivity|]. cbn [app check_fields].
  destruct (check_map now k) as [chk|]; [|reflexivity]. destruct (chk e) as [ok e'].
  destruct k; [destruct (negb ok && mem s compulsory_fields); [reflexivity|apply IH]|apply IH].
Qed.

(** The loop away from ErrorStrike treats the semi-axes like any other field. *)
Lemma loop_no_es : forall now line ks e e', NoDup ks -> columns_of ks -> incl ks (map fst e) ->
  ~ In (Some "ErrorStrike") ks -> check_fields now line ks e = Ok e' ->
  map fst e' = map fst e /\
  (forall g, In (Some g) ks -> get (Some g) e' = upd g (get (Some g) e)) /\
  (forall g, ~ In (Some g) ks -> get (Some g) e' = get (Some g) e).
Proof.
  intros now line ks. induction ks as [|k ks IH]; intros e e' N C I NE H; cbn [check_fields] in H.
  - inversion H. split; auto. split; auto. intros g [].
  - destruct (C k) as (f & -> & F); [now left|].
    destruct (step now f e F) as (chk & e1 & A & B & K & G & U).
    { intros ->. apply NE. now left. }
    rewrite A, B in H. inversion N as [|? ? Nk N']; subst.
    destruct (negb _ && _) in H; [discriminate|].
    destruct (IH e1 e' N' (fun k H => C k (or_intror H))) as (K' & U' & S'); auto.
    { rewrite K. intros k Hk. apply I. now right. }
    { intros X. apply NE. now right. }
    split; [congruence|]. split.
    + intros g [Hg|Hg].
      * inversion Hg. subst g. rewrite S' by auto. apply U. apply I. now left.
      * rewrite U' by auto. rewrite G; auto. intros ->. contradiction.
    + intros g Hg. rewrite S' by (intros X; apply Hg; now right). apply G.
      intros ->. apply Hg. now left.
Qed.

Lemma upd_axis : forall f v, f = "SemiMajor90" \/ f = "SemiMinor90" ->
  upd f (upd f v) = upd f v /\ upd f blank = blank.
Proof.
  intros f v [->| ->]; unfold upd; cbn; (split; [destruct (py_lt_c v 0) eqn:E; [reflexivity|now rewrite E]|reflexivity]).
Qed.

Lemma nodup_app : forall A (l m : list A), NoDup (l ++ m) ->
  NoDup l /\ NoDup m /\ forall x, In x l -> ~ In x m.
Proof.
  induction l as [|a l IH]; simpl; intros m N.
  - split; [constructor|]. split; auto.
  - inversion N as [|? ? Q N']; subst. destruct (IH m N') as (A1 & B1 & C1).
    rewrite in_app_iff in Q. split; [constructor; tauto|]. split; auto.
    intros x [<-|H]; auto.
Qed.

(** What the loop leaves in the three ellipse fields. *)
Lemma loop_ellipse : forall now line l1 l2 e e',
  let ks := (l1 ++ Some "ErrorStrike" :: l2)%list in
  NoDup ks -> columns_of ks -> incl ks (map fst e) ->
  In (Some "SemiMajor90") ks -> In (Some "SemiMinor90") ks ->
  check_fields now line ks e = Ok e' ->
  exists ma mi : pyval AR,
    ((In (Some "SemiMajor90") l1 /\ ma = upd "SemiMajor90" (get (Some "SemiMajor90") e)) \/
     (In (Some "SemiMajor90") l2 /\ ma = get (Some "SemiMajor90") e)) /\
    ((In (Some "SemiMinor90") l1 /\ mi = upd "SemiMinor90" (get (Some "SemiMinor90") e)) \/
     (In (Some "SemiMinor90") l2 /\ mi = get (Some "SemiMinor90") e)) /\
    (esbad (get (Some "ErrorStrike") e) mi ma = true -> ellipse_all_blank e') /\
    (esbad (get (Some "ErrorStrike") e) mi ma = false ->
       get (Some "ErrorStrike") e' = get (Some "ErrorStrike") e /\
       get (Some "SemiMajor90") e' = upd "SemiMajor90" (get (Some "SemiMajor90") e) /\
       get (Some "SemiMinor90") e' = upd "SemiMinor90" (get (Some "SemiMinor90") e)).
Proof.
  intros now line l1 l2 e e' ks N C I Ia Ii H. unfold ks in *. clear ks.
  rewrite check_fields_app in H. apply bind_ok in H. destruct H as (e1 & H1 & H).
  assert (N1 := NoDup_remove_1 _ _ _ N). assert (N2 := NoDup_remove_2 _ _ _ N).
  destruct (nodup_app _ _ _ N1) as (Nl1 & Nl2 & Dis).
  rewrite in_app_iff in N2.
  destruct (loop_no_es now line l1 e e1) as (K1 & U1 & S1); auto.
  { intros k Hk. apply C. apply in_or_app. now left. }
  { intros k Hk. apply I. apply in_or_app. now left. }
  change (Some "ErrorStrike" :: l2) with ([Some "ErrorStrike"] ++ l2)%list in H.
  rewrite check_fields_app in H. apply bind_ok in H. destruct H as (e2 & H2 & H).
  assert (El : incl (map Some ellipse) (map fst e1)).
  { rewrite K1. intros k [<-|[<-|[<-|[]]]]; apply I; auto. apply in_elt. }
  destruct (step_es now e1 El) as (e2' & A & B & K & G & X & Y).
  cbn [check_fields] in H2. rewrite A, B in H2. simpl in H2. inversion H2. subst e2'.
  destruct (loop_no_es now line l2 e2 e') as (K2 & U2 & S2); auto.
  { intros k Hk. apply C. apply in_or_app. right. now right. }
  { rewrite K, K1. intros k Hk. apply I. apply in_or_app. right. now right. }
  rewrite (S1 "ErrorStrike") in X, Y by tauto.
  assert (Side : forall f, f <> "ErrorStrike" -> In (Some f) (l1 ++ Some "ErrorStrike" :: l2) ->
     (In (Some f) l1 /\ ~ In (Some f) l2 \/ ~ In (Some f) l1 /\ In (Some f) l2)).
  { intros f Hf Hin. apply in_app_or in Hin. destruct Hin as [Hin|[Hin|Hin]].
    - left. split; auto.
    - congruence.
    - right. split; auto. intros Z. exact (Dis _ Z Hin). }
  exists (get (Some "SemiMajor90") e1), (get (Some "SemiMinor90") e1).
  destruct (Side "SemiMajor90" ltac:(discriminate) Ia) as [(a1 & a2)|(a1 & a2)];
  destruct (Side "SemiMinor90" ltac:(discriminate) Ii) as [(b1 & b2)|(b1 & b2)].
  all: split; [first [left; split; [assumption|now apply U1] | right; split; [assumption|now apply S1]]|].
  all: split; [first [left; split; [assumption|now apply U1] | right; split; [assumption|now apply S1]]|].
  all: split; [intros Bd; specialize (X Bd); intros f Hf|intros Bd; specialize (Y Bd); subst e2; clear X].
  1,3,5,7: assert (Xf := X f Hf); destruct Hf as [<-|[<-|[<-|[]]]];
    first [ rewrite S2 by tauto; exact Xf
          | rewrite U2 by tauto; rewrite Xf; apply (fun f H => proj2 (upd_axis f blank H)); auto ].
  all: split; [rewrite S2 by tauto; apply S1; tauto|].
  all: split;
    first [ rewrite S2 by tauto; apply U1; tauto
          | rewrite U2 by tauto; rewrite S1 by tauto; reflexivity ].
Qed.

End P.
