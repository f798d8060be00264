(** Proofs of C02-C05 and C07-C10: one row of the catalogue. *)
From Coq Require Import ZArith Bool Ascii String List Permutation Lia.
From Verif Require Import Base Ops BaseFacts PyStr Csv EqCatalog EqCatSpec EqCatProofs.
Import ListNotations.
Local Open Scope string_scope.

Ltac in_cases H :=
  repeat (destruct H as [<-|H]); try destruct H.
Ltac inlist := simpl; tauto.

Lemma columns_nodup : NoDup (map (@Some string) columns).
Proof.
  unfold columns. simpl. repeat (constructor; [simpl; intuition discriminate|]). constructor.
Qed.

Section P.
Context {AR : Ops}.
Variable parse_float : text -> option T.
Variable now : Z.

Lemma zip_row_keys : forall names row, length row = length names ->
  map fst (zip_row names row) = map Some names.
Proof.
  induction names as [|n names IH]; intros [|v row] H; simpl in *; try discriminate; auto.
  f_equal. apply IH. congruence.
Qed.

Lemma zip_row_get : forall names row f, length row = length names -> In f names ->
  get (Some f) (zip_row names row) =
  VStr (match find (fun p => String.eqb f (fst p)) (combine names row) with Some p => snd p | None => [] end).
Proof.
  induction names as [|n names IH]; intros [|v row] f H I; simpl in *; try discriminate; [destruct I|].
  destruct (String.eqb f n) eqn:E; auto. apply IH; [congruence|]. destruct I as [->|I]; auto.
  rewrite String.eqb_refl in E. discriminate.
Qed.

Lemma get_map_keys : forall (z : entry AR) ks k, In k ks ->
  get k (map (fun k => (k, get k z)) ks) = get k z.
Proof.
  induction ks as [|a ks IH]; simpl; [tauto|]. intros k [->|I].
  - now rewrite key_eqb_refl.
  - destruct (key_eqb k a) eqn:E; auto. apply key_eqb_eq in E. now subst.
Qed.

Lemma map_fst_keys : forall (z : entry AR) ks, map fst (map (fun k => (k, get k z)) ks) = ks.
Proof. intros. rewrite map_map. simpl. apply map_id. Qed.

Lemma row_setup : forall order row, rearranges order -> length row = 25 ->
  let e0 := @row_dict AR order row in
  map fst e0 = order (map Some columns) /\
  NoDup (map fst e0) /\ Permutation (map fst e0) (map Some columns) /\
  (forall f, In f columns -> get (Some f) e0 = VStr (cell row f)).
Proof.
  intros order row R L e0. unfold e0, row_dict. rewrite map_fst_keys.
  change FIELDNAMES with columns. rewrite zip_row_keys by exact L.
  assert (Pm := R _ columns_nodup). split; auto.
  split. { eapply Permutation_NoDup; [symmetry; exact Pm|exact columns_nodup]. }
  split; auto. intros f Hf. rewrite get_map_keys.
  - apply zip_row_get; auto.
  - eapply Permutation_in; [symmetry; exact Pm|]. now apply in_map.
Qed.

(** A converted row. *)
Record converted (row : list text) (e : entry AR) : Prop := {
  cv_int : forall f, In f ints -> exists z, parse_int (cell row f) = Some z /\ get (Some f) e = VInt z;
  cv_flt : forall f, In f floats -> exists x, parse_float (cell row f) = Some x /\ get (Some f) e = VFlt x;
  cv_opt : forall f, In f (ellipse ++ map (fun r => fst (fst r)) (@optional_rules AR)) ->
    get (Some f) e = match parse_float (cell row f) with Some x => VFlt x | None => blank end;
  cv_ag : get (Some "Agency") e = VStr (cell row "Agency")
}.

Lemma conv_int : forall line f s v, In f ints ->
  convert_item parse_float line (Some f, VStr s) = Ok (Some f, v) ->
  exists z, parse_int s = Some z /\ v = VInt z.
Proof.
  intros line f s v Hf X. in_cases Hf; unfold convert_item in X; cbn in X;
    (destruct (parse_int s) as [z|]; [|discriminate]); exists z; split; congruence.
Qed.
Lemma conv_flt : forall line f s v, In f floats ->
  convert_item parse_float line (Some f, VStr s) = Ok (Some f, v) ->
  exists z, parse_float s = Some z /\ v = VFlt z.
Proof.
  intros line f s v Hf X. in_cases Hf; unfold convert_item in X; cbn in X;
    (destruct (parse_float s) as [z|]; [|discriminate]); exists z; split; congruence.
Qed.
Lemma conv_opt : forall line f s v, In f (ellipse ++ map (fun r => fst (fst r)) (@optional_rules AR)) ->
  convert_item parse_float line (Some f, VStr s) = Ok (Some f, v) ->
  v = match parse_float s with Some x => VFlt x | None => blank end.
Proof.
  intros line f s v Hf X. in_cases Hf; unfold convert_item in X; cbn in X;
    destruct (parse_float s) as [z|]; congruence.
Qed.

Lemma convert_row : forall order row line e, rearranges order -> length row = 25 ->
  convert_values parse_float line (row_dict order row) = Ok e ->
  map fst e = order (map Some columns) /\ converted row e.
Proof.
  intros order row line e R L H. destruct (row_setup order row R L) as (K0 & N & Pm & G).
  split. { rewrite <- K0. eapply convert_keys; eauto. }
  assert (X : forall f, In f columns ->
    convert_item parse_float line (Some f, VStr (cell row f)) = Ok (Some f, get (Some f) e)).
  { intros f Hf. rewrite <- G by auto. eapply convert_get; eauto.
    eapply Permutation_in; [symmetry; exact Pm|]. now apply in_map. }
  clear - X. split.
  - intros f Hf. apply (conv_int line f). auto. apply X. in_cases Hf; inlist.
  - intros f Hf. apply (conv_flt line f). auto. apply X. in_cases Hf; inlist.
  - intros f Hf. apply (conv_opt line f). auto. apply X. in_cases Hf; inlist.
  - specialize (X "Agency" ltac:(inlist)). unfold convert_item in X. cbn [fst snd] in X.
    change (mem "Agency" to_int) with false in X. change (mem "Agency" to_float) with false in X.
    cbv iota in X. congruence.
Qed.

(** What the check of a compulsory field amounts to. *)
Lemma requirement_check : forall row e f P, converted row e -> In (f, P) (requirements parse_float now row) ->
  mem f compulsory_fields = true /\
  (P <-> passes now f (get (Some f) e) (get (Some "month") e) = true).
Proof.
  intros row e f P C I. destruct C as [Ci Cf _ _].
  assert (IC : forall g Q, In g ints -> (int_cell row g Q <-> exists z, get (Some g) e = VInt z /\ Q z)).
  { intros g Q Hg. destruct (Ci g Hg) as (z & E1 & E2). unfold int_cell. rewrite E1, E2. split.
    - intros (y & A & B). exists y. split; congruence.
    - intros (y & A & B). exists y. split; congruence. }
  assert (FC : forall g Q, In g floats -> (float_cell parse_float row g Q <-> exists z, get (Some g) e = VFlt z /\ Q z)).
  { intros g Q Hg. destruct (Cf g Hg) as (z & E1 & E2). unfold float_cell. rewrite E1, E2. split.
    - intros (y & A & B). exists y. split; congruence.
    - intros (y & A & B). exists y. split; congruence. }
  assert (Sint : forall g (Q : Z -> Prop) (b : bool), In g ints -> 
     (forall z, get (Some g) e = VInt z -> (Q z <-> b = true)) -> (int_cell row g Q <-> b = true)).
  { intros g Q b Hg HQ. rewrite IC by auto. destruct (Ci g Hg) as (z & E1 & E2).
    split. intros (y & A & B). apply (HQ y A); auto. intros B. exists z. split; auto. now apply HQ. }
  assert (Sflt : forall g (Q : T -> Prop) (b : bool), In g floats -> 
     (forall z, get (Some g) e = VFlt z -> (Q z <-> b = true)) -> (float_cell parse_float row g Q <-> b = true)).
  { intros g Q b Hg HQ. rewrite FC by auto. destruct (Cf g Hg) as (z & E1 & E2).
    split. intros (y & A & B). apply (HQ y A); auto. intros B. exists z. split; auto. now apply HQ. }
  destruct (Ci "month" ltac:(inlist)) as (m & Em & Gm).
  simpl in I. repeat (destruct I as [I|I]); try (exact (False_ind _ I));
    (inversion I; subst f P; clear I; split; [reflexivity|]; unfold passes; cbn - [Z.leb Z.ltb];
     first [apply Sint; [inlist|]; intros z E; rewrite E; cbn - [Z.leb Z.ltb] | apply Sflt; [inlist|]; intros z E; rewrite ?E; cbn - [Z.leb Z.ltb]]).
  all: try (rewrite ?andb_true_iff, ?Z.leb_le, ?Z.ltb_lt; unfold within; solve [lia | tauto | split; auto]).
  rewrite Gm. cbn - [Z.leb Z.ltb]. unfold int_cell. rewrite Em.
  rewrite orb_true_iff, !andb_true_iff, negb_true_iff, !Z.leb_le, Z.eqb_eq, Z.eqb_neq.
  split.
  - intros (y & A & B). inversion A. subst y. lia.
  - intros H. exists m. split; auto. lia.
Qed.

Lemma required : forall f, mem f compulsory_fields = true -> forall row,
  exists P, In (f, P) (requirements parse_float now row).
Proof.
  intros f M row. apply mem_in in M. vm_compute in M. in_cases M; eexists; simpl; eauto 15.
Qed.

Lemma order_facts : forall order, rearranges order ->
  NoDup (order (map Some columns)) /\ columns_of (order (map Some columns)) /\
  (forall f, In f columns -> In (Some f) (order (map Some columns))).
Proof.
  intros order R. assert (Pm := R _ columns_nodup). split; [|split].
  - eapply Permutation_NoDup; [symmetry; exact Pm|exact columns_nodup].
  - intros k Hk. eapply Permutation_in in Hk; [|exact Pm]. apply in_map_iff in Hk.
    destruct Hk as (f & <- & Hf). eauto.
  - intros f Hf. eapply Permutation_in; [symmetry; exact Pm|]. now apply in_map.
Qed.

Lemma compulsory_column : forall f, mem f compulsory_fields = true -> In f columns.
Proof. intros f M. apply mem_in in M. vm_compute in M. in_cases M; inlist. Qed.

Lemma loop_row : forall order line e, rearranges order -> map fst e = order (map Some columns) ->
  match check_fields now line (map fst e) e with
  | Ok e' => map fst e' = map fst e /\
      (forall f, mem f compulsory_fields = true ->
         passes now f (get (Some f) e) (get (Some "month") e) = true) /\
      (forall g, ~ In g ellipse -> In g columns -> get (Some g) e' = upd g (get (Some g) e))
  | Err x => exists f, mem f compulsory_fields = true /\
      passes now f (get (Some f) e) (get (Some "month") e) = false /\
      x = EqEntryValidationError f line
  end.
Proof.
  intros order line e R K. destruct (order_facts order R) as (N & C & I).
  assert (X := loop now line (map fst e) e). rewrite K in *.
  specialize (X N C (incl_refl _)).
  assert (EI : incl (map Some ellipse) (order (map Some columns))).
  { intros k [<-|[<-|[<-|[]]]]; apply I; inlist. }
  specialize (X EI). destruct (check_fields now line (order (map Some columns)) e) as [e'|x].
  - destruct X as (A & B & D & _). split; auto. split; auto.
    intros f M. apply B; auto. apply I. now apply compulsory_column.
  - destruct X as (f & _ & M & P & E). eauto.
Qed.

(** C03 *)
Lemma C03_proof : forall order line row, rearranges order -> length row = 25 ->
  ((exists e, read_entry parse_float now order line row = Ok e) <-> acceptable parse_float now row).
Proof.
  intros order line row R L. unfold read_entry. split.
  - intros (e' & H). apply bind_ok in H. destruct H as (e & Hc & H).
    destruct (convert_row order row line e R L Hc) as (K & Cv).
    assert (X := loop_row order line e R K). rewrite H in X. destruct X as (_ & X & _).
    apply Forall_forall. intros [f P] I. simpl.
    destruct (requirement_check row e f P Cv I) as (M & Q). apply Q. auto.
  - intros A. assert (Af := proj1 (Forall_forall _ _) A).
    destruct (row_setup order row R L) as (K0 & N & Pm & G).
    assert (P : forall f, In f ints -> exists z, parse_int (cell row f) = Some z).
    { intros f Hf. destruct (required f) with (row := row) as (P & I).
      { in_cases Hf; reflexivity. }
      assert (Y := Af _ I). simpl in Y. clear Af A.
      in_cases Hf; simpl in I; repeat (destruct I as [I|I]); try (exact (False_ind _ I)); inversion I; subst P;
        destruct Y as (z & E & _); eauto. }
    assert (Pf : forall f, In f floats -> exists z, parse_float (cell row f) = Some z).
    { intros f Hf. destruct (required f) with (row := row) as (Q & I).
      { in_cases Hf; reflexivity. }
      assert (Y := Af _ I). simpl in Y. clear Af A.
      in_cases Hf; simpl in I; repeat (destruct I as [I|I]); try (exact (False_ind _ I)); inversion I; subst Q;
        destruct Y as (z & E & _); eauto. }
    destruct (convert_all parse_float line (row_dict order row) N) as (e & He).
    { intros k Hk. eapply Permutation_in in Hk; [|exact Pm]. apply in_map_iff in Hk.
      destruct Hk as (f & <- & Hf). rewrite G by auto. unfold convert_item. cbn [fst snd].
      destruct (mem f to_int) eqn:Mi.
      - destruct (P f) as (z & ->); [|eauto]. apply mem_in in Mi. in_cases Mi; inlist.
      - destruct (mem f to_float) eqn:Mf; [|eauto].
        destruct (parse_float (cell row f)) eqn:E; [eauto|].
        destruct (mem f compulsory_fields) eqn:Mc; [|eauto]. exfalso.
        destruct (Pf f) as (z & Y); [|congruence].
        apply mem_in in Mf. in_cases Mf; try discriminate; inlist. }
    rewrite He. cbn [bind]. destruct (convert_row order row line e R L He) as (K & Cv).
    assert (X := loop_row order line e R K).
    destruct (check_fields now line (map fst e) e) as [e'|x]; [eauto|].
    destruct X as (f & M & Ps & _). destruct (required f M row) as (Q & I).
    destruct (requirement_check row e f Q Cv I) as (_ & Y).
    assert (Z := Af _ I). simpl in Z. apply Y in Z. congruence.
Qed.

(** C04 *)
Lemma C04_proof : forall order line row e, rearranges order -> length row = 25 ->
  read_entry parse_float now order line row = Ok e ->
  map fst e = order (map Some columns) /\
  (forall f, In f ints -> exists z, parse_int (cell row f) = Some z /\ get (Some f) e = VInt z) /\
  (forall f, In f floats -> exists x, parse_float (cell row f) = Some x /\ get (Some f) e = VFlt x) /\
  get (Some "Agency") e = VStr (cell row "Agency") /\
  (forall f ok d, In (f, ok, d) (@optional_rules AR) ->
     get (Some f) e = kept_or parse_float ok d (cell row f)).
Proof.
  intros order line row e' R L H. unfold read_entry in H. apply bind_ok in H. destruct H as (e & Hc & H).
  destruct (convert_row order row line e R L Hc) as (K & [Ci Cf Co Ca]).
  assert (X := loop_row order line e R K). rewrite H in X. destruct X as (K' & _ & U).
  split; [congruence|]. split; [|split; [|split]].
  - intros f Hf. destruct (Ci f Hf) as (z & E1 & E2). exists z. split; auto.
    rewrite U, upd_compulsory; auto; in_cases Hf; first [reflexivity | inlist | simpl; intuition discriminate].
  - intros f Hf. destruct (Cf f Hf) as (z & E1 & E2). exists z. split; auto.
    rewrite U, upd_compulsory; auto; in_cases Hf; first [reflexivity | inlist | simpl; intuition discriminate].
  - rewrite U, Ca; [reflexivity|simpl; intuition discriminate|inlist].
  - intros f ok d I. 
    assert (E : get (Some f) e = match parse_float (cell row f) with Some x => VFlt x | None => blank end).
    { apply Co. apply in_or_app. right. apply in_map_iff. exists (f, ok, d). auto. }
    rewrite U, E; [| |].
    2,3: simpl in I; repeat (destruct I as [I|I]); try (exact (False_ind _ I)); inversion I; first [inlist | simpl; intuition discriminate].
    unfold kept_or. clear - I. simpl in I. repeat (destruct I as [I|I]); try (exact (False_ind _ I));
      inversion I; subst f ok d; clear I; destruct (parse_float _); unfold upd; cbn; auto;
      try match goal with |- context [ltb ?a ?b] => destruct (ltb a b); reflexivity end.
    match goal with |- context [leb ?a ?b && leb ?c ?d] => destruct (leb a b && leb c d); reflexivity end.
Qed.

Lemma split_unique : forall A (g : A) l1 l2 m1 m2, NoDup (l1 ++ g :: l2) ->
  (l1 ++ g :: l2 = m1 ++ g :: m2)%list -> l1 = m1.
Proof.
  induction l1 as [|x l1 IH]; intros l2 m1 m2 N E; destruct m1 as [|y m1]; simpl in *; auto.
  - inversion E; subst. inversion N as [|? ? Q _]. elim Q. apply in_elt.
  - inversion E; subst. inversion N as [|? ? Q _]. elim Q. apply in_elt.
  - inversion E; subst. f_equal. eapply IH; eauto. now inversion N.
Qed.

(** C05 *)
Definition axis_before (order : list key -> list key) (f : string) : Prop :=
  visited_before (order (map Some columns)) f "ErrorStrike".

Lemma ellipse_facts : forall order line row e, rearranges order -> length row = 25 ->
  read_entry parse_float now order line row = Ok e ->
  (* all blank, or the strike is kept and each axis is kept or, if negative, blank *)
  (ellipse_all_blank e \/
   exists a b s, parse_float (cell row "SemiMajor90") = Some a /\
     parse_float (cell row "SemiMinor90") = Some b /\
     parse_float (cell row "ErrorStrike") = Some s /\
     leb b a = true /\ within 0 360 s /\
     get (Some "ErrorStrike") e = VFlt s /\
     (ltb a (ofZ 0) = false /\ get (Some "SemiMajor90") e = VFlt a \/
      ltb a (ofZ 0) = true /\ get (Some "SemiMajor90") e = VStr [] /\ ~ axis_before order "SemiMajor90") /\
     (ltb b (ofZ 0) = false /\ get (Some "SemiMinor90") e = VFlt b \/
      ltb b (ofZ 0) = true /\ get (Some "SemiMinor90") e = VStr [] /\ ~ axis_before order "SemiMinor90")) /\
  (ellipse_admissible parse_float row -> ellipse_kept parse_float row e).
Proof.
  intros order line row e' R L H. unfold read_entry in H. apply bind_ok in H. destruct H as (e & Hc & H).
  destruct (convert_row order row line e R L Hc) as (K & [_ _ Co _]).
  destruct (order_facts order R) as (N & C & I). rewrite K in H.
  assert (Ies := I "ErrorStrike" ltac:(inlist)). apply in_split in Ies. destruct Ies as (l1 & l2 & Ek).
  unfold axis_before. rewrite Ek in *.
  assert (Ia := I "SemiMajor90" ltac:(inlist)). assert (Ii := I "SemiMinor90" ltac:(inlist)).
  destruct (loop_ellipse now line l1 l2 e e' N C) as (ma & mi & Sa & Si & Bad & Good); auto.
  { rewrite K. apply incl_refl. }
  rewrite (Co "SemiMajor90") in Sa, Good by inlist. rewrite (Co "SemiMinor90") in Si, Good by inlist.
  rewrite (Co "ErrorStrike") in Bad, Good by inlist.
  assert (Nb : forall f, In (Some f) l2 -> ~ visited_before (l1 ++ Some "ErrorStrike" :: l2) f "ErrorStrike").
  { intros f Hf (m1 & m2 & E & Hm). assert (X := split_unique _ _ _ _ _ _ N E). subst m1.
    destruct (nodup_app _ _ _ (NoDup_remove_1 _ _ _ N)) as (_ & _ & D). exact (D _ Hm Hf). }
  destruct (esbad (match parse_float (cell row "ErrorStrike") with Some x => VFlt x | None => blank end) mi ma) eqn:B.
  - split.
    + left. auto.
    + intros (a & b & s & Ea & Eb & Es & Pa & Pb & Le & Ws). exfalso. rewrite Es, Ea, Eb in *.
      assert (ma = VFlt a). { destruct Sa as [(_ & ->)|(_ & ->)]; auto. unfold upd. cbn. now rewrite Pa. }
      assert (mi = VFlt b). { destruct Si as [(_ & ->)|(_ & ->)]; auto. unfold upd. cbn. now rewrite Pb. }
      subst. unfold esbad in B. cbn in B. destruct Ws as [W1 W2]. rewrite W1, W2, Le in B. discriminate.
  - clear Bad. specialize (Good eq_refl). destruct Good as (Gs & Ga & Gi).
    unfold esbad in B. rewrite !orb_false_iff, !negb_false_iff, !andb_true_iff in B. destruct B as (((B1 & B2) & B3) & B4).
    destruct (parse_float (cell row "ErrorStrike")) as [s|] eqn:Es; [|cbn in B1; destruct B1; discriminate].
    destruct (parse_float (cell row "SemiMajor90")) as [a|] eqn:Ea.
    2:{ destruct Sa as [(_ & ->)|(_ & ->)]; cbn in B3; discriminate. }
    destruct (parse_float (cell row "SemiMinor90")) as [b|] eqn:Eb.
    2:{ destruct Si as [(_ & ->)|(_ & ->)]; cbn in B2; discriminate. }
    assert (Ma : ma = VFlt a). { destruct Sa as [(_ & ->)|(_ & ->)]; auto. unfold upd in *. cbn in *. destruct (ltb a (ofZ 0)); auto; discriminate. }
    assert (Mi : mi = VFlt b). { destruct Si as [(_ & ->)|(_ & ->)]; auto. unfold upd in *. cbn in *. destruct (ltb b (ofZ 0)); auto; discriminate. }
    rewrite Ma, Mi in B4. cbn in B4. split.
    + right. exists a, b, s. split; auto. split; auto. split; auto. split; auto. split; [exact B1|]. split; auto. split.
      * unfold upd in Ga. cbn in Ga. destruct (ltb a (ofZ 0)) eqn:Pa; [right|left]; auto. split; auto. split; auto.
        apply Nb. destruct Sa as [(_ & Q)|(Q & _)]; auto. unfold upd in Q. cbn in Q. rewrite Pa in Q. rewrite Ma in Q. discriminate.
      * unfold upd in Gi. cbn in Gi. destruct (ltb b (ofZ 0)) eqn:Pb; [right|left]; auto. split; auto. split; auto.
        apply Nb. destruct Si as [(_ & Q)|(Q & _)]; auto. unfold upd in Q. cbn in Q. rewrite Pb in Q. rewrite Mi in Q. discriminate.
    + intros (a' & b' & s' & Ea' & Eb' & Es' & Pa & Pb & Le & Ws).
      assert (a' = a) by congruence. assert (b' = b) by congruence. subst.
      unfold upd in Ga, Gi. cbn in Ga, Gi. rewrite Pa in Ga. rewrite Pb in Gi.
      intros f [<-|[<-|[<-|[]]]]; eauto.
Qed.

(** When both axes are visited before the strike, or neither is negative, the ellipse is
    all or nothing. *)
Lemma C05_partial_proof : forall order line row e, rearranges order -> length row = 25 ->
  read_entry parse_float now order line row = Ok e ->
  (forall f x, In f ["SemiMajor90"; "SemiMinor90"] -> parse_float (cell row f) = Some x ->
     axis_before order f \/ ltb x (ofZ 0) = false) ->
  (ellipse_admissible parse_float row -> ellipse_kept parse_float row e) /\
  (~ ellipse_admissible parse_float row -> ellipse_all_blank e).
Proof.
  intros order line row e R L H Hyp. destruct (ellipse_facts order line row e R L H) as ([A|A] & B); split; auto.
  intros X. exfalso. apply X. destruct A as (a & b & s & Ea & Eb & Es & Le & Ws & Gs & Xa & Xb).
  exists a, b, s. repeat (split; auto).
  - destruct Xa as [(Pa & _)|(Pa & _ & Q)]; auto. destruct (Hyp _ a (or_introl eq_refl) Ea); [contradiction|congruence].
  - destruct Xb as [(Pa & _)|(Pa & _ & Q)]; auto. destruct (Hyp _ b (or_intror (or_introl eq_refl)) Eb); [contradiction|congruence].
Qed.

(** C09 *)
Lemma zip_row_short_get : forall names row f, NoDup names -> length row < length names ->
  nth_error names (length names - 1) = Some f -> get (Some f) (@zip_row AR names row) = VNone.
Proof.
  induction names as [|n names IH]; intros row f N L E; simpl in L; [lia|].
  destruct names as [|m names].
  - destruct row; [|simpl in L; lia]. simpl in E. inversion E; subst. simpl. now rewrite String.eqb_refl.
  - assert (E' : nth_error (m :: names) (length (m :: names) - 1) = Some f).
    { simpl in E. simpl. now rewrite Nat.sub_0_r in *. }
    assert (f <> n).
    { intros ->. inversion N as [|? ? Q _]. apply Q. eapply nth_error_In; eauto. }
    destruct row as [|v row].
    + cbn [zip_row get]. rewrite key_eqb_neq by congruence. apply (IH [] f); auto.
      * now inversion N.
      * simpl; lia.
    + cbn [zip_row get]. rewrite key_eqb_neq by congruence. apply IH; auto.
      * now inversion N.
      * simpl in *; lia.
Qed.

Lemma zip_row_short_keys : forall names row, length row < length names ->
  map fst (@zip_row AR names row) = map Some names.
Proof.
  induction names as [|n names IH]; intros row L; simpl in L; [lia|].
  destruct row as [|v row]; simpl; f_equal.
  - destruct names; auto. apply IH. simpl. lia.
  - apply IH. simpl in L. lia.
Qed.

Lemma zip_row_long_keys : forall names row, length names < length row ->
  map fst (@zip_row AR names row) = (map Some names ++ [None])%list.
Proof.
  induction names as [|n names IH]; intros [|v row] L; simpl in *; try lia; auto.
  f_equal. apply IH. lia.
Qed.

Lemma check_none : forall line ks e, In None ks -> exists x, @check_fields AR now line ks e = Err x.
Proof.
  intros line ks. induction ks as [|k ks IH]; intros e I; [destruct I|]. cbn [check_fields].
  destruct k as [f|]; [|cbn; eauto]. destruct I as [I|I]; [discriminate|].
  destruct (check_map now (Some f)) as [chk|]; [|eauto]. destruct (chk e) as [ok e'].
  destruct (negb ok && mem f compulsory_fields); eauto.
Qed.

Lemma columns_nodup' : NoDup columns.
Proof. apply (NoDup_map_inv (@Some string)). exact columns_nodup. Qed.

Lemma C09_proof : forall order line row, rearranges order -> length row <> 25 ->
  exists x, read_entry parse_float now order line row = Err x.
Proof.
  intros order line row R L. destruct (read_entry parse_float now order line row) as [e'|x] eqn:H; [|eauto].
  exfalso. unfold read_entry in H. apply bind_ok in H. destruct H as (e & Hc & H).
  assert (K := convert_keys _ _ _ _ Hc). unfold row_dict in K. rewrite map_fst_keys in K.
  change FIELDNAMES with columns in K.
  assert (C : length row < 25 \/ 25 < length row) by lia. destruct C as [C|C].
  - rewrite zip_row_short_keys in K by exact C.
    assert (I : In (Some "sigmaML") (order (map Some columns))).
    { eapply Permutation_in; [symmetry; apply R; exact columns_nodup|]. apply in_map. inlist. }
    assert (G := convert_get parse_float line _ _ (Some "sigmaML") Hc).
    unfold row_dict in G. change FIELDNAMES with columns in G. rewrite map_fst_keys in G.
    rewrite zip_row_short_keys in G by exact C. specialize (G I).
    rewrite get_map_keys in G by exact I.
    rewrite zip_row_short_get in G; [discriminate|exact columns_nodup'|exact C|reflexivity].
  - rewrite zip_row_long_keys in K by exact C.
    destruct (check_none line (map fst e) e) as (x & E); [|congruence].
    rewrite K. eapply Permutation_in; [symmetry; apply R|].
    + apply (Permutation_NoDup (l := None :: map Some columns)).
      * apply Permutation_cons_append.
      * constructor; [|exact columns_nodup]. intros X. apply in_map_iff in X. destruct X as (f & X & _). discriminate.
    + apply in_or_app. right. now left.
Qed.

(** C02 *)
Lemma accepted_length : forall order line row e, rearranges order ->
  read_entry parse_float now order line row = Ok e -> length row = 25.
Proof.
  intros order line row e R H. destruct (Nat.eq_dec (length row) 25) as [|L]; auto.
  destruct (C09_proof order line row R L) as (x & X). congruence.
Qed.

Lemma int_value : forall order line row e f P Q, rearranges order ->
  read_entry parse_float now order line row = Ok e -> In (f, P) (requirements parse_float now row) ->
  P = int_cell row f Q -> In f ints -> exists z, get (Some f) e = VInt z /\ Q z.
Proof.
  intros order line row e f P Q R H I -> Hf. assert (L := accepted_length _ _ _ _ R H).
  assert (A : acceptable parse_float now row) by (apply (C03_proof order line row R L); eauto).
  assert (Af := proj1 (Forall_forall _ _) A _ I). destruct Af as (z & E & q).
  destruct (C04_proof order line row e R L H) as (_ & Gi & _).
  destruct (Gi f Hf) as (z' & E' & G). exists z'. split; auto. congruence.
Qed.
Lemma flt_value : forall order line row e f P Q, rearranges order ->
  read_entry parse_float now order line row = Ok e -> In (f, P) (requirements parse_float now row) ->
  P = float_cell parse_float row f Q -> In f floats -> exists z, get (Some f) e = VFlt z /\ Q z.
Proof.
  intros order line row e f P Q R H I -> Hf. assert (L := accepted_length _ _ _ _ R H).
  assert (A : acceptable parse_float now row) by (apply (C03_proof order line row R L); eauto).
  assert (Af := proj1 (Forall_forall _ _) A _ I). destruct Af as (z & E & q).
  destruct (C04_proof order line row e R L H) as (_ & _ & Gi & _).
  destruct (Gi f Hf) as (z' & E' & G). exists z'. split; auto. congruence.
Qed.

Lemma opt_value : forall order line row e f ok d (Q : T -> Prop), rearranges order ->
  read_entry parse_float now order line row = Ok e -> In (f, ok, d) (@optional_rules AR) ->
  (forall x, ok x = true -> Q x) -> 
  get (Some f) e = d \/ exists x, get (Some f) e = VFlt x /\ Q x.
Proof.
  intros order line row e f ok d Q R H I HQ. assert (L := accepted_length _ _ _ _ R H).
  destruct (C04_proof order line row e R L H) as (_ & _ & _ & _ & G).
  rewrite (G f ok d I). unfold kept_or. destruct (parse_float (cell row f)) as [x|]; auto.
  destruct (ok x) eqn:E; eauto.
Qed.

Lemma C02_proof : forall order line row e, rearranges order ->
  read_entry parse_float now order line row = Ok e -> valid_entry now e.
Proof.
  intros order line row e R H. assert (L := accepted_length _ _ _ _ R H).
  assert (IV := fun f P Q => int_value order line row e f P Q R H).
  assert (FV := fun f P Q => flt_value order line row e f P Q R H).
  assert (OV := fun f ok d Q => opt_value order line row e f ok d Q R H).
  unfold valid_entry. cbv zeta.
  split; [repeat split|repeat split].
  1-6: (eapply IV; [|reflexivity|]; inlist).
  1-4: (eapply FV; [|reflexivity|]; inlist).
  - eapply OV. left. reflexivity. cbv beta. intros x X. apply andb_true_iff in X. exact X.
  - eapply OV. do 1 right. left. reflexivity. auto.
  - destruct (ellipse_facts order line row e R L H) as ([A|A] & _).
    + left. apply A. inlist.
    + destruct A as (a & b & s & _ & _ & _ & _ & _ & _ & [(P & G)|(_ & G & _)] & _); eauto.
  - destruct (ellipse_facts order line row e R L H) as ([A|A] & _).
    + left. apply A. inlist.
    + destruct A as (a & b & s & _ & _ & _ & _ & _ & _ & _ & [(P & G)|(_ & G & _)]); eauto.
  - destruct (ellipse_facts order line row e R L H) as ([A|A] & _).
    + left. apply A. inlist.
    + destruct A as (a & b & s & _ & _ & _ & _ & W & G & _); eauto.
  - eapply OV. do 2 right. left. reflexivity. cbv beta. intros x X. now apply negb_true_iff in X.
  - destruct (OV "sigmaMw" (fun x => negb (ltb x (ofZ 0))) (VFlt (ofZ 0)) (fun x => ltb x (ofZ 0) = false)) as [E|(x & E & X)]; eauto.
    + do 3 right. left. reflexivity.
    + intros x X. now apply negb_true_iff in X.
  - eapply OV. do 4 right. left. reflexivity. auto.
  - eapply OV. do 5 right. left. reflexivity. cbv beta. intros x X. now apply negb_true_iff in X.
  - eapply OV. do 6 right. left. reflexivity. auto.
  - eapply OV. do 7 right. left. reflexivity. cbv beta. intros x X. now apply negb_true_iff in X.
  - eapply OV. do 8 right. left. reflexivity. auto.
  - eapply OV. do 9 right. left. reflexivity. cbv beta. intros x X. now apply negb_true_iff in X.
Qed.

(** C08, what holds *)
Lemma C08_partial_proof : forall order line row e, rearranges order ->
  read_entry parse_float now order line row = Ok e ->
  exists m d, get (Some "month") e = VInt m /\ get (Some "day") e = VInt d /\
    (1 <= m <= 12 /\ d <= 31 /\ (m = 2 -> d <= 29) /\ (m <> 2 -> 1 <= d))%Z.
Proof.
  intros order line row e R H.
  destruct (int_value order line row e "month" _ _ R H ltac:(simpl; eauto 15) eq_refl ltac:(inlist)) as (m & Gm & Hm).
  destruct (int_value order line row e "day" _ _ R H ltac:(simpl; eauto 15) eq_refl ltac:(inlist)) as (d & Gd & m' & Em & Hd).
  assert (L := accepted_length _ _ _ _ R H).
  destruct (C04_proof order line row e R L H) as (_ & Gi & _).
  destruct (Gi "month" ltac:(inlist)) as (m2 & E2 & G2). exists m, d. split; auto. split; auto.
  assert (m' = m) by congruence. subst. lia.
Qed.

(** C07, what holds *)
Lemma C07_partial_proof : forall order line row x, rearranges order -> length row = 25 ->
  read_entry parse_float now order line row = Err x ->
  (exists f P, In (f, P) (requirements parse_float now row) /\ ~ P /\ x = EqEntryValidationError f line) \/
  (x = TypeError /\ exists f, In f floats /\ parse_float (cell row f) = None).
Proof.
  intros order line row x R L H. unfold read_entry in H.
  destruct (row_setup order row R L) as (K0 & N & Pm & G).
  destruct (convert_values parse_float line (row_dict order row)) as [e|y] eqn:Hc; cbn [bind] in H.
  - destruct (convert_row order row line e R L Hc) as (K & Cv).
    assert (X := loop_row order line e R K). rewrite H in X. destruct X as (f & M & P & ->).
    left. destruct (required f M row) as (Q & I). exists f, Q. split; auto. split; auto.
    destruct (requirement_check row e f Q Cv I) as (_ & Y). rewrite Y. congruence.
  - inversion H; subst y. destruct (convert_err parse_float line _ _ N Hc) as (k & Hk & E).
    eapply Permutation_in in Hk; [|exact Pm]. apply in_map_iff in Hk. destruct Hk as (f & <- & Hf).
    rewrite G in E by auto. unfold convert_item in E. cbn [fst snd] in E.
    destruct (mem f to_int) eqn:Mi.
    + destruct (parse_int (cell row f)) eqn:Ep; inversion E. left.
      apply mem_in in Mi. clear - Mi Ep.
      in_cases Mi; match goal with H : parse_int (cell row ?g) = None |- _ => exists g end; eexists; (split; [simpl; eauto 15|]); (split; [|reflexivity]); intros (z & Z & _); congruence.
    + destruct (mem f to_float) eqn:Mf; [|discriminate].
      destruct (parse_float (cell row f)) eqn:Ep; [discriminate|].
      destruct (mem f compulsory_fields) eqn:Mc; inversion E. right. split; auto. exists f. split; auto.
      apply mem_in in Mf. in_cases Mf; try discriminate; inlist.
Qed.

End P.
