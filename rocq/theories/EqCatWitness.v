(** Witnesses for C05, C07, C08, C10 in binary64, and what C10 leaves. *)
From Coq Require Import ZArith Bool Ascii String List Permutation Lia.
From Coq Require Import Floats.SpecFloat.
From Verif Require Import Base Ops FloatOps BaseFacts PyStr Csv EqCatalog EqCatSpec EqCatProofs EqCatRow EqCatFile.
Import ListNotations.
Local Open Scope string_scope.

(** The part of float() that the witnesses need: decimal integers and nan. *)
Definition small_float (s : text) : option spec_float :=
  match parse_int s with
  | Some z => Some (F_ofZ z)
  | None => if text_eqb s (t "nan") then Some S754_nan else None
  end.

(** Iteration order of a dictionary holding the 25 columns in CPython 2.7 (64 bit, no hash
    randomisation). *)
Definition cpython_keys : list string :=
  ["eventID"; "Agency"; "month"; "depthError"; "second"; "SemiMajor90"; "year"; "ErrorStrike";
   "timeError"; "sigmamb"; "latitude"; "sigmaMw"; "sigmaMs"; "Mw"; "Ms"; "Identifier"; "day";
   "minute"; "hour"; "mb"; "SemiMinor90"; "longitude"; "depth"; "ML"; "sigmaML"].

Fixpoint keys_eqb (a b : list key) : bool :=
  match a, b with
  | [], [] => true
  | x :: a', y :: b' => key_eqb x y && keys_eqb a' b'
  | _, _ => false
  end.
Lemma keys_eqb_eq : forall a b, keys_eqb a b = true -> a = b.
Proof.
  induction a as [|x a IH]; intros [|y b] H; simpl in H; try discriminate; auto.
  apply andb_true_iff in H. destruct H as (H1 & H2). apply key_eqb_eq in H1. apply IH in H2. congruence.
Qed.

Definition cpython_order (ks : list key) : list key :=
  if keys_eqb ks (map Some columns) then map Some cpython_keys else ks.

Lemma cpython_rearranges : rearranges cpython_order.
Proof.
  intros ks N. unfold cpython_order. destruct (keys_eqb ks (map Some columns)) eqn:E; [|apply Permutation_refl].
  apply keys_eqb_eq in E. subst. apply NoDup_Permutation; auto.
  - unfold cpython_keys. simpl. repeat (constructor; [simpl; intuition discriminate|]). constructor.
  - intros k. rewrite !in_map_iff. split; intros (f & <- & H); exists f; (split; [reflexivity|]);
      in_cases H; inlist.
Qed.

Lemma id_rearranges : rearranges (fun ks => ks).
Proof. intros ks _. apply Permutation_refl. Qed.

(** A row with the given month, day, semi-axes, strike, depth and magnitude. *)
Definition wrow (mo d ma mi st dep mw : string) : list text :=
  map t ["1"; "GEM, Pavia"; "7"; "1990"; mo; d; "3"; "4"; "5"; ""; "10"; "45"; ma; mi; st; dep;
         ""; mw; ""; ""; ""; ""; ""; ""; ""].

Section W.
Variable lm : libm.

Definition holds (r : res (entry (FOps lm))) (p : entry (FOps lm) -> bool) : bool :=
  match r with Ok e => p e | Err _ => false end.
Lemma holds_ex : forall r p, holds r p = true -> exists e, r = Ok e /\ p e = true.
Proof. intros [e|x] p H; [eauto|discriminate]. Qed.

Definition is_int (z : Z) (v : pyval (FOps lm)) : bool := match v with VInt y => (y =? z)%Z | _ => false end.
Lemma is_int_eq : forall z v, is_int z v = true -> v = VInt z.
Proof. intros z [y| | | |] H; try discriminate. apply Z.eqb_eq in H. now subst. Qed.
Definition is_flt (x : spec_float) (v : pyval (FOps lm)) : bool :=
  match v with
  | VFlt y => match x, y with
              | S754_nan, S754_nan => true
              | S754_finite s m e, S754_finite s' m' e' => Bool.eqb s s' && (m =? m')%positive && (e =? e')%Z
              | _, _ => false
              end
  | _ => false
  end.
Lemma is_flt_eq : forall x v, is_flt x v = true -> v = VFlt (x : @T (FOps lm)).
Proof.
  intros x [|y| | |] H; try discriminate. destruct x, y; try discriminate; auto.
  simpl in H. rewrite !andb_true_iff in H. destruct H as ((A & B) & C).
  apply eqb_prop in A. apply Pos.eqb_eq in B. apply Z.eqb_eq in C. now subst.
Qed.
Definition isblank (v : pyval (FOps lm)) : bool := match v with VStr [] => true | _ => false end.
Lemma isblank_eq : forall v, isblank v = true -> v = VStr [].
Proof. intros [| |[|c s]| |] H; try discriminate. reflexivity. Qed.

Lemma C05_refuted_proof : exists row e, length row = 25 /\
  @read_entry (FOps lm) small_float 2013 cpython_order 2 row = Ok e /\
  ~ ellipse_admissible (AR := FOps lm) small_float row /\
  get (Some "SemiMinor90") e = VStr [] /\
  get (Some "SemiMajor90") e = VFlt (F_ofZ 10 : @T (FOps lm)) /\ get (Some "ErrorStrike") e = VFlt (F_ofZ 90 : @T (FOps lm)).
Proof.
  exists (wrow "1" "2" "10" "-1" "90" "30" "5").
  destruct (holds_ex (@read_entry (FOps lm) small_float 2013 cpython_order 2 (wrow "1" "2" "10" "-1" "90" "30" "5"))
    (fun e => isblank (get (Some "SemiMinor90") e) && is_flt (F_ofZ 10) (get (Some "SemiMajor90") e) &&
              is_flt (F_ofZ 90) (get (Some "ErrorStrike") e))) as (e & E & P).
  { vm_compute. reflexivity. }
  rewrite !andb_true_iff in P. destruct P as ((P1 & P2) & P3).
  exists e. split; [reflexivity|]. split; [exact E|]. split.
  - intros (a & b & s & _ & Eb & _ & _ & Pb & _). 
    change (small_float (cell (wrow "1" "2" "10" "-1" "90" "30" "5") "SemiMinor90")) with (Some (F_ofZ (-1))) in Eb.
    inversion Eb. subst b. vm_compute in Pb. discriminate.
  - split; [now apply isblank_eq|]. split; now apply is_flt_eq.
Qed.

Lemma C08_refuted_proof : exists row1 row2 e1 e2, 
  @read_entry (FOps lm) small_float 2013 cpython_order 2 row1 = Ok e1 /\ get (Some "month") e1 = VInt 2 /\ get (Some "day") e1 = VInt 0 /\
  @read_entry (FOps lm) small_float 2013 cpython_order 3 row2 = Ok e2 /\ get (Some "month") e2 = VInt 4 /\ get (Some "day") e2 = VInt 31.
Proof.
  exists (wrow "2" "0" "" "" "" "30" "5"), (wrow "4" "31" "" "" "" "30" "5").
  destruct (holds_ex (@read_entry (FOps lm) small_float 2013 cpython_order 2 (wrow "2" "0" "" "" "" "30" "5"))
    (fun e => is_int 2 (get (Some "month") e) && is_int 0 (get (Some "day") e))) as (e1 & E1 & P1).
  { vm_compute. reflexivity. }
  destruct (holds_ex (@read_entry (FOps lm) small_float 2013 cpython_order 3 (wrow "4" "31" "" "" "" "30" "5"))
    (fun e => is_int 4 (get (Some "month") e) && is_int 31 (get (Some "day") e))) as (e2 & E2 & P2).
  { vm_compute. reflexivity. }
  apply andb_true_iff in P1, P2. destruct P1 as (A1 & B1), P2 as (A2 & B2).
  exists e1, e2. repeat split; auto using is_int_eq.
Qed.

Lemma C10_refuted_proof : exists row e, @read_entry (FOps lm) small_float 2013 cpython_order 2 row = Ok e /\
  get (Some "Mw") e = VFlt (S754_nan : @T (FOps lm)) /\ (forall x : @T (FOps lm), ltb x S754_nan = false /\ leb x S754_nan = false).
Proof.
  exists (wrow "1" "2" "" "" "" "30" "nan").
  destruct (holds_ex (@read_entry (FOps lm) small_float 2013 cpython_order 2 (wrow "1" "2" "" "" "" "30" "nan"))
    (fun e => is_flt S754_nan (get (Some "Mw") e))) as (e & E & P).
  { vm_compute. reflexivity. }
  exists e. split; auto. split; [now apply is_flt_eq|].
  intros x. destruct x as [[]|[]| |[] ? ?]; split; reflexivity.
Qed.

(** A number in the Python sense: neither NaN nor infinite. *)
Definition finite (x : spec_float) : Prop :=
  match x with S754_nan | S754_infinity _ => False | _ => True end.

Lemma within_finite : forall a b (x : @T (FOps lm)), finite (F_ofZ a) -> finite (F_ofZ b) ->
  within a b x -> finite x.
Proof.
  intros a b x A B (L1 & L2). cbn in *.
  destruct x as [s|s| |s m ex]; simpl; auto.
  - destruct s.
    + destruct (F_ofZ a) as [[]|[]| |[] ? ?]; try contradiction; vm_compute in L1; discriminate.
    + destruct (F_ofZ b) as [[]|[]| |[] ? ?]; try contradiction; vm_compute in L2; discriminate.
  - destruct (F_ofZ a) as [[]|[]| |[] ? ?]; vm_compute in L1; discriminate.
Qed.

Lemma C10_partial_proof : forall pf now order line row e, rearranges order ->
  @read_entry (FOps lm) pf now order line row = Ok e ->
  exists lon lat dep mw : spec_float,
    get (Some "longitude") e = VFlt (lon : @T (FOps lm)) /\ finite lon /\
    get (Some "latitude") e = VFlt (lat : @T (FOps lm)) /\ finite lat /\
    get (Some "depth") e = VFlt (dep : @T (FOps lm)) /\ dep <> S754_nan /\
    get (Some "Mw") e = VFlt (mw : @T (FOps lm)).
Proof.
  intros pf now order line row e R H. assert (V := C02_proof pf now order line row e R H).
  unfold valid_entry in V. cbv zeta in V.
  destruct V as (_ & (lon & Glon & Wlon) & (lat & Glat & Wlat) & (dep & Gdep & Wdep) & (mw & Gmw & _) & _).
  exists lon, lat, dep, mw. split; auto. split; [exact (within_finite (-180) 180 lon I I Wlon)|].
  split; auto. split; [exact (within_finite (-90) 90 lat I I Wlat)|]. split; auto. split; auto.
  intros ->. vm_compute in Wdep. discriminate.
Qed.

(** C07: a compulsory number that does not parse raises TypeError; blank lines shift the
    reported line number. *)
Definition ctext (lines : list (list text)) : text :=
  (join [chr_comma] (map t columns) ++ [chr_lf] ++
   List.concat (map (fun r => join [chr_comma] r ++ [chr_lf]) lines))%list.

Definition raises_ (r : res (list (entry (FOps lm)))) (p : exn -> bool) : bool :=
  match r with Ok _ => false | Err x => p x end.
Lemma raises_ex : forall r p, raises_ r p = true -> exists x, r = Err x /\ p x = true.
Proof. intros [e|x] p H; [discriminate|eauto]. Qed.

Definition plain_row (mo dep mw : string) : list text :=
  map t ["1"; "GEM"; "7"; "1990"; mo; "2"; "3"; "4"; "5"; ""; "10"; "45"; ""; ""; ""; dep;
         ""; mw; ""; ""; ""; ""; ""; ""; ""].

Lemma C07_refuted_proof :
  @read_eq_catalog (FOps lm) small_float 2013 cpython_order (ctext [plain_row "1" "30" "5"; plain_row "1" "30" "high"])
    = Err TypeError /\
  nth_error (file_lines (ctext [plain_row "1" "30" "5"; []; plain_row "13" "30" "5"])) 3
    = Some (join [chr_comma] (plain_row "13" "30" "5") ++ [chr_lf])%list /\
  @read_eq_catalog (FOps lm) small_float 2013 cpython_order (ctext [plain_row "1" "30" "5"; []; plain_row "13" "30" "5"])
    = Err (EqEntryValidationError "month" 3).
Proof.
  split; [|split].
  - destruct (raises_ex (@read_eq_catalog (FOps lm) small_float 2013 cpython_order (ctext [plain_row "1" "30" "5"; plain_row "1" "30" "high"]))
      (fun x => match x with TypeError => true | _ => false end)) as (x & -> & P).
    { vm_compute. reflexivity. } destruct x; try discriminate. reflexivity.
  - vm_compute. reflexivity.
  - destruct (raises_ex (@read_eq_catalog (FOps lm) small_float 2013 cpython_order (ctext [plain_row "1" "30" "5"; []; plain_row "13" "30" "5"]))
      (fun x => match x with EqEntryValidationError f l => String.eqb f "month" && (l =? 3)%Z | _ => false end)) as (x & -> & P).
    { vm_compute. reflexivity. } destruct x; try discriminate.
    apply andb_true_iff in P. destruct P as (P1 & P2). apply String.eqb_eq in P1. apply Z.eqb_eq in P2. now subst.
Qed.
End W.

(** A printer and a parser of binary64 numbers that are inverse to each other, to show that
    the hypotheses of C11 can be met (Python's repr and float are such a pair). *)
Definition demo_repr (x : spec_float) : text :=
  match x with
  | S754_zero false => t "0.0"
  | S754_zero true => t "-0.0"
  | S754_infinity false => t "inf"
  | S754_infinity true => t "-inf"
  | S754_nan => t "nan"
  | S754_finite s m e => ((if s then "-" else "+") :: print_int (Z.pos m) ++ "p" :: print_int e)%char%list
  end.
Definition demo_parse (s : text) : option spec_float :=
  if text_eqb s (t "0.0") then Some (S754_zero false)
  else if text_eqb s (t "-0.0") then Some (S754_zero true)
  else if text_eqb s (t "inf") then Some (S754_infinity false)
  else if text_eqb s (t "-inf") then Some (S754_infinity true)
  else if text_eqb s (t "nan") then Some S754_nan
  else match s with
       | [] => None
       | c :: r =>
           match split_on "p"%char r with
           | [a; b] =>
               match parse_int a, parse_int b with
               | Some (Zpos m), Some e => Some (S754_finite (Ascii.eqb c "-"%char) m e)
               | _, _ => None
               end
           | _ => option_map F_ofZ (parse_int s)
           end
       end.
