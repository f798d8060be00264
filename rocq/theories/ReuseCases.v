(** The result as source model: CPython's numbers, a case and a counterexample (C113). *)
From Coq Require Import ZArith Bool Ascii String List Lia Reals Lra.
From Coq Require Import Floats.SpecFloat.
From Flocq Require Import Core IEEE754.BinarySingleNaN.
From Verif Require Import Base Ops BaseFacts FloatOps FloatSpec Libm PyStr PyStrProofs PyFloat PyFloatProofs PyDecimal PyNearest PyRound PyTexts PyAgain
  EqCatWitness SourceModel Nrml NrmlSpec NrmlRead NrmlRound NrmlFinal World CatalogFilter Jobs Workflow Main FlowSpec FlowPipe FlowFiles FlowReuse ReuseSpec
  Demo FlowDemo FlowWitness FlowCases.
From Coq Require Import List.
Import ListNotations.
Local Open Scope nat_scope.
Local Open Scope string_scope.

Theorem C113_cpython_proof : forall lm (W : world (FOps lm)) sm, w_parse_float W = py_float -> w_str_float W = py_str ->
  forall indent, accepts_printable (w_xml_ok W) ->
  forall cf f1 ss c1 ss1 d f2 ct, only_processing cf -> cf_source_model_file cf = Given sm ->
  cf_eq_catalog_file cf <> Given sm -> cf_completeness_table_file cf <> Given sm ->
  sources_read W cf f1 ss -> Forall (writable (w_xml_ok W)) ss -> run_config W cf f1 = (c1, None) ->
  cx_sms c1 = Some ss1 -> write_doc (w_str_float W) (w_xml_ok W) ss1 = Ok d ->
  (forall s x, In s ss -> In x (flat_points (ab_pos (as_boundary s))) -> twelve_digits x) ->
  (forall s x, In s ss1 -> In x (source_numbers s) -> ordinary_size x) ->
  (forall q, q <> sm -> f2 q = f1 q) -> f2 sm = Some ct -> w_xml_parse W ct = Some (reparsed indent 0 d) ->
  exists c2, run_config W cf f2 = (c2, None) /\
    forall q, q <> sm \/ cf_result_file cf = Given q -> cx_files c2 q = cx_files c1 q.
Proof.
  intros lm W sm PF SF indent XO cf f1 ss c1 ss1 d f2 ct OP SM NE NT SR WR H SS WD TD OS. 
  apply (C113_proof W sm indent XO) with (ss := ss) (ss1 := ss1) (d := d); auto.
  - rewrite SF. exact py_str_word.
  - intros s x I J. unfold read_back. rewrite PF, SF. apply py_str_keeps. now apply (TD s).
  - intros s x I J. unfold written_again. rewrite PF, SF. apply printed_again. now apply (OS s).
Qed.

(** A double whose binary exponent is between -930 and 995. *)
Definition sizeb (x : spec_float) : bool :=
  match x with
  | S754_finite _ m e => SpecFloat.valid_binary prec64 emax64 x && ((-930 <=? Z.log2 (Zpos m) + e)%Z && (Z.log2 (Zpos m) + e <=? 995)%Z)
  | _ => true
  end.

Lemma sizeb_ok : forall x, sizeb x = true -> ordinary_size x.
Proof.
  intros [s|s| |s m e] H; try exact I. cbn [sizeb] in H. apply andb_true_iff in H. destruct H as (V & H). apply andb_true_iff in H. destruct H as (L & U).
  apply Z.leb_le in L, U. cbn [ordinary_size]. split; [exact V|].
  set (X := F2R (Float radix2 (Zpos m) e)).
  assert (E : Rabs (SF2R radix2 (S754_finite s m e)) = X).
  { cbn [SF2R]. assert (P : (0 < X)%R) by (apply F2R_gt_0; reflexivity). destruct s; cbn [cond_Zopp]; [rewrite F2R_Zopp, Rabs_Ropp|]; rewrite Rabs_pos_eq; fold X; lra. }
  rewrite E. pose proof (Z.log2_spec (Zpos m) eq_refl) as (A & B). pose proof (Z.log2_nonneg (Zpos m)) as N.
  assert (A' : (bpow radix2 (Z.log2 (Zpos m)) <= IZR (Zpos m))%R) by (rewrite <- IZR_pow2 by auto; now apply IZR_le).
  assert (B' : (IZR (Zpos m) < bpow radix2 (Z.succ (Z.log2 (Zpos m))))%R) by (rewrite <- IZR_pow2 by lia; now apply IZR_lt).
  unfold X, F2R. cbn [Fnum Fexp]. split.
  - apply Rle_trans with (bpow radix2 (-930)); [apply (pow_le_R (-280) (-930)); vm_compute; reflexivity|].
    apply Rle_trans with (bpow radix2 (Z.log2 (Zpos m) + e)); [now apply bpow_le|]. rewrite bpow_plus. apply Rmult_le_compat_r; [apply bpow_ge_0|exact A'].
  - apply Rlt_le_trans with (bpow radix2 996); [|apply (pow_ge_R 300 996); vm_compute; reflexivity].
    apply Rlt_le_trans with (bpow radix2 (Z.succ (Z.log2 (Zpos m)) + e)); [rewrite bpow_plus; apply Rmult_lt_compat_r; [apply bpow_gt_0|exact B']|]. apply bpow_le. lia.
Qed.

(** ** The two zones of the demonstration *)

Definition sources_of (r : context FL * option exn) : list (area_source FL) := match cx_sms (fst r) with Some ss => ss | None => [] end.

Definition res_doc : xml := document (sources_of (run_config DW basic dfiles)).

(** The world in which the document of the result can be read. *)
Definition AW : world FL := demo_world [(t "ab", document [zone_a; zone_b]); (t "res", reparsed demo_indent 0 res_doc)] [t "out"].
Definition afiles : files := write_file (t "in/ab.xml") (t "res") dfiles.

Definition result_ok (d : xml -> bool) (c : context FL) : bool :=
  match cx_sms c with
  | Some ss => forallb (fun s : area_source FL => forallb sizeb (@source_numbers FL s)) ss &&
               match write_doc (AR := FL) py_str (fun _ => true) ss with Ok x => d x | Err _ => false end
  | None => false
  end.

(** Equality of documents. *)
Definition opt_text_eqb (a b : option text) : bool :=
  match a, b with Some x, Some y => text_eqb x y | None, None => true | _, _ => false end.
Fixpoint xml_eqb (a b : xml) {struct a} : bool :=
  match a, b with
  | Elem g l x k, Elem g' l' x' k' =>
      String.eqb g g' && opt_text_eqb x x' &&
      (fix attrs l l' := match l, l' with
        | [], [] => true
        | (n, v) :: l, (n', v') :: l' => String.eqb n n' && text_eqb v v' && attrs l l'
        | _, _ => false end) l l' &&
      (fix kids k k' := match k, k' with
        | [], [] => true
        | a :: k, b :: k' => xml_eqb a b && kids k k'
        | _, _ => false end) k k'
  end.

Lemma xml_eqb_ok : forall a b, xml_eqb a b = true -> a = b.
Proof.
  fix IH 1. intros [g l x k] [g' l' x' k'] H. cbn [xml_eqb] in H. apply andb_true_iff in H. destruct H as (H & HK). apply andb_true_iff in H. destruct H as (H & HA).
  apply andb_true_iff in H. destruct H as (HG & HX). apply String.eqb_eq in HG. subst g'.
  assert (x = x') as ->.
  { destruct x, x'; try discriminate; auto. apply text_eqb_eq in HX. now subst. }
  assert (l = l') as ->.
  { clear - HA. revert l' HA. induction l as [|(n, v) l IHl]; intros [|(n', v') l'] HA; try discriminate; auto.
    apply andb_true_iff in HA. destruct HA as (HA & HB). apply andb_true_iff in HA. destruct HA as (N & V). apply String.eqb_eq in N. apply text_eqb_eq in V. subst. f_equal. now apply IHl. }
  f_equal. revert k' HK. induction k as [|a k IHk]; intros [|b k'] HK; try discriminate; auto.
  apply andb_true_iff in HK. destruct HK as (A & B). f_equal; [now apply IH|now apply IHk].
Qed.

Lemma again_runs : completes (result_ok (xml_eqb res_doc)) (run_config AW basic dfiles) = true.
Proof. vm_cast_no_check (@eq_refl bool true). Qed.

Lemma aw_sources : sources_read AW basic dfiles [zone_a; zone_b].
Proof.
  exists (t "in/ab.xml"), (t "ab"), (document [zone_a; zone_b]). split; [reflexivity|]. split; [discriminate|]. split; [reflexivity|]. split; [reflexivity|].
  vm_cast_no_check (@eq_refl (list (area_source FL) * option exn) ([zone_a; zone_b], None)).
Qed.

Lemma square_writable : forall id l0 l1, writable (AR := FL) (fun _ => true) (square id l0 l1).
Proof.
  intros id l0 l1. constructor.
  - repeat (apply Forall_cons; [eexists; split; reflexivity|]). constructor.
  - repeat (apply Forall_cons; [intros v E; split; [intros ->; discriminate E|reflexivity]|]). constructor.
  - split; [|split]; discriminate.
Qed.

Lemma square_twelve : forall id l0 l1, twelve_digits (fl l0) -> twelve_digits (fl l1) ->
  forall x, In x (flat_points (ab_pos (as_boundary (square id l0 l1)))) -> twelve_digits x.
Proof.
  intros id l0 l1 T0 T1 x I.
  assert (A : twelve_digits (fl "38.0")) by (apply (is_literal _ false 38 0); [vm_compute; reflexivity|lia|lia]).
  assert (B : twelve_digits (fl "39.0")) by (apply (is_literal _ false 39 0); [vm_compute; reflexivity|lia|lia]).
  change (In x [fl l0; fl "38.0"; fl l1; fl "38.0"; fl l1; fl "39.0"; fl l0; fl "39.0"]) in I.
  repeat (destruct I as [<-|I]; [assumption|]). destruct I.
Qed.

Lemma C113_case_proof : exists c1 ss1 d,
  only_processing basic /\ cf_source_model_file basic = Given (t "in/ab.xml") /\
  cf_eq_catalog_file basic <> Given (t "in/ab.xml") /\ cf_completeness_table_file basic <> Given (t "in/ab.xml") /\
  sources_read AW basic dfiles [zone_a; zone_b] /\ Forall (writable (w_xml_ok AW)) [zone_a; zone_b] /\
  run_config AW basic dfiles = (c1, None) /\ cx_sms c1 = Some ss1 /\ write_doc (w_str_float AW) (w_xml_ok AW) ss1 = Ok d /\
  (forall s x, In s [zone_a; zone_b] -> In x (flat_points (ab_pos (as_boundary s))) -> twelve_digits x) /\
  (forall s x, In s ss1 -> In x (source_numbers s) -> ordinary_size x) /\
  (forall q, q <> t "in/ab.xml" -> afiles q = dfiles q) /\ afiles (t "in/ab.xml") = Some (t "res") /\
  w_xml_parse AW (t "res") = Some (reparsed demo_indent 0 d).
Proof.
  destruct (ok_gives _ _ again_runs) as (c1 & R1 & P). unfold result_ok in P. destruct (cx_sms c1) as [ss1|] eqn:SS; [|discriminate].
  apply andb_true_iff in P. destruct P as (P1 & P2). destruct (@write_doc FL py_str (fun _ => true) ss1) as [d|] eqn:WD; [|discriminate].
  apply xml_eqb_ok in P2. exists c1, ss1, d.
  split; [exact basic_only|]. split; [reflexivity|]. split; [clear; discriminate|]. split; [clear; discriminate|].
  split; [exact aw_sources|]. split; [repeat (apply Forall_cons; [apply square_writable|]); constructor|].
  split; [exact R1|]. split; [exact SS|]. split; [exact WD|]. split; [|split].
  - intros s x [<-|[<-|[]]]; apply square_twelve.
    + apply (is_literal _ false 20 0); [vm_compute; reflexivity|lia|lia].
    + apply (is_literal _ false 21 0); [vm_compute; reflexivity|lia|lia].
    + apply (is_literal _ false 30 0); [vm_compute; reflexivity|lia|lia].
    + apply (is_literal _ false 31 0); [vm_compute; reflexivity|lia|lia].
  - intros s x I J. rewrite forallb_forall in P1. specialize (P1 s I). rewrite forallb_forall in P1. apply sizeb_ok. now apply P1.
  - split; [|split; [reflexivity|]].
    + intros q N. unfold afiles, write_file. destruct (text_eqb (t "in/ab.xml") q) eqn:E; auto. apply text_eqb_eq in E. congruence.
    + subst d. reflexivity.
Qed.

(** ** A zone whose boundary has more digits than are printed *)

(** One more earthquake, just inside the eastern side of the zone. *)
Definition edge_quakes := (quakes ++ [quake "15" "2011" "2" "3" "20.95000000000003" "38.3" "6.8"])%list.
Definition edge_zone := square "a" "20.0" "20.95000000000005".
Definition edge_files : files := demo_files [(t "in/cat.csv", ctext edge_quakes); (t "in/ab.xml", t "edge")].
(** The document itself holds all digits (repr). *)
Definition edge_doc : xml := match @write_doc FL py_repr (fun _ => true) [edge_zone] with Ok d => d | Err _ => Elem "" [] None [] end.
Definition EW0 : world FL := demo_world [(t "edge", edge_doc)] [t "out"].
Definition edge_res : xml := document (sources_of (run_config EW0 basic edge_files)).
Definition EW : world FL := demo_world [(t "edge", edge_doc); (t "res", reparsed demo_indent 0 edge_res)] [t "out"].
Definition edge_again : files := write_file (t "in/ab.xml") (t "res") edge_files.

Definition res_text (c : context FL) : option text := cx_files c (t "out/res.xml").

Lemma edge_runs : completes (result_ok (xml_eqb edge_res)) (run_config EW basic edge_files) = true.
Proof. vm_cast_no_check (@eq_refl bool true). Qed.
Lemma edge_again_runs : completes (fun c2 => negb (opt_text_eqb (res_text (fst (run_config EW basic edge_files))) (res_text c2))) (run_config EW basic edge_again) = true.
Proof. vm_cast_no_check (@eq_refl bool true). Qed.

Lemma edge_sources : sources_read EW basic edge_files [edge_zone].
Proof.
  exists (t "in/ab.xml"), (t "edge"), edge_doc. split; [reflexivity|]. split; [discriminate|]. split; [reflexivity|]. split; [reflexivity|].
  vm_cast_no_check (@eq_refl (list (area_source FL) * option exn) ([edge_zone], None)).
Qed.

Lemma C113_refuted_proof : exists (W : world FL) cf sm p f1 ss c1 ss1 d f2 ct c2,
  w_parse_float W = py_float /\ w_str_float W = py_str /\ only_processing cf /\ cf_source_model_file cf = Given sm /\ cf_result_file cf = Given p /\
  cf_eq_catalog_file cf <> Given sm /\ cf_completeness_table_file cf <> Given sm /\
  sources_read W cf f1 ss /\ Forall (writable (w_xml_ok W)) ss /\ run_config W cf f1 = (c1, None) /\ cx_sms c1 = Some ss1 /\
  write_doc (w_str_float W) (w_xml_ok W) ss1 = Ok d /\
  (forall q, q <> sm -> f2 q = f1 q) /\ f2 sm = Some ct /\ w_xml_parse W ct = Some (reparsed demo_indent 0 d) /\
  run_config W cf f2 = (c2, None) /\ cx_files c2 p <> cx_files c1 p.
Proof.
  destruct (ok_gives _ _ edge_runs) as (c1 & R1 & P). unfold result_ok in P. destruct (cx_sms c1) as [ss1|] eqn:SS; [|discriminate].
  apply andb_true_iff in P. destruct P as (_ & P2). destruct (@write_doc FL py_str (fun _ => true) ss1) as [d|] eqn:WD; [|discriminate].
  apply xml_eqb_ok in P2. destruct (ok_gives _ _ edge_again_runs) as (c2 & R2 & Q).
  exists EW, basic, (t "in/ab.xml"), (t "out/res.xml"), edge_files, [edge_zone], c1, ss1, d, edge_again, (t "res"), c2.
  split; [reflexivity|]. split; [reflexivity|]. split; [exact basic_only|]. split; [reflexivity|]. split; [reflexivity|]. split; [clear; discriminate|]. split; [clear; discriminate|].
  split; [exact edge_sources|]. split; [repeat (apply Forall_cons; [apply square_writable|]); constructor|].
  split; [exact R1|]. split; [exact SS|]. split; [exact WD|]. split; [|split; [reflexivity|split; [|split; [exact R2|]]]].
  - intros q N. unfold edge_again, write_file. destruct (text_eqb (t "in/ab.xml") q) eqn:E; auto. apply text_eqb_eq in E. congruence.
  - subst d. reflexivity.
  - intros E. rewrite R1 in Q. cbn [fst] in Q. unfold res_text in Q. rewrite E in Q. destruct (cx_files c1 (t "out/res.xml")) as [x|]; cbn in Q; [|discriminate].
    assert (X : text_eqb x x = true) by (now apply text_eqb_eq). rewrite X in Q. discriminate.
Qed.
