(** Weights in binary64 (C57). *)
From Coq Require Import String ZArith Arith Bool List Lia.
From Coq Require Import Floats.SpecFloat.
From Verif Require Import Base Ops FloatOps Tectonic.
Import ListNotations.

(** The weights p/q for the integers p of a list, as Python floats. *)
Definition decimals (lm : libm) (ps : list Z) (q : Z) : list spec_float :=
  map (fun p => @lit (FOps lm) p q) ps.

(** Dictionary of n equal models with the given weights. *)
Definition models_with (lm : libm) (ws : list spec_float) : @pdict (FOps lm) string :=
  @mkDict (FOps lm) _ (Some (map (fun _ => "Peer"%string) ws)) (Some ws) false.

Definition Zsum (l : list Z) : Z := fold_right Z.add 0%Z l.

Lemma C57_refuted_proof : exists ps q, (forall p, In p ps -> 0 < p)%Z /\ Zsum ps = q /\
  forall lm,
    @region_init (FOps lm) "1" (models_with lm (decimals lm ps q))
      (@single (FOps lm) _ (@ofZ (FOps lm) 30)) (@single (FOps lm) _ (@lit (FOps lm) 1 10000)) = Err ValueError.
Proof.
  exists [7; 2; 1]%Z, 10%Z. split. { intros p [<-|[<-|[<-|[]]]]; lia. } split; [reflexivity|].
  intros lm.
  match goal with |- ?r = Err ValueError =>
    assert (C : match r with Err ValueError => true | _ => false end = true) by (vm_compute; reflexivity);
    destruct r as [?|[]]; try discriminate C; reflexivity end.
Qed.

(** The order of the weights matters. *)
Lemma weights_order : forall lm, exists r,
  @region_init (FOps lm) "1" (models_with lm (decimals lm [7; 1; 2]%Z 10))
      (@single (FOps lm) _ (@ofZ (FOps lm) 30)) (@single (FOps lm) _ (@lit (FOps lm) 1 10000)) = Ok r.
Proof.
  intros lm.
  match goal with |- exists r, ?x = Ok r =>
    assert (C : match x with Ok _ => true | _ => false end = true) by (vm_compute; reflexivity);
    destruct x; [eauto|discriminate C] end.
Qed.

(** Two weights given in multiples of 1/1000. *)
Definition two_ok (q p : nat) : bool :=
  SFeqb (SFadd prec64 emax64 (SFdiv prec64 emax64 (F_ofZ (Z.of_nat p)) (F_ofZ (Z.of_nat q)))
                             (SFdiv prec64 emax64 (F_ofZ (Z.of_nat q - Z.of_nat p)) (F_ofZ (Z.of_nat q)))) (F_ofZ 1).

Lemma thousandths : forallb (two_ok 1000) (seq 0 1001) = true.
Proof. vm_compute. reflexivity. Qed.

Lemma C57_partial_proof : forall lm p, (0 <= p <= 1000)%Z ->
  exists r, @region_init (FOps lm) "1" (models_with lm (decimals lm [p; 1000 - p]%Z 1000))
      (@single (FOps lm) _ (@ofZ (FOps lm) 30)) (@single (FOps lm) _ (@lit (FOps lm) 1 10000)) = Ok r.
Proof.
  intros lm p H. assert (T := proj1 (forallb_forall _ _) thousandths (Z.to_nat p)).
  assert (I : In (Z.to_nat p) (seq 0 1001)) by (apply in_seq; lia). specialize (T I). unfold two_ok in T.
  rewrite Z2Nat.id in T by lia. change (Z.of_nat 1000) with 1000%Z in T.
  unfold region_init, models_with, decimals, check_len, check_msr, check_weights, reduce_add, single.
  cbn [map pd_values pd_weights lookup bind List.length Nat.eqb forallb fold_left].
  unfold lit. cbn [ofZ add div eqb FOps]. rewrite T.
  replace (existsb (String.eqb "Peer") SUPPORTED_MSR) with true by reflexivity. cbn [andb bind].
  cbn [bind negb]. replace (SFeqb (F_ofZ 1) (F_ofZ 1)) with true by (vm_compute; reflexivity). cbn [negb bind].
  match goal with |- context [@check_values ?A ?x ?y] =>
    assert (V : @check_values A x y = Ok tt) by (vm_compute; reflexivity); rewrite V end.
  cbn [bind]. eauto.
Qed.
