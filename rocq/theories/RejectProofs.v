(** The exception of a rejected simple fault (C55). *)
From Coq Require Import ZArith Arith Bool List Lia Reals Lra.
From Verif Require Import Base Ops BaseFacts RFacts SimpleFault FaultSpec FaultProofs.
Import ListNotations.
Local Open Scope R_scope.

(** Only ValueError can be raised. *)
Definition only_value {A} (r : res A) : Prop := forall e, r = Err e -> e = ValueError.

Lemma ensure_value : forall b, only_value (ensure b).
Proof. intros [] e H; simpl in H; congruence. Qed.

Lemma bind_value : forall A B (r : res A) (k : A -> res B),
  only_value r -> (forall a, only_value (k a)) -> only_value (bind r k).
Proof. intros A B [a|e'] k R K e H; simpl in H. eapply K; eauto. apply R. injection H as ->. auto. Qed.

Lemma mapM_value : forall A B (f : A -> res B) l, (forall a, only_value (f a)) -> only_value (mapM f l).
Proof.
  intros A B f l F. induction l as [|a l IH]; simpl. intros e H; discriminate.
  apply bind_value; auto. intros b. apply bind_value; auto. intros bs e H; discriminate.
Qed.

Lemma init_value : forall AR (trace : list (@T AR * @T AR)) upp low dip,
  only_value (simple_fault_init trace upp low dip).
Proof.
  intros. unfold simple_fault_init.
  repeat (apply bind_value; [|intros _]); try apply ensure_value.
  - apply mapM_value. intros p. unfold check_point. apply bind_value; [|intros _]; apply ensure_value.
  - intros e H; discriminate.
Qed.

Lemma C55_rejection_proof : forall (trace : list (R * R)) upp low dip,
  ~ fault_ok trace upp low dip <-> @simple_fault_init ROps trace upp low dip = Err ValueError.
Proof.
  intros trace upp low dip. split.
  - intros N. destruct (@simple_fault_init ROps trace upp low dip) as [f|e] eqn:E.
    + apply C55_construct_proof in E. tauto.
    + f_equal. exact (init_value ROps trace upp low dip e E).
  - intros E F. assert (C := proj2 (C55_construct_proof trace upp low dip _) (conj F eq_refl)).
    rewrite E in C. discriminate.
Qed.
