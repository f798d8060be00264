(** Property C121: stepp_analysis, completeness.py:34-143, when every event is listed n times. *)
From Coq Require Import ZArith Arith Bool List Permutation Lia Reals Lra.
From Verif Require Import Base Ops RFacts BaseFacts Completeness SteppSpec SteppProofs CopiesSpec StepCopies.
Import ListNotations.
Local Open Scope R_scope.

(** C121.  [evs] are (year, magnitude) pairs and [copies n evs] is [evs] written n times one
    after another.  For a tolerance of at most 3 and a catalogue whose number of events times
    number of years is at most 10^12, listing every event n times, in any order, gives the
    same table (and the same exception when there is one). *)
Theorem C121_stepp_repeated_events :
  forall (n : nat) (evs evs' : list (R * R)) (dm dt ttol : R) (iloc : bool),
  (0 < n)%nat -> 0 < dt -> ttol <= 3 -> Permutation evs' (copies n evs) ->
  (forall e e', In e evs -> In e' evs -> INR (length evs) * (fst e - fst e' + 2) <= 10 ^ 12) ->
  @stepp_analysis ROps (map fst evs') (map snd evs') dm dt ttol iloc
  = @stepp_analysis ROps (map fst evs) (map snd evs) dm dt ttol iloc.
Proof. exact C121_proof. Qed.
Print Assumptions C121_stepp_repeated_events.

(** Eight events listed twice: two bins, the same two completeness years. *)
Example C121_case :
  let evs := combine w_year w_mw in
  (forall e e', In e evs -> In e' evs -> INR (length evs) * (fst e - fst e' + 2) <= 10 ^ 12) /\
  length (copies 2 evs) = 16%nat /\
  @stepp_analysis ROps (map fst (copies 2 evs)) (map snd (copies 2 evs)) (1/10) 1 (2/10) false
  = Ok [(1998, 4); (1998, 41/10)].
Proof.
  intros evs.
  assert (B : forall e e', In e evs -> In e' evs -> INR (length evs) * (fst e - fst e' + 2) <= 10 ^ 12).
  { intros e e' I I'. assert (Y : forall x, In x evs -> 1997 <= fst x <= 2000).
    { intros x X. unfold evs, w_year, w_mw in X. cbn [combine In] in X.
      repeat (destruct X as [<-|X]; [cbn [fst]; lra|]). destruct X. }
    apply Y in I. apply Y in I'. change (length evs) with 8%nat. simpl INR. simpl pow. lra. }
  split; [exact B|]. split; [reflexivity|].
  rewrite (C121_stepp_repeated_events 2 evs) by (first [exact B | lra | lia | apply Permutation_refl]).
  exact w_table.
Qed.
