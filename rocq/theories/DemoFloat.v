(** The demonstration printer and parser are inverse to each other. *)
From Coq Require Import ZArith Bool Ascii String List Lia.
From Coq Require Import Floats.SpecFloat.
From Verif Require Import Base Ops FloatOps PyStr Csv PyStrProofs CsvProofs EqCatWitness.
Import ListNotations.

Lemma demo_parse_repr : forall x, demo_parse (demo_repr x) = Some x.
Proof.
  intros [[]|[]| |s m e]; try reflexivity.
  unfold demo_repr. unfold demo_parse.
  assert (D : forall z c, In c (print_int z) -> c <> "p"%char /\ c <> "."%char /\ c <> "i"%char /\ c <> "n"%char).
  { intros z c H. destruct (print_int_chars z c H) as [->|B].
    - repeat split; discriminate.
    - repeat split; intros ->; vm_compute in B; lia. }
  set (body := (print_int (Z.pos m) ++ "p"%char :: print_int e)).
  assert (P : In "p"%char body) by (apply in_elt).
  assert (NE : forall c lit, ~ In "p"%char lit -> text_eqb (c :: body) lit = false).
  { intros c lit N. destruct (text_eqb (c :: body) lit) eqn:E; auto. apply text_eqb_eq in E. subst lit.
    elim N. now right. }
  rewrite !NE by (vm_compute; intuition discriminate).
  unfold body. rewrite split_on_app by (intros H; apply D in H; tauto).
  rewrite split_on_free by (intros H; apply D in H; tauto).
  rewrite !parse_print_int. destruct s; reflexivity.
Qed.

Lemma demo_repr_no_nul : forall x, no_nul (demo_repr x).
Proof.
  assert (D : forall z, ~ In chr_nul (print_int z)).
  { intros z H. destruct (print_int_chars z _ H) as [B|B]; [discriminate|vm_compute in B; lia]. }
  intros [[]|[]| |s m e] H; try (vm_compute in H; intuition discriminate).
  unfold demo_repr in H. destruct H as [H|H]; [destruct s; discriminate|].
  apply in_app_or in H. destruct H as [H|[H|H]]; [exact (D _ H)|discriminate|exact (D _ H)].
Qed.

Lemma demo_parse_empty : demo_parse [] = None.
Proof. reflexivity. Qed.
