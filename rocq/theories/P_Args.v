(** C130 and C131: the command line. *)
From Coq Require Import Ascii String List Bool.
From Verif Require Import Base PyStr Main Argparse ArgSpec ArgProofs.
Import ListNotations.
Local Open Scope list_scope.

(** C130: every command line a user would call well formed is understood as such. *)
Theorem C130_understood : forall l f d, line plain l f d -> l <> [] -> f <> Some (t "--") -> command_line l = Runs (Options f d).
Proof. exact C130_understood_proof. Qed.
Print Assumptions C130_understood.

(** C130: and the program runs on nothing else. *)
Theorem C130_only_these : forall l f d, command_line l = Runs (Options f d) -> line value_like l f d /\ f <> Some (t "--").
Proof. exact C130_only_these_proof. Qed.
Print Assumptions C130_only_these.

(** C131: -d -iFILE and -diFILE do not always mean the same. *)
Theorem C131_group_refuted : exists v rest,
  command_line (t "-d" :: (t "-i" ++ v) :: rest) <> command_line ((t "-di" ++ v) :: rest).
Proof. exact C131_group_refuted_proof. Qed.
Print Assumptions C131_group_refuted.

(** C131: they do unless the text after -i starts with an equals sign. *)
Theorem C131_group_partial : forall v rest, (forall g, v <> t "=" ++ g) ->
  command_line (t "-d" :: (t "-i" ++ v) :: rest) = command_line ((t "-di" ++ v) :: rest).
Proof. exact C131_group_proof. Qed.
Print Assumptions C131_group_partial.

(** --det --inp=a.yml -i b.yml: the last file, with details. *)
Example C130_case : exists l, line plain l (Some (t "b.yml")) true /\ l = [t "--det"; t "--inp=a.yml"; t "-i"; t "b.yml"] /\
  command_line l = Runs (Options (Some (t "b.yml")) true).
Proof.
  exists [t "--det"; t "--inp=a.yml"; t "-i"; t "b.yml"]. split; [|split; [reflexivity|vm_compute; reflexivity]].
  assert (L3 : line plain [t "-i"; t "b.yml"] (Some (t "b.yml")) false).
  { apply (line_more plain [t "-i"; t "b.yml"] (Some (t "b.yml")) false [] None false); [|constructor].
    apply (says_i plain 0); [exact (grouped_plain 0 (t "i"))|intros r E; discriminate E]. }
  assert (L2 : line plain [t "--inp=a.yml"; t "-i"; t "b.yml"] (Some (t "b.yml")) false).
  { apply (line_more plain [t "--inp=a.yml"] (Some (t "a.yml")) false _ (Some (t "b.yml")) false); [|exact L3].
    apply (says_input_eq plain (t "--inp") (t "a.yml")). split; [cbn; repeat constructor|now exists (t "ut-file")]. }
  apply (line_more plain [t "--det"] None true _ (Some (t "b.yml")) false); [|exact L2].
  apply says_detailed. split; [cbn; repeat constructor|now exists (t "ailed")].
Qed.
Print Assumptions C130_case.

(** -d -ia.yml and -dia.yml. *)
Example C131_case : command_line [t "-d"; t "-ia.yml"] = Runs (Options (Some (t "a.yml")) true) /\
  command_line [t "-dia.yml"] = Runs (Options (Some (t "a.yml")) true) /\
  command_line [t "-di=a.yml"] = Runs (Options (Some (t "=a.yml")) true).
Proof. vm_compute. repeat split. Qed.
Print Assumptions C131_case.
