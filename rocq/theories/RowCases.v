(** Concrete tables for C116. *)
From Coq Require Import ZArith Bool String List Permutation.
From Verif Require Import Base Ops Recurrence Demo.
Import ListNotations.

Definition row_years := map fl ["1981";"1991";"1993";"1995";"1996";"1997";"1998";"1999"]%string.
Definition row_mags := map fl ["5.2";"4.1";"4.0";"4.6";"4.2";"4.1";"4.9";"4.3"]%string.
Definition small_first := [(fl "1990", fl "4"); (fl "1980", fl "5")].
Definition large_first := [(fl "1980", fl "5"); (fl "1990", fl "4")].

Definition b_apart (x y : res (@T FL * @T FL * @T FL * @T FL)) : bool :=
  match x, y with
  | Ok (b, _, _, _), Ok (b', _, _, _) => @ltb FL (@add FL b' (fl "0.15")) b
  | _, _ => false
  end.

Lemma b_differs : b_apart
  (@recurrence_analysis FL 200 row_years row_mags small_first (fl "0.1") "Weichert" (fl "4") (fl "1"))
  (@recurrence_analysis FL 200 row_years row_mags large_first (fl "0.1") "Weichert" (fl "4") (fl "1")) = true.
Proof. vm_cast_no_check (@eq_refl bool true). Qed.

Lemma b_apart_ok : forall x y, b_apart x y = true -> exists b sb a sa b' sb' a' sa',
  x = Ok (b, sb, a, sa) /\ y = Ok (b', sb', a', sa') /\ @ltb FL (@add FL b' (fl "0.15")) b = true.
Proof.
  intros x y H. destruct x as [(((b & sb) & a) & sa)|e]; [|exact (False_ind _ (eq_ind false (fun z => if z then False else True) I true H))].
  destruct y as [(((b' & sb') & a') & sa')|e]; [|exact (False_ind _ (eq_ind false (fun z => if z then False else True) I true H))].
  exists b, sb, a, sa, b', sb', a', sa'. split; [reflexivity|]. split; [reflexivity|]. exact H.
Qed.

Lemma C116_refuted_proof : exists (year mag : list (@T FL)) tab tab' fuel window ref twin b sb a sa b' sb' a' sa',
  Permutation tab tab' /\
  @recurrence_analysis FL fuel year mag tab window "Weichert" ref twin = Ok (b, sb, a, sa) /\
  @recurrence_analysis FL fuel year mag tab' window "Weichert" ref twin = Ok (b', sb', a', sa') /\
  @ltb FL (@add FL b' (fl "0.15")) b = true.
Proof.
  destruct (b_apart_ok _ _ b_differs) as (b & sb & a & sa & b' & sb' & a' & sa' & E & E' & D).
  exists row_years, row_mags, small_first, large_first, 200%nat, (fl "0.1"), (fl "4"), (fl "1"), b, sb, a, sa, b', sb', a', sa'.
  split; [apply perm_swap|]. split; [exact E|]. split; [exact E'|]. exact D.
Qed.
