(** C117: completeness and maximum magnitude on a magnitude scale with another zero. *)
From Coq Require Import Reals ZArith Bool Lia Lra String List.
From Verif Require Import Base Ops RFacts Completeness MaxMag FrameSpec ShiftSpec SteppProofs MagShift P_MaxMag.
From Coq Require Import List.
Import ListNotations.
Local Open Scope R_scope.

(** C117.  Add the same number to every magnitude.  Selection with a table raised by the same number is unchanged,
    for any number; Stepp's table is raised by it, for multiples of 0.1 (the bins start at a tenth); Kijko's maximum
    magnitude is raised by it and its error unchanged, for any number (the cumulative moment: C49_shift). *)
Theorem C117_magnitude_scale : forall (year mag sig : list R) (tab : list (R * R)),
  (forall c flags, @selected_eq_flag_vector ROps year (later c mag) (raised c tab) flags
                 = @selected_eq_flag_vector ROps year mag tab flags) /\
  (forall z dm dt ttol iloc, let c := IZR z / 10 in
     @stepp_analysis ROps year (later c mag) dm dt ttol iloc
     = match @stepp_analysis ROps year mag dm dt ttol iloc with Ok t => Ok (raised c t) | Err e => Err e end) /\
  (forall c fuel tol maxit neq ns normals m s,
     @maximum_magnitude_analysis ROps fuel year mag sig "Kijko_Npg" tol maxit neq ns normals = Ok (m, s) ->
     @maximum_magnitude_analysis ROps fuel year (later c mag) sig "Kijko_Npg" tol maxit neq ns normals = Ok (m + c, s)).
Proof. exact C117_proof. Qed.
Print Assumptions C117_magnitude_scale.

(** Stepp's table of C30's catalogue one magnitude unit higher, and a Kijko estimate two units higher. *)
Example C117_case :
  @stepp_analysis ROps w_year (later (10 / 10) w_mw) (1/10) 1 (2/10) false
  = Ok (raised (10 / 10) [(1998, 4); (1998, 41/10)]) /\
  exists m s, forall year normals,
    @maximum_magnitude_analysis ROps 12 year [4; 6] [1/10; 2/10] "Kijko_Npg" (1/1000) 10 100 51 normals = Ok (m, s) /\
    @maximum_magnitude_analysis ROps 12 year (later 2 [4; 6]) [1/10; 2/10] "Kijko_Npg" (1/1000) 10 100 51 normals = Ok (m + 2, s).
Proof.
  split.
  - destruct (C117_magnitude_scale w_year w_mw [] []) as (_ & H & _). specialize (H 10%Z (1/10) 1 (2/10) false). cbv zeta in H.
    rewrite H. rewrite w_table. reflexivity.
  - destruct C47_case as ((m, s) & E). exists m, s. intros year normals. split; [exact E|].
    destruct (C117_magnitude_scale year [4; 6] [1/10; 2/10] []) as (_ & _ & H). apply H. exact E.
Qed.
