(** Witnesses for C119: cumulative-moment estimates below the observed maximum, in binary64. *)
From Coq Require Import ZArith Bool String List SpecFloat.
From Verif Require Import Base Ops FloatOps Libm PyFloat MaxMag Demo.
From Coq Require Import List.
Import ListNotations.
Local Open Scope string_scope.

Definition steady_years : list (@T FL) := map fl ["2000"; "2001"; "2002"].
Definition steady_mags : list (@T FL) := map fl ["7"; "6.9"; "7"].

(** 6.526248146889645... *)
Definition steady_estimate : @T FL :=
  match @cumulative_moment FL steady_years steady_mags with Ok v => v | Err _ => fl "9" end.

Lemma steady_run : @cumulative_moment FL steady_years steady_mags = Ok steady_estimate.
Proof. vm_cast_no_check (@eq_refl (res (@T FL)) (Ok steady_estimate)). Qed.
Lemma steady_below : @ltb FL steady_estimate (fl "6.6") = true.
Proof. vm_cast_no_check (@eq_refl bool true). Qed.

(** One M7 a year. *)
Lemma uniform_run : @cumulative_moment FL (map fl ["2000"; "2001"]) (map fl ["7"; "7"]) = Ok (S754_infinity true).
Proof. vm_cast_no_check (@eq_refl (res (@T FL)) (Ok (S754_infinity true))). Qed.
Lemma uniform_below : @ltb FL (S754_infinity true) (fl "7") = true.
Proof. vm_cast_no_check (@eq_refl bool true). Qed.
Lemma six_seven : @ltb FL (fl "6.6") (fl "7") = true.
Proof. vm_cast_no_check (@eq_refl bool true). Qed.

Lemma C119_refuted_proof :
  (exists (year mag : list (@T FL)) v m, @cumulative_moment FL year mag = Ok v /\ In m mag /\
     @ltb FL v (fl "6.6") = true /\ @ltb FL (fl "6.6") m = true) /\
  (exists (year mag : list (@T FL)) v m, @cumulative_moment FL year mag = Ok v /\ In m mag /\
     v = S754_infinity true /\ @ltb FL v m = true).
Proof.
  split.
  - exists steady_years, steady_mags, steady_estimate, (fl "7").
    split; [exact steady_run|]. split; [left; reflexivity|]. split; [exact steady_below|exact six_seven].
  - exists (map fl ["2000"; "2001"]), (map fl ["7"; "7"]), (S754_infinity true), (fl "7").
    split; [exact uniform_run|]. split; [left; reflexivity|]. split; [reflexivity|exact uniform_below].
Qed.
