(** Model of mtoolkit/scientific/fault_calculator.py. *)
From Coq Require Import ZArith List Bool.
From Verif Require Import Base Ops SimpleFault Tectonic.
Import ListNotations.
Local Open Scope num_scope.
Local Open Scope res_scope.

Section FaultCalc.
Context {AR : Ops}.

(** WC1994().get_median_mag(area, rake) of nhlib (fault_calculator.py:67-68): an external
    library, taken as a parameter. *)
Variable wc_median_mag : T -> option T -> T.

(** MOMENT_SCALING, fault_calculator.py:26. *)
Definition MOMENT_SCALING : T * T := (lit 1605 100, lit 15 10).

(** _cumulative_value, fault_calculator.py:92-114. *)
Definition cumulative_value (slip mmax mag_value bbar dbar beta : T) : T :=
  ((dbar - bbar) / bbar) * ((slip / ofZ 10) / beta)
  * expv (bbar * (mmax - mag_value))
  * expv (neg (dbar / ofZ 2) * mmax).

(** The loop of fault_calculator.py:86-87 over cumulative_values[0:-2]: the last
    difference is left out. *)
Fixpoint rate_diffs (c : list T) : list T :=
  match c with
  | x :: ((y :: (_ :: _)) as c') => (x - y) :: rate_diffs c'
  | _ => []
  end.

(** beta of fault_calculator.py:71-75. *)
Definition mfd_beta (dlr smod width : T) (scaling : T * T) : T :=
  sqrtv (dlr * powv (ofZ 10) (fst scaling)
         / ((smod * ofZ 10000000000) * (width * ofZ 100000))).

(** Magnitudes of fault_calculator.py:79-80. *)
Definition mfd_mags (min_mag max_mag bin_width : T) : list T :=
  arange (min_mag - (bin_width / ofZ 2)) (max_mag + (lit 15 10 * bin_width)) bin_width.

(** get_mfd, fault_calculator.py:29-89. *)
Definition get_mfd (slip aseismic_coef : T) (tr : region AR) (sf : simple_fault AR)
    (b_value min_mag bin_width : T) (max_mag rake : option T) (scaling : T * T)
  : res (list T) :=
  if negb (slip >? ofZ 0) then Err AssertionError
  else if negb ((ofZ 0 <=? aseismic_coef) && (aseismic_coef <? ofZ 1)) then Err AssertionError
  else
    let max_mag := match max_mag with
                   | Some m => m
                   | None => wc_median_mag (get_area sf) rake
                   end in
    let* dlr := disp_length_ratio_first_value tr in
    let* smod := shear_mod_first_value tr in
    let beta := mfd_beta dlr smod (get_width sf) scaling in
    let dbar := snd scaling * lnv (ofZ 10) in
    let bbar := b_value * lnv (ofZ 10) in
    let mag := mfd_mags min_mag max_mag bin_width in
    let seismic_slip := slip * (ofZ 1 - aseismic_coef) in
    let cumulative_values :=
      map (fun m => cumulative_value seismic_slip max_mag m bbar dbar beta) mag in
    Ok (rate_diffs cumulative_values).

End FaultCalc.
