(** Property C125: equality of tectonic regions, tectonic_region.py:60-78, in binary64. *)
From Coq Require Import ZArith Bool List String.
From Coq Require Import Floats.SpecFloat.
From Verif Require Import Base Ops FloatOps SimpleFault Tectonic FaultCalc RegionEq RegionEqProofs.
Import ListNotations.
Local Open Scope string_scope.

(** C125.  Among the regions that the constructor accepts, == is reflexive, symmetric and transitive
    (so no accepted region differs from itself through a NaN), and != is its negation. *)
Theorem C125_region_equality : forall (lm : libm) rid msr smod dlr rid' msr' smod' dlr' rid2 msr2 smod2 dlr2 r s t,
  @region_init (FOps lm) rid msr smod dlr = Ok r ->
  @region_init (FOps lm) rid' msr' smod' dlr' = Ok s ->
  @region_init (FOps lm) rid2 msr2 smod2 dlr2 = Ok t ->
  region_eqb r r = true /\ (region_eqb r s = true -> region_eqb s r = true) /\
  (region_eqb r s = true -> region_eqb s t = true -> region_eqb r t = true) /\
  (region_neb r s = true <-> region_eqb r s <> true).
Proof.
  intros lm rid msr smod dlr rid' msr' smod' dlr' rid2 msr2 smod2 dlr2 r s t R S T2.
  split; [apply (region_refl lm); now exists rid, msr, smod, dlr|]. split; [apply (region_sym lm)|].
  split; [apply (region_trans lm)|]. unfold region_neb. rewrite negb_true_iff, not_true_iff_false. reflexivity.
Qed.
Print Assumptions C125_region_equality.

(** C125: equal regions are interchangeable: same identifier, same lists of models, shear moduli and
    displacement ratios, and the same activity rates (or the same exception) on every fault. *)
Theorem C125_equal_regions_same_rates : forall (lm : libm) rid msr smod dlr rid' msr' smod' dlr' r s,
  @region_init (FOps lm) rid msr smod dlr = Ok r ->
  @region_init (FOps lm) rid' msr' smod' dlr' = Ok s ->
  region_eqb r s = true ->
  rid = rid' /\ pd_values msr = pd_values msr' /\ pd_values smod = pd_values smod' /\ pd_values dlr = pd_values dlr' /\
  forall wc slip asc sf b mn w mx rake sc,
    get_mfd wc slip asc r sf b mn w mx rake sc = get_mfd wc slip asc s sf b mn w mx rake sc.
Proof. exact C125_same_proof. Qed.
Print Assumptions C125_equal_regions_same_rates.

(** A default region equals the one built from its own numbers; a weight of -0.0 equals one of 0.0;
    another shear modulus makes a different region; a NaN weight is refused. *)
Example C125_case : forall lm : libm, let AR := FOps lm in
  let one : @T AR := F_ofZ 1 in
  let zero (b : bool) : @T AR := S754_zero b in
  let nan : @T AR := S754_nan in
  let smod (v w : @T AR) := @mkDict AR (@T AR) (Some [v; @ofZ AR 30]) (Some [one; w]) false in
  let region d := @region_init AR "005" DEFAULT_MSR d DEFAULT_DLR in
  match @create_tect_region_by_name AR "Volcanic" None None None,
        @region_init AR "005" (@mkDict AR string (Some ["WC1994"]) (Some [one]) false)
          (@mkDict AR (@T AR) (Some [@ofZ AR 29]) (Some [one]) false)
          (@mkDict AR (@T AR) (Some [@lit AR 125 10000000]) (Some [one]) false),
        region (smod (@ofZ AR 29) (zero true)), region (smod (@ofZ AR 29) (zero false)),
        region (smod (@ofZ AR 31) (zero false)), region (smod (@ofZ AR 29) nan) with
  | Ok r, Ok s, Ok t, Ok u, Ok v, Err ValueError =>
      region_eqb r s && region_eqb t u && negb (region_eqb u v) && region_neb u v
  | _, _, _, _, _, _ => false
  end = true.
Proof. intros lm AR. vm_compute. reflexivity. Qed.
