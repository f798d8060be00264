(** Properties C53-C58, C80 and C81: fault_calculator.py, simple_fault.py, tectonic_region.py. *)
From Coq Require Import String ZArith Arith Bool List Lia Reals Lra.
From Coq Require Import Floats.SpecFloat.
From Verif Require Import Base Ops FloatOps BaseFacts RFacts CatUtil GeoProofs SimpleFault Tectonic
  FaultCalc FaultSpec FaultProofs RejectProofs WeightsFloat.
Import ListNotations.
Local Open Scope R_scope.

(** C53.  The rates: one for each bin centred at min_mag + k * bin_width below the maximum
    magnitude, the difference of the Anderson-Luco curve over the bin; they telescope. *)
Theorem C53_fault_rates : forall (wc : R -> option R -> R) (slip asc : R) tr sf (b min w : R) (mm rake : option R) (c d mu ratio : R),
  0 < slip -> 0 <= asc < 1 -> 0 < w -> b <> 0 ->
  @shear_mod_first_value ROps tr = Ok mu -> @disp_length_ratio_first_value ROps tr = Ok ratio ->
  let mmax := match mm with Some m => m | None => wc (@get_area ROps sf) rake end in
  let N := anderson_luco b d (slip * (1 - asc)) (moment_slip ratio mu (@get_width ROps sf) c) mmax in
  exists rates, @get_mfd ROps wc slip asc tr sf b min w mm rake (c, d) = Ok rates /\
    (forall k, (k < length rates)%nat <-> min + INR k * w < mmax) /\
    (forall k r, nth_error rates k = Some r ->
       r = N (min + (INR k - 1 / 2) * w) - N (min + (INR k + 1 / 2) * w)) /\
    Rsum rates = N (min - 1 / 2 * w) - N (min + (INR (length rates) - 1 / 2) * w).
Proof. exact C53_proof. Qed.
Print Assumptions C53_fault_rates.

(** C53.  On a constructed region and fault the rates are positive for 0 < b < d (1.5 by default). *)
Theorem C53_rates_positive : forall (wc : R -> option R -> R) (slip asc b min w : R) (mm rake : option R) (c d : R) rid msr smod dlr trace upp low dip tr sf
  (rates : list R),
  0 < slip -> 0 <= asc < 1 -> 0 < w -> 0 < b < d ->
  @region_init ROps rid msr smod dlr = Ok tr ->
  @simple_fault_init ROps trace upp low dip = Ok sf ->
  @get_mfd ROps wc slip asc tr sf b min w mm rake (c, d) = Ok rates -> forall r, In r rates -> 0 < r.
Proof. exact C53_positive_proof. Qed.
Print Assumptions C53_rates_positive.

(** C53.  The rates are proportional to the seismic slip. *)
Theorem C53_proportional_to_slip : forall (wc : R -> option R -> R) (slip asc slip' asc' : R) tr sf (b min w : R) (mm rake : option R) (c d mu ratio : R)
  (rates : list R),
  0 < slip -> 0 <= asc < 1 -> 0 < slip' -> 0 <= asc' < 1 -> b <> 0 ->
  @shear_mod_first_value ROps tr = Ok mu -> @disp_length_ratio_first_value ROps tr = Ok ratio ->
  @get_mfd ROps wc slip asc tr sf b min w mm rake (c, d) = Ok rates ->
  @get_mfd ROps wc slip' asc' tr sf b min w mm rake (c, d)
  = Ok (map (fun r => slip' * (1 - asc') / (slip * (1 - asc)) * r) rates).
Proof. exact C53_slip_proof. Qed.
Print Assumptions C53_proportional_to_slip.

Example C53_case : exists tr sf rates, @create_tect_region_by_name ROps "Volcanic" None None None = Ok tr /\
  @simple_fault_init ROps [(0, 0); (1, 1)] 0 10 30 = Ok sf /\
  @get_mfd ROps (fun _ _ => 0) 2 (1/10) tr sf 1 5 (1/2) (Some 7) None (@MOMENT_SCALING ROps) = Ok rates /\
  length rates = 4%nat.
Proof.
  destruct (C58_default_proof "Volcanic" "005" 29 (125 / 10000000)) as (tr & E & _ & _ & M & R).
  { simpl. tauto. }
  assert (F : @simple_fault_init ROps [(0, 0); (1, 1)] 0 10 30 = Ok (@mkFault ROps [(0, 0); (1, 1)] 0 10 30)).
  { apply C55_construct_proof. split; auto. split; [simpl; lia|]. split; [|lra].
    intros p [<-|[<-|[]]]; cbn [fst snd]; lra. }
  destruct (C53_fault_rates (fun _ _ => 0) 2 (1/10) tr (@mkFault ROps [(0, 0); (1, 1)] 0 10 30) 1 5 (1/2) (Some 7) None
    (1605/100) (15/10) 29 (125/10000000)) as (rates & G & L & _); auto; try lra.
  exists tr, (@mkFault ROps [(0, 0); (1, 1)] 0 10 30), rates. split; auto. split; auto. split; auto.
  assert (A := L 3%nat). assert (B := L 4%nat). rops. simpl INR in A, B.
  destruct A as [_ A]. destruct B as [B _]. specialize (A ltac:(lra)).
  destruct (le_lt_dec (length rates) 4) as [H|H]; [lia|]. specialize (B H). lra.
Qed.

(** C54, as stated, is false: all rates are negative for b = 2. *)
Theorem C54_rates_nonnegative_refuted : exists tr sf b rates,
  @create_tect_region_by_name ROps "Active Shallow Crust" None None None = Ok tr /\
  @simple_fault_init ROps [(0, 0); (1, 0)] 0 10 45 = Ok sf /\ 0 < b /\
  (forall wc rake, @get_mfd ROps wc 1 0 tr sf b 5 1 (Some 7) rake (@MOMENT_SCALING ROps) = Ok rates) /\
  rates <> [] /\ forall r, In r rates -> r < 0.
Proof. exact C54_refuted_proof. Qed.
Print Assumptions C54_rates_nonnegative_refuted.

(** C54, what holds: b at most the slope of the moment scaling.  Missing: larger b (refuted). *)
Theorem C54_rates_nonnegative_partial : forall (wc : R -> option R -> R) (slip asc b min w : R) (mm rake : option R) (c d : R) rid msr smod dlr trace upp low dip tr sf
  (rates : list R),
  0 < slip -> 0 <= asc < 1 -> 0 < w -> 0 < b <= d ->
  @region_init ROps rid msr smod dlr = Ok tr ->
  @simple_fault_init ROps trace upp low dip = Ok sf ->
  @get_mfd ROps wc slip asc tr sf b min w mm rake (c, d) = Ok rates -> forall r, In r rates -> 0 <= r.
Proof. exact C54_partial_proof. Qed.
Print Assumptions C54_rates_nonnegative_partial.

(** C81.  The sign of every rate is that of d - b, for every b other than 0. *)
Theorem C81_rate_sign : forall (wc : R -> option R -> R) (slip asc b min w : R) (mm rake : option R) (c d : R) rid msr smod dlr trace upp low dip tr sf
  (rates : list R) r,
  0 < slip -> 0 <= asc < 1 -> 0 < w -> b <> 0 ->
  @region_init ROps rid msr smod dlr = Ok tr ->
  @simple_fault_init ROps trace upp low dip = Ok sf ->
  @get_mfd ROps wc slip asc tr sf b min w mm rake (c, d) = Ok rates -> In r rates ->
  (0 < r <-> b < d) /\ (r = 0 <-> b = d) /\ (r < 0 <-> d < b).
Proof. exact C81_proof. Qed.
Print Assumptions C81_rate_sign.

Example C54_C81_case : exists b c d : R, b <> 0 /\ 0 < b <= d /\ (c, d) = @MOMENT_SCALING ROps.
Proof. exists 1, (1605/100), (15/10). split; [lra|]. split; [lra|reflexivity]. Qed.

(** C55.  The parameters with which a fault is constructed. *)
Theorem C55_construction : forall (trace : list (R * R)) upp low dip f,
  @simple_fault_init ROps trace upp low dip = Ok f <->
  fault_ok trace upp low dip /\ f = @mkFault ROps trace upp low dip.
Proof. exact C55_construct_proof. Qed.
Print Assumptions C55_construction.

(** C55.  All other parameters are rejected with ValueError. *)
Theorem C55_rejection : forall (trace : list (R * R)) upp low dip,
  ~ fault_ok trace upp low dip <-> @simple_fault_init ROps trace upp low dip = Err ValueError.
Proof. exact C55_rejection_proof. Qed.
Print Assumptions C55_rejection.

Example C55_rejection_case : ~ fault_ok [(0, 0); (1, 1)] 10 5 45.
Proof. intros (_ & _ & H & _). lra. Qed.

(** C55.  Length, width and area of a constructed fault. *)
Theorem C55_geometry : forall (trace : list (R * R)) upp low dip f,
  @simple_fault_init ROps trace upp low dip = Ok f ->
  @get_length ROps f = path_length trace /\ 0 <= @get_length ROps f /\
  low - upp <= @get_width ROps f /\ 0 < @get_width ROps f /\
  @get_width ROps f * sin (dip * (PI / 180)) = low - upp /\
  @get_area ROps f = @get_length ROps f * @get_width ROps f /\ 0 <= @get_area ROps f.
Proof. exact C55_geometry_proof. Qed.
Print Assumptions C55_geometry.

(** C55.  Reversing the trace. *)
Theorem C55_reverse : forall (trace : list (R * R)) upp low dip f,
  @simple_fault_init ROps trace upp low dip = Ok f ->
  exists f', @simple_fault_init ROps (rev trace) upp low dip = Ok f' /\
    @get_length ROps f' = @get_length ROps f /\ @get_area ROps f' = @get_area ROps f.
Proof. exact C55_reverse_proof. Qed.
Print Assumptions C55_reverse.

(** C55.  Joining two traces. *)
Theorem C55_additive : forall (t1 t2 : list (R * R)) p upp low dip f f1 f2,
  @simple_fault_init ROps (t1 ++ [p]) upp low dip = Ok f1 ->
  @simple_fault_init ROps (p :: t2) upp low dip = Ok f2 ->
  @simple_fault_init ROps (t1 ++ p :: t2) upp low dip = Ok f ->
  @get_length ROps f = @get_length ROps f1 + @get_length ROps f2 /\
  @get_area ROps f = @get_area ROps f1 + @get_area ROps f2.
Proof. exact C55_additive_proof. Qed.
Print Assumptions C55_additive.

(** C80.  The length of a fault is at least the distance between the ends of its trace. *)
Theorem C80_length_at_least_direct : forall (trace : list (R * R)) p q upp low dip f,
  @simple_fault_init ROps (p :: trace ++ [q]) upp low dip = Ok f -> gc_dist p q <= @get_length ROps f.
Proof. exact C80_proof. Qed.
Print Assumptions C80_length_at_least_direct.

Example C55_C80_case : exists f, @simple_fault_init ROps [(0, 0); (0, 1); (1, 1)] 5 10 60 = Ok f /\
  gc_dist (0, 0) (1, 1) <= @get_length ROps f.
Proof.
  assert (F : @simple_fault_init ROps ((0, 0) :: [(0, 1)] ++ [(1, 1)]) 5 10 60 = Ok (@mkFault ROps [(0, 0); (0, 1); (1, 1)] 5 10 60)).
  { apply C55_construct_proof. split; auto. split; [simpl; lia|]. split; [|lra].
    intros p [<-|[<-|[<-|[]]]]; cbn [fst snd]; lra. }
  eexists. split. exact F. exact (C80_length_at_least_direct [(0, 1)] (0, 0) (1, 1) 5 10 60 _ F).
Qed.

(** C56.  The parameters with which a tectonic region is constructed. *)
Theorem C56_region_construction : forall rid (msr : @pdict ROps string) (smod dlr : @pdict ROps R) r,
  @region_init ROps rid msr smod dlr = Ok r <->
  r = @mkRegion ROps rid msr smod dlr /\
  exists mv mw sv sw dv dw, has_lists msr mv mw /\ has_lists smod sv sw /\ has_lists dlr dv dw /\
    weighted mv mw /\ weighted sv sw /\ weighted dv dw /\
    (forall m, In m mv -> m = "Peer" \/ m = "WC1994")%string /\
    (forall v, In v sv -> 0 < v) /\ (forall v, In v dv -> 0 < v).
Proof. exact C56_proof. Qed.
Print Assumptions C56_region_construction.

(** C56.  The accessors of a constructed region. *)
Theorem C56_first_values : forall rid msr smod dlr r,
  @region_init ROps rid msr smod dlr = Ok r ->
  exists mu ratio, @shear_mod_first_value ROps r = Ok mu /\ 0 < mu /\
    @disp_length_ratio_first_value ROps r = Ok ratio /\ 0 < ratio /\
    (exists l, pd_values smod = Some (mu :: l)) /\ (exists l, pd_values dlr = Some (ratio :: l)).
Proof. exact C56_accessors_proof. Qed.
Print Assumptions C56_first_values.

Example C56_case : weighted ["WC1994"; "Peer"]%string [7/10; 3/10] /\ weighted [2; 4; 5] [2/10; 3/10; 5/10].
Proof. split; (split; [reflexivity|]; split; [discriminate|]; cbn [Rsum]; lra). Qed.

(** C57, as stated, is false: 0.7, 0.2, 0.1 (in this order) is refused in binary64. *)
Theorem C57_weights_refuted : exists ps q, (forall p, In p ps -> 0 < p)%Z /\ Zsum ps = q /\
  forall lm,
    @region_init (FOps lm) "1" (models_with lm (decimals lm ps q))
      (@single (FOps lm) _ (@ofZ (FOps lm) 30)) (@single (FOps lm) _ (@lit (FOps lm) 1 10000)) = Err ValueError.
Proof. exact C57_refuted_proof. Qed.
Print Assumptions C57_weights_refuted.

(** C57, what holds in binary64: any two weights in thousandths.  (Over the reals C56 accepts all
    lists.)  Missing: three or more weights, which depend on rounding and order. *)
Theorem C57_weights_partial : forall lm p, (0 <= p <= 1000)%Z ->
  exists r, @region_init (FOps lm) "1" (models_with lm (decimals lm [p; 1000 - p]%Z 1000))
      (@single (FOps lm) _ (@ofZ (FOps lm) 30)) (@single (FOps lm) _ (@lit (FOps lm) 1 10000)) = Ok r.
Proof. exact C57_partial_proof. Qed.
Print Assumptions C57_weights_partial.

(** The same three weights in another order are accepted. *)
Example C57_case : forall lm, exists r,
  @region_init (FOps lm) "1" (models_with lm (decimals lm [7; 1; 2]%Z 10))
      (@single (FOps lm) _ (@ofZ (FOps lm) 30)) (@single (FOps lm) _ (@lit (FOps lm) 1 10000)) = Ok r.
Proof. exact weights_order. Qed.

(** C58.  A known name: the region of the table, with the supplied dictionaries in place of the
    defaults; a missing key is reported as ValueError. *)
Theorem C58_region_by_name : forall name rid mu ratio msr smod dlr msr' smod' dlr',
  In (name, (rid, mu, ratio)) region_table ->
  effective msr (one_value "WC1994"%string) msr' -> effective smod (one_value mu) smod' ->
  effective dlr (one_value ratio) dlr' ->
  @create_tect_region_by_name ROps name msr smod dlr
  = match @region_init ROps rid msr' smod' dlr' with Err KeyError => Err ValueError | r => r end.
Proof. exact C58_known_proof. Qed.
Print Assumptions C58_region_by_name.

(** C58.  All defaults. *)
Theorem C58_default_region : forall name rid mu ratio,
  In (name, (rid, mu, ratio)) region_table ->
  exists r, @create_tect_region_by_name ROps name None None None = Ok r /\
    rg_id r = rid /\ rg_msr r = one_value "WC1994"%string /\
    @shear_mod_first_value ROps r = Ok mu /\ @disp_length_ratio_first_value ROps r = Ok ratio.
Proof. exact C58_default_proof. Qed.
Print Assumptions C58_default_region.

(** C58.  Any other name, among them the correctly spelt 'Subduction Intraslab'. *)
Theorem C58_unknown_name : forall (AR : Ops) name msr smod dlr, ~ In name (map fst region_table) ->
  create_tect_region_by_name name msr smod dlr = Err ValueError.
Proof. exact C58_unknown_proof. Qed.
Print Assumptions C58_unknown_name.

Example C58_case : In ("Volcanic", ("005", 29, 125 / 10000000))%string region_table /\
  ~ In "Subduction Intraslab"%string (map fst region_table).
Proof. split; [simpl; tauto|]. simpl. intuition discriminate. Qed.
