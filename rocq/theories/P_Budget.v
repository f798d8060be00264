(** Property C112: the seismic moment released by the rates of a fault. *)
From Coq Require Import Reals ZArith Bool Arith Lia Lra String List.
From Verif Require Import Base Ops RFacts CatUtil SimpleFault Tectonic FaultCalc FaultSpec FaultProofs BudgetSpec BudgetProofs.
Import ListNotations.
Local Open Scope R_scope.

(** C112 is false as stated (the rates release no more moment than the slip accumulates on the area
    of the fault): for every region and every fault, all large enough maximum magnitudes give rates
    that release more, even when each earthquake is counted with the smallest moment of its bin. *)
Theorem C112_own_area_budget_refuted : forall (wc : R -> option R -> R) rake rid msr smod dlr trace upp low dip tr sf mu ratio,
  @region_init ROps rid msr smod dlr = Ok tr ->
  @simple_fault_init ROps trace upp low dip = Ok sf ->
  @shear_mod_first_value ROps tr = Ok mu -> @disp_length_ratio_first_value ROps tr = Ok ratio ->
  exists M, forall m, M <= m ->
    exists rates, @get_mfd ROps wc 1 0 tr sf 1 (m - 1 / 2) 1 (Some m) rake (@MOMENT_SCALING ROps) = Ok rates /\
      accumulation mu (@get_width ROps sf) (@get_length ROps sf * 100000) 1
      < Rsum (map (fun r => r * seismic_moment (1605 / 100) (15 / 10) (m - 1)) rates).
Proof. exact C112_refuted_proof. Qed.
Print Assumptions C112_own_area_budget_refuted.

(** The reason: with a given maximum magnitude the length of the fault is not used, in any
    arithmetic. *)
Theorem C112_length_unused : forall (AR : Ops) (wc : T -> option T -> T) (slip asc : T) tr sf sf' (b min w m : T) rake scaling,
  @get_width AR sf = @get_width AR sf' ->
  @get_mfd AR wc slip asc tr sf b min w (Some m) rake scaling = @get_mfd AR wc slip asc tr sf' b min w (Some m) rake scaling.
Proof. exact C112_width_proof. Qed.
Print Assumptions C112_length_unused.

(** What holds: the budget is that of a fault as long as the rupture of the largest earthquake.
    There is one magnitude inside each bin such that the moments add up exactly to the part of that
    budget between the outer edges of the bins.  At the lower edges of the bins they add up to less
    than the budget when the bins end at the maximum magnitude, and never to more than the budget
    times 10^((d - b) w / 2).  Missing: the area of the fault itself (refuted). *)
Theorem C112_moment_budget_partial : forall (wc : R -> option R -> R) (slip asc b min w : R) (mm rake : option R) (c d : R) rid msr smod dlr trace upp low dip tr sf
  (rates : list R) mu ratio,
  0 < slip -> 0 <= asc < 1 -> 0 < w -> 0 < b < d ->
  @region_init ROps rid msr smod dlr = Ok tr ->
  @simple_fault_init ROps trace upp low dip = Ok sf ->
  @shear_mod_first_value ROps tr = Ok mu -> @disp_length_ratio_first_value ROps tr = Ok ratio ->
  @get_mfd ROps wc slip asc tr sf b min w mm rake (c, d) = Ok rates ->
  let mmax := match mm with Some m => m | None => wc (@get_area ROps sf) rake end in
  let width := @get_width ROps sf in
  let supply := accumulation mu width (rupture_length ratio mu width c d mmax) (slip * (1 - asc)) in
  let edge k := min + (INR k - 1 / 2) * w in
  let released ms := Rsum (map2 (fun r m => r * seismic_moment c d m) rates ms) in
  0 < supply /\
  (exists ms, length ms = length rates /\ (forall k m, nth_error ms k = Some m -> edge k < m < edge (k + 1)%nat) /\
     released ms = supply * (Rpower 10 ((d - b) * (edge (length rates) - mmax)) - Rpower 10 ((d - b) * (edge 0%nat - mmax)))) /\
  released (map edge (seq 0 (length rates))) < supply * Rpower 10 ((d - b) * (w / 2)) /\
  (edge (length rates) <= mmax -> released (map edge (seq 0 (length rates))) < supply).
Proof. exact C112_budget_proof. Qed.
Print Assumptions C112_moment_budget_partial.

(** A region and a fault of two points; four bins from 4.75 to 6.75, maximum magnitude 7. *)
Example C112_case : exists tr sf mu ratio rates,
  (exists rid msr smod dlr, @region_init ROps rid msr smod dlr = Ok tr) /\
  @simple_fault_init ROps [(0, 0); (1, 1)] 0 10 30 = Ok sf /\
  @shear_mod_first_value ROps tr = Ok mu /\ @disp_length_ratio_first_value ROps tr = Ok ratio /\
  @get_mfd ROps (fun _ _ => 0) 2 (1/10) tr sf 1 5 (1/2) (Some 7) None (15, 3/2) = Ok rates /\ length rates = 4%nat.
Proof.
  set (tr := @mkRegion ROps "001" (@mkDict ROps string (Some ["Peer"%string]) (Some [1]) false) (@mkDict ROps R (Some [30]) (Some [1]) false) (@mkDict ROps R (Some [1 / 100000]) (Some [1]) false)).
  assert (HT : @region_init ROps "001" (@mkDict ROps string (Some ["Peer"%string]) (Some [1]) false) (@mkDict ROps R (Some [30]) (Some [1]) false) (@mkDict ROps R (Some [1 / 100000]) (Some [1]) false) = Ok tr).
  { apply C56_proof. split; [reflexivity|]. exists ["Peer"%string], [1], [30], [1], [1 / 100000], [1]. unfold has_lists, weighted. cbn [Rsum length].
    repeat (split; try reflexivity; try discriminate; try lra); [intros m [<-|[]]; now left|intros v [<-|[]]; lra|intros v [<-|[]]; lra]. }
  assert (F : @simple_fault_init ROps [(0, 0); (1, 1)] 0 10 30 = Ok (@mkFault ROps [(0, 0); (1, 1)] 0 10 30)).
  { apply C55_construct_proof. split; auto. split; [simpl; lia|]. split; [|lra].
    intros p [<-|[<-|[]]]; cbn [fst snd]; lra. }
  destruct (C53_proof (fun _ _ => 0) 2 (1/10) tr (@mkFault ROps [(0, 0); (1, 1)] 0 10 30) 1 5 (1/2) (Some 7) None
    15 (3/2) 30 (1/100000)) as (rates & G & L & _); try lra; [reflexivity|reflexivity|].
  exists tr, (@mkFault ROps [(0, 0); (1, 1)] 0 10 30), 30, (1/100000), rates.
  split; [eauto|]. split; [exact F|]. split; [reflexivity|]. split; [reflexivity|]. split; [exact G|].
  assert (H3 : (3 < length rates)%nat) by (apply L; simpl (INR 3); lra).
  assert (H4 : ~ (4 < length rates)%nat) by (intros H; apply L in H; simpl (INR 4) in H; lra). rops. lia.
Qed.
