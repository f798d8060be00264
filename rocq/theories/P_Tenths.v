(** Property C122: recurrence_table, recurrence.py:79-121, in binary64 on magnitudes given to one
    decimal, with bins of width 0.1. *)
From Coq Require Import ZArith Arith Bool List String Lia.
From Coq Require Import Floats.SpecFloat.
From Verif Require Import Base Ops FloatOps Recurrence Libm Demo TenthSpec TenthBins.
Import ListNotations.

(** C122.  Full statement: row k of the table of magnitudes z/10 holds the number of events whose
    magnitude is (lo + k)/10, where lo/10 is the smallest one.  It is false: with magnitudes 3.0
    and 3.3 the fourth bin is empty (3.0 + 3*0.1 is above 3.3 as a double), whatever the
    mathematical library is. *)
Theorem C122_tenths_own_bin_refuted :
  exists (zs : list Z) (year : list spec_float) (lo : Z) (k : nat),
  (forall z, In z zs -> (0 <= z <= 100)%Z) /\ year <> [] /\ smallest lo zs /\
  how_many (lo + Z.of_nat k) zs = 1%nat /\
  forall lm, exists tab row,
    @recurrence_table (FOps lm) (map F_tenth zs) (F_tenth 1) year = Ok tab /\
    nth_error tab k = Some row /\ rc_n row = F_ofZ 0.
Proof.
  exists [30; 33]%Z, [F_ofZ 1990; F_ofZ 1995], 30%Z, 3%nat.
  split; [intros z [<-|[<-|[]]]; lia|]. split; [discriminate|].
  split; [split; [now left|intros x [<-|[<-|[]]]; lia]|]. split; [reflexivity|].
  intros lm.
  assert (X : match @recurrence_table (FOps lm) (map F_tenth [30; 33]%Z) (F_tenth 1) [F_ofZ 1990; F_ofZ 1995] with
              | Ok tab => option_map (@rc_n (FOps lm)) (nth_error tab 3) | Err _ => None end = Some (F_ofZ 0))
    by (vm_compute; reflexivity).
  destruct (recurrence_table _ _ _) as [tab|]; [|discriminate]. exists tab.
  destruct (nth_error tab 3) as [row|]; [|discriminate]. exists row. cbn [option_map] in X. repeat split. congruence.
Qed.
Print Assumptions C122_tenths_own_bin_refuted.

(** What remains.  No event is lost (the cumulative number of row 0 is the number of events), an
    event is counted in the bin of its magnitude or in the one just below, and when the smallest
    magnitude is 4.0 or more every row holds exactly the events of its magnitude.  Missing: the
    exact counts when the smallest magnitude is below 4.0. *)
Theorem C122_tenths_own_bin_partial :
  forall (lm : libm) (zs : list Z) (year : list spec_float),
  zs <> [] -> (forall z, In z zs -> (0 <= z <= 100)%Z) -> year <> [] ->
  exists lo tab, smallest lo zs /\
    @recurrence_table (FOps lm) (map F_tenth zs) (F_tenth 1) year = Ok tab /\
    (forall k row, nth_error tab k = Some row -> exists n, rc_n row = @ofnat (FOps lm) n /\
       (n <= how_many (lo + Z.of_nat k) zs + how_many (lo + Z.of_nat k + 1) zs)%nat /\
       ((40 <= lo)%Z -> n = how_many (lo + Z.of_nat k) zs)) /\
    (exists row, nth_error tab 0 = Some row /\ rc_cum row = @ofnat (FOps lm) (List.length zs)).
Proof. exact C122_proof. Qed.
Print Assumptions C122_tenths_own_bin_partial.

(** Five events from 4.0 to 4.3: two, none, one and two of them in the four bins. *)
Example C122_case :
  let zs := [43; 40; 42; 40; 43]%Z in
  (forall z, In z zs -> (0 <= z <= 100)%Z) /\ smallest 40%Z zs /\
  exists tab, @recurrence_table FL (map F_tenth zs) (F_tenth 1) [F_ofZ 1990; F_ofZ 1995] = Ok tab /\
  firstn 4 (map (@rc_n FL) tab) = map F_ofZ [2; 0; 1; 2]%Z.
Proof.
  intros zs. split; [intros z H; unfold zs in H; cbn [In] in H; lia|].
  split; [split; [right; now left|intros x H; unfold zs in H; cbn [In] in H; lia]|].
  assert (X : match @recurrence_table FL (map F_tenth zs) (F_tenth 1) [F_ofZ 1990; F_ofZ 1995] with
              | Ok tab => firstn 4 (map (@rc_n FL) tab) | Err _ => [] end = map F_ofZ [2; 0; 1; 2]%Z)
    by (vm_compute; reflexivity).
  destruct (recurrence_table _ _ _) as [tab|]; [|discriminate]. exists tab. split; [reflexivity|exact X].
Qed.
