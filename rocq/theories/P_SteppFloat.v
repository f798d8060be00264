(** Property C132: the counts of stepp_analysis, completeness.py:60-93, in binary64. *)
From Coq Require Import ZArith Arith Bool List String.
From Coq Require Import Floats.SpecFloat.
From Verif Require Import Base Ops FloatOps Completeness Libm Demo TenthSpec DoubleSpec FStepp.
Import ListNotations.

(** C132.  In double precision, for every duration, the counts of the magnitude bins add up to the
    number of events of the period: no event is lost or counted twice by rounding. *)
Theorem C132_stepp_counts_once_float : forall (lm : libm) (year mw : list (@T (FOps lm))) (dm endt tt : @T (FOps lm)),
  double_between (SFdiv prec64 emax64 (F_ofZ 1) (F_ofZ 500)) (F_ofZ 100) dm -> mw <> [] ->
  (forall m, In m mw -> double_between (F_ofZ (-100)) (F_ofZ 100) m) -> List.length mw = List.length year ->
  exists mbin, @stepp_mbin (FOps lm) (map (@round2 (FOps lm)) mw) dm = Ok mbin /\
    ((1 < List.length mbin)%nat ->
     list_sum (map (@stepp_count (FOps lm) year (map (@round2 (FOps lm)) mw) endt mbin tt) (seq 0 (List.length mbin - 1))) =
     List.length (filter (fun y => SFleb (SFsub prec64 emax64 endt tt) y) year)).
Proof. exact C132_between_proof. Qed.
Print Assumptions C132_stepp_counts_once_float.

(** Magnitudes 3.0, 3.3, 3.3, 3.61 in bins of 0.1: nine edges; three of the four events are in the
    last ten years, and the events at 3.3 are counted in the bin that starts at 3.2. *)
Example C132_case :
  let mw := [F_tenth 30; F_tenth 33; F_tenth 33; SFdiv prec64 emax64 (F_ofZ 361) (F_ofZ 100)]%Z in
  let year := [F_ofZ 1980; F_ofZ 1991; F_ofZ 1995; F_ofZ 2000]%Z in
  double_between (SFdiv prec64 emax64 (F_ofZ 1) (F_ofZ 500)) (F_ofZ 100) (F_tenth 1) /\
  (forall m, In m mw -> double_between (F_ofZ (-100)) (F_ofZ 100) m) /\
  match @stepp_mbin FL (map (@round2 FL) mw) (F_tenth 1) with
  | Ok mbin => (List.length mbin,
      map (@stepp_count FL year (map (@round2 FL) mw) (F_ofZ 2000) mbin (F_ofZ 10)) (seq 0 (List.length mbin - 1)))
  | Err _ => (0%nat, [])
  end = (9%nat, [0; 0; 2; 0; 0; 0; 1; 0])%nat.
Proof.
  intros mw year. split; [repeat split|]. split; [intros m H; unfold mw in H; repeat (destruct H as [<-|H]; [repeat split|]); destruct H|].
  vm_compute. reflexivity.
Qed.
Print Assumptions C132_case.
