(** Model of mtoolkit/scientific/completeness.py. *)
From Coq Require Import ZArith List Bool Arith.
From Verif Require Import Base Ops.
Import ListNotations.
Local Open Scope num_scope.
Local Open Scope res_scope.

Section Completeness.
Context {AR : Ops}.

(** Rounding of a magnitude to two decimals, completeness.py:60. *)
Definition round2 (x : T) : T := rintv (ofZ 100 * x) / ofZ 100.

(** mbin of completeness.py:60-64 for the already rounded magnitudes. *)
Definition stepp_mbin (mw : list T) (dm : T) : res (list T) :=
  let* lo := minv mw in
  let* hi := maxv mw in
  let lowm := floorv (ofZ 10 * lo) / ofZ 10 in
  let highm := ceilv (ofZ 10 * hi) / ofZ 10 in
  Ok (arange lowm (highm + dm) dm).

(** time_range of completeness.py:67-69. *)
Definition stepp_time_range (year : list T) (dt : T) : res (list T) :=
  let* end_time := maxv year in
  let* start_time := minv year in
  Ok (arange dt (end_time - start_time + ofZ 2) dt).

(** number_obs[ii, jj] of completeness.py:80-93, for one duration t = time_range[ii];
    the last bin has no upper limit (line 87-88). *)
Definition stepp_count (year mw : list T) (end_time : T) (mbin : list T) (t : T) (jj : nat)
  : nat :=
  let yrchk := map (fun y => y >=? (end_time - t)) year in
  let mtmp := mask_get yrchk mw in
  let lo := nth jj mbin (ofZ 0) in
  let hi := nth (jj + 1) mbin (ofZ 0) in
  if Nat.eqb jj (length mbin - 2)
  then count_true (map (fun m => m >=? lo) mtmp)
  else count_true (map (fun m => (m >=? lo) && (m <? hi)) mtmp).

(** time_diff of completeness.py:73,95-97. *)
Definition stepp_time_diff (time_range : list T) : list T :=
  let t_rate := map (fun t => ofZ 1 / sqrtv t) time_range in
  map2 div (diffs (map log10v t_rate)) (diffs (map log10v time_range)).

(** siglam[:, ii] of completeness.py:102-105 for the counts of one bin. *)
Definition stepp_siglam (counts : list nat) (time_range : list T) : list T :=
  map2 (fun n t =>
    let lamda := ofnat n / t in
    let s := sqrtv (lamda / t) in
    if s <? lit 1 100000000000000 then lit 1 100000000000000 else s) counts time_range.

(** test1 of completeness.py:106-109. *)
Definition stepp_test (counts : list nat) (time_range : list T) : list T :=
  let siglam := stepp_siglam counts time_range in
  let grad1 := map2 div (diffs (map log10v siglam)) (diffs (map log10v time_range)) in
  let resid1 := map2 sub grad1 (stepp_time_diff time_range) in
  map absv (diffs resid1).

(** tloct of completeness.py:110-114: np.any looks at the positions themselves, so the
    list [0] counts as "none"; None stands for -1. *)
Definition stepp_tloct (test1 : list T) (ttol : T) : option nat :=
  let tloct := nonzero (map (fun x => x >? ttol) test1) in
  if existsb (fun k => negb (Nat.eqb k 0)) tloct then last_opt tloct else None.

(** tloc[ii] of completeness.py:115-135 from tloct, the previous bin's tloc (None for the
    first bin) and the number of durations. *)
Definition stepp_tloc (tloct : option nat) (prev : option nat) (nt : nat) (iloc : bool)
  : nat :=
  let base := match tloct with
              | None => match prev with Some p => p | None => 0%nat end
              | Some k => if Nat.ltb nt k then nt else k
              end in
  match prev with
  | Some p => if iloc && Nat.ltb base p then p else base
  | None => base
  end.

(** The loop over bins, completeness.py:100-138: the list of comp_length. *)
Fixpoint stepp_loop (year mw : list T) (end_time : T) (mbin time_range : list T)
    (ttol : T) (iloc : bool) (prev : option nat) (bins : list nat) : res (list T) :=
  match bins with
  | [] => Ok []
  | ii :: bins' =>
      let counts := map (fun t => stepp_count year mw end_time mbin t ii) time_range in
      let tloct := stepp_tloct (stepp_test counts time_range) ttol in
      let tloc := stepp_tloc tloct prev (length time_range) iloc in
      match nth_error time_range tloc with
      | None => Err IndexError
      | Some len =>
          let* rest := stepp_loop year mw end_time mbin time_range ttol iloc
                                  (Some tloc) bins' in
          Ok (len :: rest)
      end
  end.

(** stepp_analysis, completeness.py:34-143; rows are (year, magnitude).
    np.zeros((nt, ntb - 1)) raises ValueError when there is no bin edge. *)
Definition stepp_analysis (year mw : list T) (dm dt ttol : T) (iloc : bool)
  : res (list (T * T)) :=
  let mw := map round2 mw in
  let* mbin := stepp_mbin mw dm in
  let* end_time := maxv year in
  let* time_range := stepp_time_range year dt in
  match length mbin with
  | 0%nat => Err ValueError
  | S nb =>
      let* lens := stepp_loop year mw end_time mbin time_range ttol iloc None (seq 0 nb) in
      Ok (map2 (fun l m => (end_time - l, m)) lens (firstn nb mbin))
  end.

(** The completeness part of selected_eq_flag_vector, completeness.py:168-175. *)
Definition completeness_flag (year mw : list T) (table : list (T * T)) : list Z :=
  fold_left (fun flag row =>
      mask_set (map2 (fun y m => (y <? fst row) && (m <? snd row)) year mw) 1%Z flag)
    table (repeat 0%Z (length year)).

(** selected_eq_flag_vector, completeness.py:146-184; cyear and cmw are the two columns of
    [table].  np.logical_or broadcasts a flag vector of length 1 and raises ValueError for
    any other length mismatch; with a single event the mask may be longer than the
    vector it indexes (IndexError if it selects beyond it). *)
Definition selected_eq_flag_vector (year mw : list T) (table : list (T * T))
    (flag_vector : list Z) : res (list Z) :=
  let neq := length year in
  let temp_flag := completeness_flag year mw table in
  let nz := fun z => negb (Z.eqb z 0) in
  let zeros := repeat 0%Z neq in
  if Nat.eqb (length flag_vector) neq then
    Ok (mask_set (map2 (fun a b => nz a || nz b) temp_flag flag_vector) 1%Z zeros)
  else match flag_vector, temp_flag with
       | [f], _ => Ok (mask_set (map (fun a => nz a || nz f) temp_flag) 1%Z zeros)
       | _, [t] =>
           let id0 := map (fun f => nz t || nz f) flag_vector in
           if existsb (fun b => b) (tl id0) then Err IndexError
           else Ok (mask_set id0 1%Z zeros)
       | _, _ => Err ValueError
       end.

End Completeness.
