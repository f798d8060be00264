(** Model of mtoolkit/scientific/declustering.py. *)
From Coq Require Import ZArith List Bool Arith.
From Verif Require Import Base Ops CatUtil.
Import ListNotations.
Local Open Scope num_scope.
Local Open Scope res_scope.

Section Decluster.
Context {AR : Ops}.

(** ** Windows *)

(** GardnerKnopoffWindow.calc for one magnitude, declustering.py:87-92: (sw_space, sw_time). *)
Definition gk_window (m : T) : T * T :=
  (powv (ofZ 10) (lit 1238 10000 * m + lit 983 1000),
   if m <? lit 65 10
   then powv (ofZ 10) (lit 5409 10000 * m - lit 547 1000) / ofZ 365
   else powv (ofZ 10) (lit 32 1000 * m + lit 27389 10000) / ofZ 365).

(** GruenthalWindow.calc for one magnitude, declustering.py:115-121. *)
Definition gruenthal_window (m : T) : T * T :=
  (expv (lit 177 100 + sqrtv (lit 37 1000 + lit 102 100 * m)),
   if m >=? lit 65 10
   then powv (ofZ 10) (lit 28 10 + lit 24 1000 * m) / ofZ 365
   else absv (expv (neg (lit 395 100) + sqrtv (lit 62 100 + lit 1732 100 * m)) / ofZ 365)).

(** UhrhammerWindow.calc for one magnitude, declustering.py:144-147. *)
Definition uhrhammer_window (m : T) : T * T :=
  (expv (neg (lit 1024 1000) + lit 804 1000 * m),
   expv (neg (lit 287 100) + lit 1235 1000 * m / ofZ 365)).

(** The keys of time_dist_windows, declustering.py:38-40,149-151; any other key raises
    KeyError. *)
Inductive window_opt := TDW_GARDNERKNOPOFF | TDW_GRUENTHAL | TDW_UHRHAMMER | TDW_OTHER.

(** time_dist_windows[window_opt].calc, declustering.py:149-151,181,334. *)
Definition window_calc (w : window_opt) : res (T -> T * T) :=
  match w with
  | TDW_GARDNERKNOPOFF => Ok gk_window
  | TDW_GRUENTHAL => Ok gruenthal_window
  | TDW_UHRHAMMER => Ok uhrhammer_window
  | TDW_OTHER => Err KeyError
  end.

(** ** Sorting *)

(** np.argsort(m, kind='heapsort') on magnitudes, declustering.py:188,342.  heapsort is
    not stable, so the sort is a parameter: any function returning an order of the
    positions (see [is_argsort] in DeclusterSpec.v). *)
Variable argsort : list T -> list nat.

(** Position of a number in a list (0 if absent). *)
Fixpoint index_of (k : nat) (l : list nat) : nat :=
  match l with
  | [] => 0
  | x :: l' => if Nat.eqb k x then 0 else S (index_of k l')
  end.

(** id1 = np.argsort(eqid), declustering.py:225,386: eqid is a permutation of 0..neq-1,
    so position k of the sorted order is where k occurs. *)
Definition argsort_ids (eqid : list nat) : list nat :=
  map (fun k => index_of k eqid) (seq 0 (length eqid)).

(** ** Gardner-Knopoff *)

(** A sorted catalogue row together with the vectors that the code keeps in parallel with
    it: decimal year, distance window, time window (declustering.py:178-193). *)
Record srow : Type := mkSrow { s_ev : event AR; s_time : T; s_space : T; s_twin : T }.

(** Mutable state of the loop: vcl, flagvector, clust_index (declustering.py:185-197). *)
Record dstate : Type := mkD { d_vcl : list nat; d_flag : list Z; d_ci : nat }.

(** vsel of declustering.py:201-204: events inside the time window of row i.  The third
    argument of np.logical_and is the output array, so flagvector == 0 plays no part. *)
Definition gk_time_sel (fs : T) (rows : list srow) (ri : srow) : list bool :=
  map (fun r => let dt := s_time r - s_time ri in
                (dt >=? (- (s_twin ri) * fs)) && (dt <=? s_twin ri)) rows.

(** One iteration of the loop, declustering.py:198-222. *)
Definition gk_step (fs : T) (rows : list srow) (st : dstate) (i : nat) : dstate :=
  match nth_error rows i with
  | None => st
  | Some ri =>
    if Nat.eqb (nth i (d_vcl st) 0) 0 then
      let dt := map (fun r => s_time r - s_time ri) rows in
      let vsel := gk_time_sel fs rows ri in
      let vsel1 := map (fun d => d <=? s_space ri)
                       (haversine_col (map s_ev (mask_get vsel rows)) (s_ev ri)) in
      let vsel := mask_put vsel vsel1 vsel in
      let temp_vsel := set_nth i false vsel in
      if existsb (fun b => b) temp_vsel then
        let vcl := mask_set vsel (d_ci st + 1)%nat (d_vcl st) in
        let flag := mask_set vsel 1%Z (d_flag st) in
        let temp_vsel := mask_set (map (fun t => t >=? ofZ 0) dt) false temp_vsel in
        let flag := mask_set temp_vsel (-1)%Z flag in
        let flag := set_nth i 0%Z flag in
        mkD vcl flag (d_ci st + 1)
      else st
    else st
  end.

(** Sorted rows: declustering.py:175-194 after the flip of the sort order. *)
Definition sorted_rows (cat : list (event AR)) (years : list T) (wcalc : T -> T * T)
    (id0 : list nat) : list srow :=
  let all := map2 (fun e y => let w := wcalc (ev_mw e) in mkSrow e y (fst w) (snd w))
                  cat years in
  flat_map (fun k => match nth_error all k with Some r => [r] | None => [] end) id0.

(** gardner_knopoff_decluster, declustering.py:154-233: (vcl, vmain_shock, flagvector).
    An empty catalogue matrix is a 1-D empty array, so [:, 5] raises IndexError. *)
Definition gardner_knopoff_decluster (cat : list (event AR)) (w : window_opt) (fs : T)
  : res (list nat * list (event AR) * list Z) :=
  match cat with
  | [] => Err IndexError
  | _ =>
    let m := map ev_mw cat in
    let neq := length cat in
    let* year_dec := decimal_year cat in
    let* wcalc := window_calc w in
    let id0 := rev (argsort m) in
    let rows := sorted_rows cat year_dec wcalc id0 in
    let eqid := take_idx 0%nat (seq 0 neq) id0 in
    let st0 := mkD (repeat 0%nat neq) (repeat 0%Z neq) 0 in
    let st := fold_left (gk_step fs rows) (seq 0 (neq - 1)) st0 in
    let id1 := argsort_ids eqid in
    let vcl := take_idx 0%nat (d_vcl st) id1 in
    let flag := take_idx 0%Z (d_flag st) id1 in
    let cat1 := flat_map (fun k => match nth_error (map s_ev rows) k with
                                   | Some r => [r] | None => [] end) id1 in
    let vmain := mask_get (map (fun z => Z.eqb z 0) flag) cat1 in
    Ok (vcl, vmain, flag)
  end.

(** ** AFTERAN *)

(** The loop of _find_aftershocks, declustering.py:253-261, from position j on. *)
Fixpoint find_aftershocks_from (initval time_window : T) (dtime : list T) : list bool :=
  match dtime with
  | [] => []
  | d :: rest =>
      let ddt := d - initval in
      let sel := (ddt >=? ofZ 0) && (ddt <=? time_window) in
      sel :: find_aftershocks_from (if sel then d else initval) time_window rest
  end.

(** _find_aftershocks, declustering.py:236-262; dtime[0] of an empty vector raises
    IndexError.  (nval is always the length of dtime.) *)
Definition find_aftershocks (dtime : list T) (time_window : T) : res (list bool) :=
  match dtime with
  | [] => Err IndexError
  | d0 :: rest => Ok (true :: find_aftershocks_from d0 time_window rest)
  end.

(** The loop of _find_foreshocks, declustering.py:285-297, from position j on.  When
    event j is an aftershock, j is incremented twice (lines 288 and 297), so the next event
    is passed over too and its entry stays False. *)
Fixpoint find_foreshocks_from (initval time_window : T) (dtime : list T)
    (vsel_aftershocks : list bool) {struct dtime} : list bool :=
  match dtime, vsel_aftershocks with
  | d :: rest, a :: arest =>
      if a then
        match rest, arest with
        | _ :: rest', _ :: arest' =>
            false :: false :: find_foreshocks_from initval time_window rest' arest'
        | _, _ => [false]
        end
      else
        let ddt := d - initval in
        let sel := (ddt <=? ofZ 0) && (ddt >=? (- time_window)) in
        sel :: find_foreshocks_from (if sel then d else initval) time_window rest arest
  | _, _ => []
  end.

(** _find_foreshocks, declustering.py:265-299. *)
Definition find_foreshocks (dtime : list T) (time_window : T)
    (vsel_aftershocks : list bool) : res (list bool) :=
  match dtime, vsel_aftershocks with
  | d0 :: rest, _ :: arest =>
      Ok (false :: find_foreshocks_from d0 time_window rest arest)
  | _, _ => Err IndexError
  end.

(** One iteration of the loop, declustering.py:351-382. *)
Definition af_step (tw : T) (rows : list srow) (rst : res dstate) (i : nat)
  : res dstate :=
  let* st := rst in
  match nth_error rows i with
  | None => Ok st
  | Some ri =>
    if Nat.eqb (nth i (d_vcl st) 0) 0 then
      let mdist := haversine_col (map s_ev rows) (s_ev ri) in
      let vsel := map2 (fun d c => (d <=? s_space ri) && Nat.eqb c 0) mdist (d_vcl st) in
      let dtime := map (fun r => s_time r - s_time ri) (mask_get vsel rows) in
      let* vsel1 := find_aftershocks dtime tw in
      let* vsel2 := find_foreshocks dtime tw vsel1 in
      let temp_vsel := mask_put vsel (map2 orb vsel1 vsel2) vsel in
      if Nat.ltb 1 (count_true temp_vsel) then
        let vcl := mask_set temp_vsel (d_ci st + 1)%nat (d_vcl st) in
        let vsel1 := set_nth 0 false vsel1 in
        let temp_vsel := mask_put vsel vsel1 vsel in
        let flag := mask_set temp_vsel 1%Z (d_flag st) in
        let vsel' := mask_put vsel vsel2 vsel in
        let flag := mask_set vsel' (-1)%Z flag in
        Ok (mkD vcl flag (d_ci st + 1))
      else Ok st
    else Ok st
  end.

(** afteran_decluster, declustering.py:302-395: (vcl, vmain_shock, flagvector).
    time_window is in days and divided by 365 (line 322). *)
Definition afteran_decluster (cat : list (event AR)) (w : window_opt) (time_window : T)
  : res (list nat * list (event AR) * list Z) :=
  match cat with
  | [] => Err IndexError
  | _ =>
    let tw := time_window / ofZ 365 in
    let m := map ev_mw cat in
    let neq := length cat in
    let* year_dec := decimal_year cat in
    let* wcalc := window_calc w in
    let id0 := rev (argsort m) in
    let rows := sorted_rows cat year_dec wcalc id0 in
    let eqid := take_idx 0%nat (seq 0 neq) id0 in
    let st0 := mkD (repeat 0%nat neq) (repeat 0%Z neq) 0 in
    let* st := fold_left (af_step tw rows) (seq 0 neq) (Ok st0) in
    let id1 := argsort_ids eqid in
    let vcl := take_idx 0%nat (d_vcl st) id1 in
    let flag := take_idx 0%Z (d_flag st) id1 in
    let cat1 := flat_map (fun k => match nth_error (map s_ev rows) k with
                                   | Some r => [r] | None => [] end) id1 in
    let vmain := mask_get (map (fun z => Z.eqb z 0) flag) cat1 in
    Ok (vcl, vmain, flag)
  end.

End Decluster.
Arguments srow AR : clear implicits.
