(** Model of mtoolkit/scientific/catalogue_utilities.py, and of the rows of the
    catalogue matrix built by mtoolkit/jobs.py:107-121. *)
From Coq Require Import ZArith List Bool.
From Verif Require Import Base Ops.
Import ListNotations.
Local Open Scope num_scope.
Local Open Scope res_scope.

Section CatUtil.
Context {AR : Ops}.

(** One row of the catalogue matrix: columns 0..6 of the array built by
    create_catalog_matrix, mtoolkit/jobs.py:107-121 (constants 33-39). *)
Record event : Type := mkEvent {
  ev_year : T; ev_month : T; ev_day : T;
  ev_lon : T; ev_lat : T; ev_mw : T; ev_sigma : T }.

(** catalogue_utilities.py:44-45, the day number preceding each month. *)
Definition marker : list T :=
  map ofZ [0; 31; 59; 90; 120; 151; 181; 212; 243; 273; 304; 334]%Z.

(** decimal_year for one date, catalogue_utilities.py:46-48; marker[tmonth] raises
    IndexError out of -12..11 and wraps for negative positions. *)
Definition decimal_year1 (year month day : T) : res T :=
  let tmonth := toZ (month - ofZ 1) in
  let* mk := py_index marker tmonth in
  let day_count := mk + day - ofZ 1 in
  Ok (year + (day_count / ofZ 365)).

(** decimal_year, catalogue_utilities.py:30-50, on the three columns of a matrix.
    Simplification: the three arrays are columns of one matrix, hence equally long, and
    are given as its rows. *)
Definition decimal_year (cat : list event) : res (list T) :=
  mapM (fun e => decimal_year1 (ev_year e) (ev_month e) (ev_day e)) cat.

(** Default earth radius, catalogue_utilities.py:53. *)
Definition earth_rad : T := lit 6371227 1000.

(** The distance formula for one pair given in radians, catalogue_utilities.py:99-104. *)
Definition haversine_rad (earth_rad lon1 lat1 lon2 lat2 : T) : T :=
  let dlat := lat1 - lat2 in
  let dlon := lon1 - lon2 in
  let aval := sq (sinv (dlat / ofZ 2))
              + (cosv lat1 * cosv lat2 * sq (sinv (dlon / ofZ 2))) in
  ofZ 2 * earth_rad * atan2v (sqrtv aval) (sqrtv (ofZ 1 - aval)).

(** One pair of locations, with the unit conversion of catalogue_utilities.py:74-79. *)
Definition haversine1 (radians : bool) (erad : T) (lon1 lat1 lon2 lat2 : T) : T :=
  if radians then haversine_rad erad lon1 lat1 lon2 lat2
  else let cfact := piv / ofZ 180 in
       haversine_rad erad (cfact * lon1) (cfact * lat1) (cfact * lon2) (cfact * lat2).

(** haversine, catalogue_utilities.py:53-106: matrix with one row per location of the
    first set and one column per location of the second set (scalars are sets of one).
    Simplification: lon and lat arrays of a set are equally long, given as pairs. *)
Definition haversine (set1 set2 : list (T * T)) (radians : bool) (erad : T)
  : list (list T) :=
  map (fun p1 => map (fun p2 =>
        haversine1 radians erad (fst p1) (snd p1) (fst p2) (snd p2)) set2) set1.

(** The calls made by the declustering code, declustering.py:207-209,355-356: a vector of
    locations against one location, default keywords; the single column as a vector. *)
Definition haversine_col (rows : list event) (e : event) : list T :=
  map (fun r => match haversine [(ev_lon r, ev_lat r)] [(ev_lon e, ev_lat e)]
                                false earth_rad with
                | (d :: _) :: _ => d
                | _ => ofZ 0
                end) rows.

(** greg2julian, catalogue_utilities.py:109-117. *)
Definition greg2julian (year month day hour minute second : T) : T :=
  let timeut := hour + (minute / ofZ 60) + (second / ofZ 3600) in
  (ofZ 367 * year)
  - floorv (ofZ 7 * (year + floorv ((month + ofZ 9) / ofZ 12)) / ofZ 4)
  - floorv (ofZ 3 * (floorv ((year + (month - ofZ 9) / ofZ 7) / ofZ 100) + ofZ 1)
            / ofZ 4)
  + floorv ((ofZ 275 * month) / ofZ 9) + day
  + lit 17210285 10 + (timeut / ofZ 24).

End CatUtil.
Arguments event AR : clear implicits.
