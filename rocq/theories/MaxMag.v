(** Model of mtoolkit/scientific/maximum_magnitude.py. *)
From Coq Require Import ZArith Bool Arith String List.
From Verif Require Import Base Ops.
Import ListNotations.
Local Open Scope num_scope.
Local Open Scope res_scope.

Section MaxMag.
Context {AR : Ops}.

(** np.sort of a vector (maximum_magnitude.py:210 and inside mquantiles, line 63):
    insertion sort; the sorted sequence of values does not depend on the algorithm. *)
Fixpoint insert (x : T) (l : list T) : list T :=
  match l with
  | [] => [x]
  | y :: l' => if x <=? y then x :: l else y :: insert x l'
  end.
Fixpoint sortv (l : list T) : list T :=
  match l with [] => [] | x :: l' => insert x (sortv l') end.

(** np.clip to [lo, hi]. *)
Definition clip (lo hi x : T) : T := if x <? lo then lo else if hi <? x then hi else x.

(** scipy.stats.mstats.mquantiles(mag, prob=[p])[0] with the default alphap = betap = 0.4
    (maximum_magnitude.py:63); an empty vector gives nan in scipy and 0/0 here. *)
Definition mquantile (mag : list T) (p : T) : T :=
  let x := sortv mag in
  match x with
  | [] => ofZ 0 / ofZ 0
  | [a] => a
  | _ =>
      let n := ofnat (length x) in
      let m := lit 4 10 + p * (ofZ 1 - lit 4 10 - lit 4 10) in
      let aleph := n * p + m in
      let k := Z.to_nat (toZ (floorv (clip (ofZ 1) (n - ofZ 1) aleph))) in
      let gamma := clip (ofZ 0) (ofZ 1) (aleph - ofnat k) in
      (ofZ 1 - gamma) * nth (k - 1) x (ofZ 0) + gamma * nth k x (ofZ 0)
  end.

(** h_smooth, maximum_magnitude.py:49-68.  np.min([np.std, iqr / 1.34]) compares the
    function object np.std with a float; in Python 2 every number is smaller than every
    function, so the minimum is iqr / 1.34. *)
Definition h_smooth (mag : list T) : T :=
  let neq := ofnat (length mag) in
  let iqr := mquantile mag (lit 75 100) - mquantile mag (lit 25 100) in
  let hfact := lit 9 10 * (iqr / lit 134 100) * powv neq (neg (ofZ 1) / ofZ 5) in
  rintv (ofZ 100 * hfact) / ofZ 100.

(** gauss_cdf_hastings for one value with mean barx and deviation sigx,
    maximum_magnitude.py:86-101.  x ** 3., x ** 4. and (..) ** (-4.) are written as
    products. *)
Definition gauss_cdf_hastings1 (barx sigx xval : T) : T :=
  let x_norm := (xval - barx) / sigx in
  let a_1 := lit 196854 1000000 in
  let a_2 := neg (lit 115194 1000000) in
  let a_3 := lit 344 1000000 in
  let a_4 := lit 19527 1000000 in
  let x_a := absv x_norm in
  let poly := ofZ 1 + a_1 * x_a + (a_2 * pown x_a 2) + (a_3 * pown x_a 3)
              + (a_4 * pown x_a 4) in
  let yval := ofZ 1 - lit 5 10 * (ofZ 1 / pown poly 4) in
  let yval := if x_norm <? neg (ofZ 5) then ofZ 0 else yval in
  let yval := if x_norm >? ofZ 5 then ofZ 1 else yval in
  if x_norm <? ofZ 0 then ofZ 1 - yval else yval.

(** gauss_cdf_hastings on a vector with the default mean 0 and deviation 1,
    maximum_magnitude.py:71-101. *)
Definition gauss_cdf_hastings (xs : list T) : list T :=
  map (gauss_cdf_hastings1 (ofZ 0) (ofZ 1)) xs.

(** cdf_func[ival] of maximum_magnitude.py:126-132. *)
Definition kijko_cdf (mmin mmax : T) (mag : list T) (hfact : T) (neq : nat) (target : T) : T :=
  let p_min := gauss_cdf_hastings (map (fun m => (mmin - m) / hfact) mag) in
  let p_max := gauss_cdf_hastings (map (fun m => (mmax - m) / hfact) mag) in
  let p_mag := gauss_cdf_hastings (map (fun m => (target - m) / hfact) mag) in
  pown (sumv (map2 sub p_mag p_min) / sumv (map2 sub p_max p_min)) neq.

(** The interior terms of the integration loop, maximum_magnitude.py:135-138: starting at
    position i >= 1 with mval[i-1] = [prev]. *)
Fixpoint integ_from (acc prev : T) (mval cdf : list T) : T :=
  match mval, cdf with
  | m :: ((m' :: _) as mval'), c :: cdf' =>
      integ_from (acc + lit 5 10 * c * (m' - prev)) m mval' cdf'
  | _, _ => acc
  end.

(** The integration of maximum_magnitude.py:134-139 for given function values; mval[1] of a
    vector with fewer than two points raises IndexError. *)
Definition integrate (mval cdf : list T) : res T :=
  match mval, cdf with
  | m0 :: ((m1 :: _) as mval'), c0 :: cdf' =>
      let n := length mval in
      let acc := integ_from (lit 5 10 * c0 * (m1 - m0)) m0 mval' cdf' in
      Ok (acc + lit 5 10 * nth (n - 1) cdf (ofZ 0)
                * (nth (n - 1) mval (ofZ 0) - nth (n - 2) mval (ofZ 0)))
  | _, _ => Err IndexError
  end.

(** kijko_npg_intfunc_simps, maximum_magnitude.py:104-141. *)
Definition kijko_npg_intfunc_simps (mval mag : list T) (hfact : T) (neq : nat) : res T :=
  let* mmin := minv mval in
  let* mmax := maxv mval in
  integrate mval (map (kijko_cdf mmin mmax mag hfact neq) mval).

(** exp_spaced_points, maximum_magnitude.py:144-162. *)
Definition exp_spaced_points (lower upper : T) (nsamp : nat) : list T :=
  map lnv
    (map (fun i => expv lower
                   + i * ((expv upper - expv lower) / (ofnat nsamp - ofZ 1)))
         (arange (ofZ 0) (ofnat nsamp - ofZ 1) (ofZ 1))
     ++ [expv upper]).

(** mag_sig[np.argmax(mag)], maximum_magnitude.py:197: the first position of the maximum. *)
Fixpoint argmax_from (best : T) (bestsig : T) (mag sig : list T) : T * T :=
  match mag, sig with
  | m :: mag', s :: sig' =>
      if best <? m then argmax_from m s mag' sig' else argmax_from best bestsig mag' sig'
  | _, _ => (best, bestsig)
  end.

(** obsmax and obsmaxsig of maximum_magnitude.py:193-201.
    Simplification: mag and mag_sig are columns of one matrix, hence equally long. *)
Definition observed_max (mag mag_sig : list T) (max_observed : option (T * T))
  : res (T * T) :=
  match max_observed with
  | Some p => Ok p
  | None => match mag, mag_sig with
            | m :: mag', s :: sig' => Ok (argmax_from m s mag' sig')
            | _, _ => Err ValueError
            end
  end.

(** Selection of the neq largest events, maximum_magnitude.py:205-212; mag[-0:] is the
    whole vector. *)
Definition largest (mag : list T) (neq : nat) : list T * nat :=
  if Nat.leb (length mag) neq then (mag, length mag)
  else let s := sortv mag in
       (match neq with 0%nat => s | _ => skipn (length s - neq) s end, neq).

(** The while loop of maximum_magnitude.py:220-232, abstracted over the increment
    [delta_of mmax] computed in its body (lines 222-224).  The first argument is fuel.
    Result: last mmax and last delta, and the number of passes. *)
Fixpoint kijko_loop (fuel : nat) (delta_of : T -> res T) (obsmax tol : T) (maxit : nat)
    (d_t mmax : T) (delta : option T) (j : nat) : res (T * option T * nat) :=
  if d_t >? tol then
    match fuel with
    | 0%nat => Err OutOfFuel
    | S fuel' =>
        let* delta := delta_of mmax in
        let tmmax := obsmax + delta in
        let d_t := absv (tmmax - mmax) in
        let j := S j in
        let d_t := if Nat.ltb maxit j then lit 5 10 * tol else d_t in
        kijko_loop fuel' delta_of obsmax tol maxit d_t tmmax (Some delta) j
    end
  else Ok (mmax, delta, j).

(** The increment computed by one pass, maximum_magnitude.py:222-224. *)
Definition kijko_delta (mmin : T) (nsamp : nat) (mag : list T) (hfact : T) (neq : nat)
    (mmax : T) : res T :=
  kijko_npg_intfunc_simps (exp_spaced_points mmin mmax nsamp) mag hfact neq.

(** kijko_nonparametric_gauss, maximum_magnitude.py:165-236.  If the loop body never runs,
    delta is unbound at line 233 (NameError).  neq is taken as a natural number. *)
Definition kijko_nonparametric_gauss (fuel : nat) (mag mag_sig : list T) (neq nsamp : nat)
    (tol : T) (maxit : nat) (max_observed : option (T * T)) : res (T * T) :=
  let* (obsmax, obsmaxsig) := observed_max mag mag_sig max_observed in
  let (mag, neq) := largest mag neq in
  let* mmin := minv mag in
  let hfact := h_smooth mag in
  let* (mmax, delta, _) :=
    kijko_loop fuel (kijko_delta mmin nsamp mag hfact neq) obsmax tol maxit
               (ofZ 100000000) obsmax None 0 in
  match delta with
  | None => Err NameError
  | Some d => Ok (mmax, sqrtv (sq obsmaxsig + sq d))
  end.

(** Moment of a magnitude, maximum_magnitude.py:253. *)
Definition moment (m : T) : T := powv (ofZ 10) (lit 905 100 + lit 15 10 * m).

(** morate[loc] of maximum_magnitude.py:258-262. *)
Definition year_moment (year mag : list T) (tyr : T) : T :=
  let m_o := map moment mag in
  let idx := map (fun y => absv (y - tyr) <? lit 1 100000) year in
  if Nat.ltb 0 (count_true idx) then sumv (mask_get idx m_o) else ofZ 0.

(** modiff of maximum_magnitude.py:254-268. *)
Definition moment_deviation (year mag : list T) : res T :=
  let* ymin := minv year in
  let* ymax := maxv year in
  let year_range := arange ymin (ymax + ofZ 1) (ofZ 1) in
  let nyr := ofnat (length year_range) in
  let morate := map (year_moment year mag) year_range in
  let ave_morate := sumv morate / nyr in
  let exp_morate := cumsum (map (fun _ => ave_morate * ofZ 1) year_range) in
  let dev := map2 sub (cumsum morate) exp_morate in
  let* mx := maxv dev in
  let* mn := minv dev in
  Ok (absv mx + absv mn).

(** cumulative_moment, maximum_magnitude.py:239-271. *)
Definition cumulative_moment (year mag : list T) : res T :=
  let* modiff := moment_deviation year mag in
  Ok ((ofZ 2 / ofZ 3) * (log10v modiff - lit 905 100)).

(** np.mean, maximum_magnitude.py:306. *)
Definition mean (l : list T) : T := sumv l / ofnat (length l).

(** np.std(.., ddof=1), maximum_magnitude.py:306. *)
Definition std1 (l : list T) : T :=
  let mu := mean l in
  sqrtv (sumv (map (fun x => sq (x - mu)) l) / (ofnat (length l) - ofZ 1)).

(** cum_mo_uncertainty, maximum_magnitude.py:274-306; [normals] is the list of the vectors
    drawn by sampler.normal(0, 1, neq), one per bootstrap (lines 294-302). *)
Definition cum_mo_uncertainty (year mag sigma_m : list T) (normals : list (list T))
  : res (T * T) :=
  let* samp := mapM (fun z =>
      cumulative_moment year (map2 add mag (map2 mul sigma_m z))) normals in
  Ok (mean samp, std1 samp).

(** maximum_magnitude_analysis, maximum_magnitude.py:28-46: any other algorithm name
    yields (0, 0). *)
Definition maximum_magnitude_analysis (fuel : nat) (year_col magnitude_col sigma_mw : list T)
    (algorithm : string) (iteration_tolerance : T) (maximum_iterations neq number_samples : nat)
    (normals : list (list T)) : res (T * T) :=
  if String.eqb algorithm "Kijko_Npg" then
    kijko_nonparametric_gauss fuel magnitude_col sigma_mw neq number_samples
      iteration_tolerance maximum_iterations None
  else if String.eqb algorithm "Cumulative_Moment" then
    cum_mo_uncertainty year_col magnitude_col sigma_mw normals
  else Ok (ofZ 0, ofZ 0).

End MaxMag.
