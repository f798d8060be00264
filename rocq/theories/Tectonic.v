(** Model of mtoolkit/geo/tectonic_region.py. *)
From Coq Require Import ZArith Bool String List.
From Verif Require Import Base Ops.
Import ListNotations.
Local Open Scope string_scope.
Local Open Scope num_scope.
Local Open Scope res_scope.

Section Tectonic.
Context {AR : Ops}.

(** A parameter dictionary such as {'model': [...], 'weight': [...]}
    (tectonic_region.py:23-26,39-56): the two keys that the code looks up, possibly absent,
    and whether the dictionary has any other key. *)
Record pdict (A : Type) : Type := mkDict {
  pd_values : option (list A);
  pd_weights : option (list T);
  pd_extra : bool }.
Arguments mkDict {A}. Arguments pd_values {A}. Arguments pd_weights {A}. Arguments pd_extra {A}.

(** Truth value of a dictionary: non-empty. *)
Definition dict_truth {A} (d : pdict A) : bool :=
  match pd_values d, pd_weights d with
  | None, None => pd_extra d
  | _, _ => true
  end.

(** Attributes of a TectonicRegion, tectonic_region.py:58,66-69. *)
Record region : Type := mkRegion {
  rg_id : string; rg_msr : pdict string; rg_smod : pdict T; rg_dlr : pdict T }.

(** d[key]: KeyError when absent. *)
Definition lookup {A} (o : option A) : res A :=
  match o with Some a => Ok a | None => Err KeyError end.

(** One comparison of check_msr_weight, tectonic_region.py:98-103. *)
Definition check_len {A} (d : pdict A) : res unit :=
  let* v := lookup (pd_values d) in
  let* w := lookup (pd_weights d) in
  if Nat.eqb (List.length v) (List.length w) then Ok tt else Err ValueError.

(** SUPPORTED_MSR, tectonic_region.py:27. *)
Definition SUPPORTED_MSR : list string := ["Peer"; "WC1994"].

(** check_msr, tectonic_region.py:105-116. *)
Definition check_msr (models : list string) : res unit :=
  if forallb (fun m => existsb (String.eqb m) SUPPORTED_MSR) models
  then Ok tt else Err ValueError.

(** check_values, tectonic_region.py:118-135. *)
Definition check_values (smod dlr : list T) : res unit :=
  if forallb (fun v => v >? ofZ 0) smod
  then if forallb (fun v => v >? ofZ 0) dlr then Ok tt else Err ValueError
  else Err ValueError.

(** reduce(lambda x, y: x + y, l), tectonic_region.py:147-149: TypeError when empty. *)
Definition reduce_add (l : list T) : res T :=
  match l with [] => Err TypeError | x :: l' => Ok (fold_left add l' x) end.

(** check_weights, tectonic_region.py:137-159. *)
Definition check_weights (msr smod dlr : list T) : res unit :=
  let* s1 := reduce_add msr in
  let* s2 := reduce_add smod in
  let* s3 := reduce_add dlr in
  if negb (s1 =? ofZ 1) then Err ValueError
  else if negb (s2 =? ofZ 1) then Err ValueError
  else if negb (s3 =? ofZ 1) then Err ValueError
  else Ok tt.

(** TectonicRegion.__init__, tectonic_region.py:60-69, and create_new_tect_region,
    lines 283-289. *)
Definition region_init (rid : string) (msr : pdict string) (smod dlr : pdict T) : res region :=
  let* _ := check_len msr in
  let* _ := check_len smod in
  let* _ := check_len dlr in
  let* models := lookup (pd_values msr) in
  let* _ := check_msr models in
  let* sv := lookup (pd_values smod) in
  let* dv := lookup (pd_values dlr) in
  let* _ := check_values sv dv in
  let* mw := lookup (pd_weights msr) in
  let* sw := lookup (pd_weights smod) in
  let* dw := lookup (pd_weights dlr) in
  let* _ := check_weights mw sw dw in
  Ok (mkRegion rid msr smod dlr).

(** shear_mod_first_value, tectonic_region.py:80-82. *)
Definition shear_mod_first_value (r : region) : res T :=
  let* v := lookup (pd_values (rg_smod r)) in py_index v 0.

(** disp_length_ratio_first_value, tectonic_region.py:84-86. *)
Definition disp_length_ratio_first_value (r : region) : res T :=
  let* v := lookup (pd_values (rg_dlr r)) in py_index v 0.

(** Module constants, tectonic_region.py:23-26. *)
Definition single {A} (v : A) : pdict A := mkDict (Some [v]) (Some [ofZ 1]) false.
Definition DEFAULT_MSR : pdict string := single "WC1994".
Definition DEFAULT_DLR : pdict T := single (lit 125 10000000).
Definition VOL_STCON_SMOD : pdict T := single (ofZ 29).
Definition SUBD_SMOD : pdict T := single (ofZ 49).

(** `x if x else default` of the subclasses (e.g. tectonic_region.py:168-170): an omitted
    argument, None, or an empty dictionary selects the default. *)
Definition or_default {A} (d : option (pdict A)) (dflt : pdict A) : pdict A :=
  match d with
  | Some x => if dict_truth x then x else dflt
  | None => dflt
  end.

(** The subclass constructors: (region id, default smod, default dlr),
    tectonic_region.py:162-229, selected by the names of lines 254-264. *)
Definition region_class (type_name : string) : option (string * pdict T * pdict T) :=
  if String.eqb type_name "Active Shallow Crust" then
    Some ("001", single (ofZ 30), DEFAULT_DLR)
  else if String.eqb type_name "Subduction Interface" then
    Some ("002", SUBD_SMOD, DEFAULT_DLR)
  else if String.eqb type_name "Subction Intraslab" then
    Some ("003", SUBD_SMOD, DEFAULT_DLR)
  else if String.eqb type_name "Stable Continental" then
    Some ("004", VOL_STCON_SMOD, single (lit 1 10000))
  else if String.eqb type_name "Volcanic" then
    Some ("005", VOL_STCON_SMOD, DEFAULT_DLR)
  else None.

(** create_tect_region_by_name, tectonic_region.py:266-281: a KeyError, from the name table
    or from inside the constructor, becomes ValueError. *)
Definition create_tect_region_by_name (type_name : string) (msr : option (pdict string))
    (smod dlr : option (pdict T)) : res region :=
  match region_class type_name with
  | None => Err ValueError
  | Some (rid, dsmod, ddlr) =>
      match region_init rid (or_default msr DEFAULT_MSR) (or_default smod dsmod)
                        (or_default dlr ddlr) with
      | Err KeyError => Err ValueError
      | r => r
      end
  end.

End Tectonic.
Arguments pdict {AR} A.
Arguments mkDict {AR A}.
Arguments pd_values {AR A}. Arguments pd_weights {AR A}. Arguments pd_extra {AR A}.
Arguments region AR : clear implicits.
