(** Shared vocabulary of the model: results with exceptions, and the few numpy
    list operations used all over /repo (boolean masks, positional update).
    No proofs here. *)
From Coq Require Import String ZArith Arith Bool List.
Import ListNotations.

(** Python exceptions that the modelled code can raise.  Only the kind and the data
    the caller can observe are kept; message texts are dropped.
    Raised at: mtoolkit/eqcatalog.py:40-51,315-329, mtoolkit/workflow.py:137-147,
    mtoolkit/geo/tectonic_region.py, mtoolkit/geo/simple_fault.py:24-31 and by numpy /
    built-in operations used everywhere. *)
Inductive exn : Type :=
| IndexError
| KeyError
| ValueError
| TypeError
| RuntimeError
| IOError
| AttributeError
| AssertionError
| NameError
| MalformedCatalogError
| EqEntryValidationError (field : string) (line : Z)
| CsvError
| XmlSyntaxError
| InvalidPolygon
| GenericException
| OutOfFuel.  (* not a Python exception: the model's loop fuel ran out *)

(** Result of a Python call: a value or the exception that left it.
    Model of "return" and "raise" everywhere in /repo. *)
Inductive res (A : Type) : Type :=
| Ok (a : A)
| Err (e : exn).
Arguments Ok {A} a.
Arguments Err {A} e.

(** Sequencing: an exception skips the rest of the function body. *)
Definition bind {A B} (r : res A) (f : A -> res B) : res B :=
  match r with Ok a => f a | Err e => Err e end.

Declare Scope res_scope.
Delimit Scope res_scope with res.
Notation "'let*' x ':=' r 'in' k" := (bind r (fun x => k))
  (at level 200, x pattern, r at level 100, k at level 200, right associativity) : res_scope.

(** Map a function that may raise over a list, left to right, stopping at the first
    exception (Python list comprehension / for-append loops, e.g.
    mtoolkit/eqcatalog.py:156-166). *)
Fixpoint mapM {A B} (f : A -> res B) (l : list A) : res (list B) :=
  match l with
  | [] => Ok []
  | a :: l' => bind (f a) (fun b => bind (mapM f l') (fun bs => Ok (b :: bs)))
  end.

(** numpy [a[mask]] (e.g. mtoolkit/scientific/declustering.py:208): the elements at
    the True positions, in order. *)
Fixpoint mask_get {A} (mask : list bool) (l : list A) : list A :=
  match mask, l with
  | b :: mask', a :: l' => if b then a :: mask_get mask' l' else mask_get mask' l'
  | _, _ => []
  end.

(** numpy [a[mask] = vals] with one value per True position
    (e.g. mtoolkit/scientific/declustering.py:210,369,377,379).
    Simplification: too few values leave the rest unchanged (numpy raises); every use in
    /repo supplies exactly as many values as True positions. *)
Fixpoint mask_put {A} (mask : list bool) (vals : list A) (l : list A) : list A :=
  match mask, l with
  | b :: mask', a :: l' =>
      if b then match vals with
                | v :: vals' => v :: mask_put mask' vals' l'
                | [] => a :: mask_put mask' [] l'
                end
      else a :: mask_put mask' vals l'
  | _, _ => l
  end.

(** numpy [a[mask] = v] with a scalar (e.g. mtoolkit/scientific/declustering.py:215-221,
    mtoolkit/scientific/completeness.py:174,182). *)
Fixpoint mask_set {A} (mask : list bool) (v : A) (l : list A) : list A :=
  match mask, l with
  | b :: mask', a :: l' => (if b then v else a) :: mask_set mask' v l'
  | _, _ => l
  end.

(** numpy [a[i] = v] for a non-negative position in range
    (e.g. mtoolkit/scientific/declustering.py:212,221). *)
Fixpoint set_nth {A} (i : nat) (v : A) (l : list A) : list A :=
  match l, i with
  | [], _ => []
  | _ :: l', O => v :: l'
  | a :: l', S i' => a :: set_nth i' v l'
  end.

(** Element-wise binary operation on two equally long arrays (numpy broadcasting of
    equal shapes), used throughout mtoolkit/scientific. *)
Fixpoint map2 {A B C} (f : A -> B -> C) (l : list A) (m : list B) : list C :=
  match l, m with
  | a :: l', b :: m' => f a b :: map2 f l' m'
  | _, _ => []
  end.

(** Fancy indexing [a[idx]] with a vector of positions
    (e.g. mtoolkit/scientific/declustering.py:189-194,226-229).  The default stands for
    positions out of range, which do not occur (the index vectors are permutations). *)
Definition take_idx {A} (d : A) (l : list A) (idx : list nat) : list A :=
  map (fun i => nth i l d) idx.

(** Python sequence indexing with a possibly negative integer; IndexError when out of
    range (e.g. marker[tmonth] in mtoolkit/scientific/catalogue_utilities.py:47). *)
Definition py_index {A} (l : list A) (z : Z) : res A :=
  let n := Z.of_nat (length l) in
  let k := if (z <? 0)%Z then (z + n)%Z else z in
  if (k <? 0)%Z then Err IndexError
  else match nth_error l (Z.to_nat k) with
       | Some a => Ok a
       | None => Err IndexError
       end.

(** Number of True entries, numpy [np.sum(mask)]
    (e.g. mtoolkit/scientific/completeness.py:88-91). *)
Fixpoint count_true (l : list bool) : nat :=
  match l with [] => 0 | b :: l' => (if b then 1 else 0) + count_true l' end.

(** Positions of the True entries, numpy [np.nonzero(mask)[0]]
    (e.g. mtoolkit/scientific/completeness.py:110). *)
Fixpoint nonzero_from (k : nat) (l : list bool) : list nat :=
  match l with
  | [] => []
  | b :: l' => if b then k :: nonzero_from (S k) l' else nonzero_from (S k) l'
  end.
Definition nonzero (l : list bool) : list nat := nonzero_from 0 l.

(** Last element of a list, numpy [a[-1]]; IndexError on an empty array
    (e.g. mtoolkit/scientific/completeness.py:114). *)
Fixpoint last_opt {A} (l : list A) : option A :=
  match l with
  | [] => None
  | [a] => Some a
  | _ :: l' => last_opt l'
  end.
