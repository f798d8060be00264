(** A concrete world to run the model in: binary64 arithmetic with the library of Libm.v,
    Python's float(), str() and repr(), CPython 2.7's dictionary order, a stable argsort, an
    even-odd point-in-polygon test, and named documents in place of an XML parser.  It serves
    the examples, the counterexamples and the comparison with the tests of /repo. *)
From Coq Require Import ZArith Bool Ascii String List.
From Coq Require Import Floats.SpecFloat.
From Verif Require Import Base Ops FloatOps Libm CatUtil PyStr Csv PyFloat EqCatalog EqCatWitness
  SourceModel Nrml World Jobs.
Import ListNotations.
Local Open Scope Z_scope.

(** The arithmetic. *)
Definition FL : Ops := FOps L.

(** np.argsort with a stable sort (numpy's own is only stable on short vectors). *)
Fixpoint arg_insert (x : spec_float * nat) (l : list (spec_float * nat)) :=
  match l with
  | [] => [x]
  | y :: l' => if SFltb (fst y) (fst x) then y :: arg_insert x l' else x :: l
  end.
Definition demo_argsort (l : list spec_float) : list nat :=
  map snd (fold_right arg_insert [] (combine l (seq 0 (length l)))).

(** Strictly inside, by counting the crossings of a ray (points on the boundary are not told
    apart reliably; no example has any). *)
Fixpoint crossings (x y : spec_float) (first : spec_float * spec_float)
    (l : list (spec_float * spec_float)) : bool :=
  match l with
  | [] => false
  | (x1, y1) :: l' =>
      let '(x2, y2) := match l' with [] => first | q :: _ => q end in
      let hit :=
        if Bool.eqb (SFltb y y1) (SFltb y y2) then false
        else
          let s := SFdiv prec64 emax64 (SFsub prec64 emax64 y y1) (SFsub prec64 emax64 y2 y1) in
          SFltb x (SFadd prec64 emax64 x1
                     (SFmul prec64 emax64 s (SFsub prec64 emax64 x2 x1))) in
      xorb hit (crossings x y first l')
  end.
Definition demo_contains (poly : list (spec_float * spec_float)) (x y : spec_float) : bool :=
  match poly with [] => false | p :: _ => crossings x y p poly end.

(** Fewer than three points do not make a polygon. *)
Definition demo_polygon (poly : list (spec_float * spec_float)) : res unit :=
  if (3 <=? Z.of_nat (length poly)) then Ok tt else Err RuntimeError.

(** Documents by the content of the file that stands for them. *)
Fixpoint named {A} (k : text) (l : list (text * A)) : option A :=
  match l with
  | [] => None
  | (k', a) :: l' => if text_eqb k k' then Some a else named k l'
  end.

(** A printer for the written document: the tags, attributes and texts in order. *)
Fixpoint demo_print (x : xml) : text :=
  match x with
  | Elem tag attrs txt kids =>
      "<"%char :: t tag
      ++ flat_map (fun kv => " "%char :: t (fst kv) ++ "="%char :: snd kv) attrs
      ++ ">"%char :: match txt with Some s => s | None => [] end
      ++ flat_map demo_print kids ++ ["<"%char; "/"%char; ">"%char]
  end.

(** The world; [docs] gives the XML documents and [dirs] the existing directories. *)
Definition demo_world (docs : list (text * xml)) (dirs : list text) : world FL :=
  mkWorld FL demo_argsort py_float py_repr py_str 2013 cpython_order (fun _ => true)
    demo_print (fun s => named s docs) demo_polygon demo_contains
    (fun b n => repeat (repeat (S754_zero false) n) b) 200
    (fun d => existsb (text_eqb d) dirs) (fun _ => true).

(** A file system holding the given files. *)
Definition demo_files (l : list (text * text)) : files := fun p => named p l.

(** A float from its Python literal (NaN when malformed). *)
Definition fl (s : string) : spec_float :=
  match py_float (t s) with Some x => x | None => S754_nan end.

(** |a - b| <= tol, the comparison of unittest's assertAlmostEqual (which rounds the
    difference; [tol] is half a unit of the last place compared). *)
Definition near (tol a b : spec_float) : bool :=
  SFleb (SFabs (SFsub prec64 emax64 a b)) tol.
Definition places (n : Z) : spec_float := SFdiv prec64 emax64 (fl "0.5") (F_ofZ (10 ^ n)).
(** numpy.allclose with its default tolerances. *)
Definition close (a b : spec_float) : bool :=
  SFleb (SFabs (SFsub prec64 emax64 a b))
    (SFadd prec64 emax64 (fl "1e-8") (SFmul prec64 emax64 (fl "1e-5") (SFabs b))).

(** Comparison of lists. *)
Fixpoint all2 {A B} (p : A -> B -> bool) (l : list A) (l' : list B) : bool :=
  match l, l' with
  | [], [] => true
  | a :: l, b :: l' => p a b && all2 p l l'
  | _, _ => false
  end.
Definition event_eqb (a b : event FL) : bool :=
  SFeqb (ev_year a) (ev_year b) && SFeqb (ev_month a) (ev_month b)
  && SFeqb (ev_day a) (ev_day b) && SFeqb (ev_lon a) (ev_lon b)
  && SFeqb (ev_lat a) (ev_lat b) && SFeqb (ev_mw a) (ev_mw b)
  && SFeqb (ev_sigma a) (ev_sigma b).
(** A value that was computed and satisfies a test. *)
Definition gives {A} (r : res A) (p : A -> bool) : bool :=
  match r with Ok a => p a | Err _ => false end.
Definition some_is {A} (o : option A) (p : A -> bool) : bool :=
  match o with Some a => p a | None => false end.

(** A configuration with no groups; the files are given. *)
Definition no_conf (eq_file sm_file : cval text) (pre pro : cval (list string))
    (store table result : cval text) (apply : cval unit) : config FL :=
  mkConfig eq_file sm_file pre store table pro apply result
    (Err KeyError) (Err KeyError) (Err KeyError) (Err KeyError) (Err KeyError).
Definition with_gk (k : gk_conf FL) (c : config FL) : config FL :=
  mkConfig (cf_eq_catalog_file c) (cf_source_model_file c) (cf_preprocessing_jobs c)
    (cf_pprocessing_result_file c) (cf_completeness_table_file c) (cf_processing_jobs c)
    (cf_apply_processing_jobs c) (cf_result_file c) (Ok k) (cf_afteran c) (cf_stepp c)
    (cf_recurrence c) (cf_mm c).
Definition with_af (k : af_conf FL) (c : config FL) : config FL :=
  mkConfig (cf_eq_catalog_file c) (cf_source_model_file c) (cf_preprocessing_jobs c)
    (cf_pprocessing_result_file c) (cf_completeness_table_file c) (cf_processing_jobs c)
    (cf_apply_processing_jobs c) (cf_result_file c) (cf_gk c) (Ok k) (cf_stepp c)
    (cf_recurrence c) (cf_mm c).
Definition with_stepp (k : stepp_conf FL) (c : config FL) : config FL :=
  mkConfig (cf_eq_catalog_file c) (cf_source_model_file c) (cf_preprocessing_jobs c)
    (cf_pprocessing_result_file c) (cf_completeness_table_file c) (cf_processing_jobs c)
    (cf_apply_processing_jobs c) (cf_result_file c) (cf_gk c) (cf_afteran c) (Ok k)
    (cf_recurrence c) (cf_mm c).
Definition with_rec (k : rec_conf FL) (c : config FL) : config FL :=
  mkConfig (cf_eq_catalog_file c) (cf_source_model_file c) (cf_preprocessing_jobs c)
    (cf_pprocessing_result_file c) (cf_completeness_table_file c) (cf_processing_jobs c)
    (cf_apply_processing_jobs c) (cf_result_file c) (cf_gk c) (cf_afteran c) (cf_stepp c)
    (Ok k) (cf_mm c).
Definition with_mm (k : mm_conf FL) (c : config FL) : config FL :=
  mkConfig (cf_eq_catalog_file c) (cf_source_model_file c) (cf_preprocessing_jobs c)
    (cf_pprocessing_result_file c) (cf_completeness_table_file c) (cf_processing_jobs c)
    (cf_apply_processing_jobs c) (cf_result_file c) (cf_gk c) (cf_afteran c) (cf_stepp c)
    (cf_recurrence c) (Ok k).
