(** Model of mtoolkit/jobs.py: the configuration, the shared context and the jobs. *)
From Coq Require Import ZArith Bool Ascii String List.
From Verif Require Import Base Ops CatUtil Decluster Completeness Recurrence MaxMag PyStr Csv
  EqCatalog SourceModel Nrml World CatalogFilter.
Import ListNotations.
Local Open Scope res_scope.

(** A top-level configuration entry (YAML): key missing, null, or a value. *)
Inductive cval (A : Type) : Type := Absent | Null | Given (a : A).
Arguments Absent {A}. Arguments Null {A}. Arguments Given {A} a.

Section Jobs.
Context {AR : Ops}.
Variable W : world AR.

(** Parameter groups, jobs.py:148-151,177-180,206-212,309-317,344-354.  Simplification:
    values have the documented types. *)
Record gk_conf : Type := mkGkConf { gk_windows : string; gk_foreshock : T }.
Record af_conf : Type := mkAfConf { af_windows : string; af_time_window : T }.
Record stepp_conf : Type := mkSteppConf {
  st_mag_windows : T; st_time_window : T; st_sensitivity : T; st_lock : bool }.
Record rec_conf : Type := mkRecConf {
  rc_mag_window : T; rc_algorithm : string; rc_reference : T; rc_time_window : T }.
Record mm_conf : Type := mkMmConf {
  mm_algorithm : string; mm_tolerance : T; mm_max_iter : nat; mm_neq : nat;
  mm_samples : nat; mm_bootstraps : nat }.

(** The configuration dictionary, workflow.py:224-226.  A parameter group is the result of
    looking up its entries (KeyError when missing).  apply_processing_jobs is used as a truth
    value only (workflow.py:251): Given stands for yes or true, Null for null, no or false. *)
Record config : Type := mkConfig {
  cf_eq_catalog_file : cval text;
  cf_source_model_file : cval text;
  cf_preprocessing_jobs : cval (list string);
  cf_pprocessing_result_file : cval text;
  cf_completeness_table_file : cval text;
  cf_processing_jobs : cval (list string);
  cf_apply_processing_jobs : cval unit;
  cf_result_file : cval text;
  cf_gk : res gk_conf;
  cf_afteran : res af_conf;
  cf_stepp : res stepp_conf;
  cf_recurrence : res rec_conf;
  cf_mm : res mm_conf }.

(** The shared context, workflow.py:208-232, and the file system.  None: attribute not set
    or None.  [cx_cur] is the position in sm_definitions of context.cur_sm, an alias of one
    of its elements (workflow.py:252-255). *)
Record context : Type := mkContext {
  cx_config : config;
  cx_eq_catalog : option (list (entry AR));
  cx_sms : option (list (area_source AR));
  cx_matrix : option (list (event AR));
  cx_working : option (list (event AR));
  cx_flag : option (list Z);
  cx_vcl : option (list nat);
  cx_table : option (list (T * T));
  cx_selected : option (list Z);
  cx_cur : option nat;
  cx_filtered : option (list (event AR));
  cx_files : files }.

(** Context(config), workflow.py:215-232. *)
Definition init_context (c : config) (f : files) : context :=
  mkContext c None None None None None None None None None None f.

(** Attribute assignments. *)
Definition set_eq_catalog v c := mkContext (cx_config c) v (cx_sms c) (cx_matrix c)
  (cx_working c) (cx_flag c) (cx_vcl c) (cx_table c) (cx_selected c) (cx_cur c)
  (cx_filtered c) (cx_files c).
Definition set_sms v c := mkContext (cx_config c) (cx_eq_catalog c) v (cx_matrix c)
  (cx_working c) (cx_flag c) (cx_vcl c) (cx_table c) (cx_selected c) (cx_cur c)
  (cx_filtered c) (cx_files c).
Definition set_matrix v c := mkContext (cx_config c) (cx_eq_catalog c) (cx_sms c) v
  (cx_working c) (cx_flag c) (cx_vcl c) (cx_table c) (cx_selected c) (cx_cur c)
  (cx_filtered c) (cx_files c).
Definition set_working v c := mkContext (cx_config c) (cx_eq_catalog c) (cx_sms c)
  (cx_matrix c) v (cx_flag c) (cx_vcl c) (cx_table c) (cx_selected c) (cx_cur c)
  (cx_filtered c) (cx_files c).
Definition set_flag v c := mkContext (cx_config c) (cx_eq_catalog c) (cx_sms c)
  (cx_matrix c) (cx_working c) v (cx_vcl c) (cx_table c) (cx_selected c) (cx_cur c)
  (cx_filtered c) (cx_files c).
Definition set_vcl v c := mkContext (cx_config c) (cx_eq_catalog c) (cx_sms c)
  (cx_matrix c) (cx_working c) (cx_flag c) v (cx_table c) (cx_selected c) (cx_cur c)
  (cx_filtered c) (cx_files c).
Definition set_table v c := mkContext (cx_config c) (cx_eq_catalog c) (cx_sms c)
  (cx_matrix c) (cx_working c) (cx_flag c) (cx_vcl c) v (cx_selected c) (cx_cur c)
  (cx_filtered c) (cx_files c).
Definition set_selected v c := mkContext (cx_config c) (cx_eq_catalog c) (cx_sms c)
  (cx_matrix c) (cx_working c) (cx_flag c) (cx_vcl c) (cx_table c) v (cx_cur c)
  (cx_filtered c) (cx_files c).
Definition set_cur v c := mkContext (cx_config c) (cx_eq_catalog c) (cx_sms c)
  (cx_matrix c) (cx_working c) (cx_flag c) (cx_vcl c) (cx_table c) (cx_selected c) v
  (cx_filtered c) (cx_files c).
Definition set_filtered v c := mkContext (cx_config c) (cx_eq_catalog c) (cx_sms c)
  (cx_matrix c) (cx_working c) (cx_flag c) (cx_vcl c) (cx_table c) (cx_selected c) (cx_cur c)
  v (cx_files c).
Definition set_files v c := mkContext (cx_config c) (cx_eq_catalog c) (cx_sms c)
  (cx_matrix c) (cx_working c) (cx_flag c) (cx_vcl c) (cx_table c) (cx_selected c) (cx_cur c)
  (cx_filtered c) v.

(** A job: the context it leaves behind and the exception it raised, if any. *)
Definition job := context -> context * option exn.

(** A job body that assigns to the context only as its last action. *)
Definition finish (c : context) (r : res context) : context * option exn :=
  match r with Ok c' => (c', None) | Err e => (c, Some e) end.

(** config[key] used as a file name, null gives [null_exn]. *)
Definition lookup_file (null_exn : exn) (v : cval text) : res text :=
  match v with Absent => Err KeyError | Null => Err null_exn | Given p => Ok p end.

(** open(path): IOError when there is no such file. *)
Definition open_read (f : files) (p : text) : res text :=
  match f p with Some c => Ok c | None => Err IOError end.

(** Use of a context attribute that is None or missing: subscripting or iterating None is
    a TypeError, a missing attribute an AttributeError. *)
Definition have {A} (e : exn) (o : option A) : res A :=
  match o with Some a => Ok a | None => Err e end.

(** read_eq_catalog, jobs.py:60-72. *)
Definition read_eq_catalog_job : job := fun c =>
  finish c (
    let* p := lookup_file TypeError (cf_eq_catalog_file (cx_config c)) in
    let* content := open_read (cx_files c) p in
    let* es := read_eq_catalog (w_parse_float W) (w_now_year W) (w_dict_order W) content in
    Ok (set_eq_catalog (Some es) c)).

(** read_source_model, jobs.py:75-91: sm_definitions is assigned inside the loop, so it
    keeps its old value when there is no source, and len(None) raises TypeError then. *)
Definition read_source_model : job := fun c =>
  match (let* p := lookup_file TypeError (cf_source_model_file (cx_config c)) in
         open_read (cx_files c) p) with
  | Err e => (c, Some e)
  | Ok content =>
      match w_xml_parse W content with
      | None => (c, Some XmlSyntaxError)
      | Some d =>
          let (ss, x) := read_doc (w_parse_float W) d in
          let c' := match ss with [] => c | _ => set_sms (Some ss) c end in
          match x with
          | Some e => (c', Some e)
          | None => match cx_sms c' with
                    | None => (c', Some TypeError)
                    | Some _ => (c', None)
                    end
          end
      end
  end.

(** create_default_source_model, jobs.py:94-104. *)
Definition create_default_source_model : job := fun c =>
  (set_sms (Some [default_area_source]) c, None).

(** A matrix cell from an entry value: numbers become floats.  Simplification: text in a
    matrix makes numpy build a matrix of texts, on which the later numeric jobs raise
    TypeError; here that is raised at once. *)
Definition cell (v : pyval AR) : res T :=
  match v with
  | VInt z => Ok (ofZ z)
  | VFlt f => Ok f
  | _ => Err TypeError
  end.

(** eq_entry[column]; KeyError when absent. *)
Definition entry_item (f : string) (e : entry AR) : res (pyval AR) :=
  match find (fun kv => key_eqb (Some f) (fst kv)) e with
  | Some kv => Ok (snd kv)
  | None => Err KeyError
  end.

(** One matrix row, jobs.py:36-37,117-118. *)
Definition matrix_row (e : entry AR) : res (event AR) :=
  let col f := let* v := entry_item f e in cell v in
  let* y := col "year"%string in
  let* m := col "month"%string in
  let* d := col "day"%string in
  let* lon := col "longitude"%string in
  let* lat := col "latitude"%string in
  let* mw := col "Mw"%string in
  let* s := col "sigmaMw"%string in
  Ok (mkEvent y m d lon lat mw s).

(** create_catalog_matrix, jobs.py:107-121. *)
Definition create_catalog_matrix : job := fun c =>
  finish c (
    let* es := have TypeError (cx_eq_catalog c) in
    let* m := mapM matrix_row es in
    Ok (set_working (Some m) (set_matrix (Some m) c))).

(** matrix[:, k] needs a two-dimensional array; the matrix built from no rows is
    one-dimensional: IndexError. *)
Definition columns (m : list (event AR)) : res (list (event AR)) :=
  match m with [] => Err IndexError | _ => Ok m end.

(** create_default_values, jobs.py:124-137. *)
Definition create_default_values : job := fun c =>
  match cx_working c with
  | None => (c, Some TypeError)
  | Some w =>
      let c := set_flag (Some (repeat 0%Z (length w))) c in
      finish c (
        let* w := columns w in
        let* y := minv (map ev_year w) in
        let* m := minv (map ev_mw w) in
        Ok (set_table (Some [(y, m)]) c))
  end.

(** Key of time_dist_windows, declustering.py:38-40. *)
Definition window_of (s : string) : window_opt :=
  if String.eqb s "GardnerKnopoff" then TDW_GARDNERKNOPOFF
  else if String.eqb s "Gruenthal" then TDW_GRUENTHAL
  else if String.eqb s "Uhrhammer" then TDW_UHRHAMMER
  else TDW_OTHER.

(** gardner_knopoff, jobs.py:140-166: declusters the working catalogue. *)
Definition gardner_knopoff : job := fun c =>
  finish c (
    let* k := cf_gk (cx_config c) in
    let* w := have TypeError (cx_working c) in
    let* (vcl, main, flag) :=
      gardner_knopoff_decluster (w_argsort W) w (window_of (gk_windows k)) (gk_foreshock k) in
    Ok (set_flag (Some flag) (set_working (Some main) (set_vcl (Some vcl) c)))).

(** afteran, jobs.py:169-195: declusters the full catalogue matrix. *)
Definition afteran : job := fun c =>
  finish c (
    let* k := cf_afteran (cx_config c) in
    let* m := have TypeError (cx_matrix c) in
    let* (vcl, main, flag) :=
      afteran_decluster (w_argsort W) m (window_of (af_windows k)) (af_time_window k) in
    Ok (set_flag (Some flag) (set_working (Some main) (set_vcl (Some vcl) c)))).

(** stepp, jobs.py:198-221. *)
Definition stepp : job := fun c =>
  finish c (
    let* w := have TypeError (cx_working c) in
    let* w := columns w in
    let* k := cf_stepp (cx_config c) in
    let* tab := stepp_analysis (map ev_year w) (map ev_mw w) (st_mag_windows k)
                  (st_time_window k) (st_sensitivity k) (st_lock k) in
    Ok (set_table (Some tab) c)).

(** create_selected_eq_vector, jobs.py:224-238. *)
Definition create_selected_eq_vector : job := fun c =>
  finish c (
    let* m := have TypeError (cx_matrix c) in
    let* m := columns m in
    let* tab := have TypeError (cx_table c) in
    let* flag := have AttributeError (cx_flag c) in
    let* sel := selected_eq_flag_vector (map ev_year m) (map ev_mw m) tab flag in
    Ok (set_selected (Some sel) c)).

(** eq_catalog[index] for each selected index, jobs.py:253-258. *)
Definition entries_at (es : list (entry AR)) (idx : list nat) : res (list (entry AR)) :=
  mapM (fun i => match nth_error es i with Some e => Ok e | None => Err IndexError end) idx.

(** store_preprocessed_catalog, jobs.py:241-265, with EqEntryWriter.__init__
    (eqcatalog.py:338-342): the directory of the file name must exist. *)
Definition store_preprocessed_catalog : job := fun c =>
  finish c (
    let* p := lookup_file AttributeError (cf_pprocessing_result_file (cx_config c)) in
    let* _ := if w_exists W (dirname p) then Ok tt else Err IOError in
    let* sel := have AttributeError (cx_selected c) in
    let* es := have TypeError (cx_eq_catalog c) in
    let* entries := entries_at es (nonzero (map (fun z => Z.eqb z 0) sel)) in
    let* _ := if w_can_write W p then Ok tt else Err IOError in
    let* content := write_rows (w_repr_float W) entries in
    let* _ := have TypeError (cx_matrix c) in
    Ok (set_files (write_file p content (cx_files c)) c)).

(** '%10.5f' % v as a number of 10^-5 units: decimal rounding of the value (over the reals,
    half to even). *)
Definition units5 (v : T) : Z := toZ (rintv (mul v (ofZ 100000))).

(** np.savetxt(.., fmt='%10.5f', delimiter=','), jobs.py:278-279. *)
Definition table_line (row : T * T) : text :=
  print_fixed5 (units5 (fst row)) ++ [chr_comma] ++ print_fixed5 (units5 (snd row)) ++ [chr_lf].
Definition table_text (tab : list (T * T)) : text := List.concat (map table_line tab).

(** store_completeness_table, jobs.py:268-281. *)
Definition store_completeness_table : job := fun c =>
  finish c (
    let* p := lookup_file ValueError (cf_completeness_table_file (cx_config c)) in
    let* tab := have TypeError (cx_table c) in
    let* _ := if w_can_write W p then Ok tt else Err IOError in
    Ok (set_files (write_file p (table_text tab) (cx_files c)) c)).

(** A cell read by np.genfromtxt: numbers in the stored format exactly, other numbers by
    float(), anything else is nan. *)
Definition table_cell (s : text) : T :=
  match parse_fixed5 s with
  | Some n => lit n 100000
  | None => match w_parse_float W (strip s) with
            | Some x => x
            | None => div (ofZ 0) (ofZ 0)
            end
  end.

(** The rows of np.genfromtxt(.., delimiter=','), jobs.py:293-295: blank lines are passed
    over, rows of different lengths raise ValueError, an empty file raises IOError.
    Comments (#) are not modelled. *)
Definition table_rows (content : text) : res (list (list T)) :=
  let ls := filter (fun l => match l with [] => false | _ => true end)
                   (map strip (file_lines content)) in
  let rows := map (fun l => map table_cell (split_on chr_comma l)) ls in
  match rows with
  | [] => Err IOError
  | r0 :: _ => if forallb (fun r => Nat.eqb (length r) (length r0)) rows
               then Ok rows else Err ValueError
  end.

(** reshape((-1, 2)), jobs.py:294-295. *)
Fixpoint pairs (l : list T) : res (list (T * T)) :=
  match l with
  | [] => Ok []
  | a :: b :: l' => let* ps := pairs l' in Ok ((a, b) :: ps)
  | [_] => Err ValueError
  end.

(** retrieve_completeness_table, jobs.py:284-297. *)
Definition retrieve_completeness_table : job := fun c =>
  finish c (
    let* p := lookup_file TypeError (cf_completeness_table_file (cx_config c)) in
    let* content := open_read (cx_files c) p in
    let* rows := table_rows content in
    let* tab := pairs (List.concat rows) in
    Ok (set_table (Some tab) c)).

(** Replace a value in the Gutenberg-Richter part of a source (_replace), jobs.py:319-326,
    356-361. *)
Definition with_tgr (s : area_source AR) (g : tgr AR) : area_source AR :=
  mkSource (as_nrml_id s) (as_sm_id s) (as_id s) (as_name s) (as_tect s) (as_boundary s)
    (mkRate g (rm_strike (as_rate s)) (rm_dip (as_rate s)) (rm_rake (as_rate s)))
    (as_depth s) (as_hypo s) (as_sigb s) (as_siga s) (as_mmsig s).

(** The update of cur_sm made by recurrence, jobs.py:319-329. *)
Definition apply_recurrence (k : rec_conf) (q : T * T * T * T) (s : area_source AR)
  : area_source AR :=
  let '(bval, sigb, a_m, siga_m) := q in
  let g := rm_tgr (as_rate s) in
  let s := with_tgr s (mkTgr a_m bval (rc_reference k) (tg_max g) (tg_type g)) in
  mkSource (as_nrml_id s) (as_sm_id s) (as_id s) (as_name s) (as_tect s) (as_boundary s)
    (as_rate s) (as_depth s) (as_hypo s) (Some sigb) (Some siga_m) (as_mmsig s).

(** The update of cur_sm made by maximum_magnitude, jobs.py:356-363. *)
Definition apply_maximum_magnitude (q : T * T) (s : area_source AR) : area_source AR :=
  let '(max_mag, max_mag_sigma) := q in
  let g := rm_tgr (as_rate s) in
  let s := with_tgr s (mkTgr (tg_a g) (tg_b g) (tg_min g) max_mag (tg_type g)) in
  mkSource (as_nrml_id s) (as_sm_id s) (as_id s) (as_name s) (as_tect s) (as_boundary s)
    (as_rate s) (as_depth s) (as_hypo s) (as_sigb s) (as_siga s) (Some max_mag_sigma).

(** In-place update of context.cur_sm. *)
Definition update_cur (c : context) (f : area_source AR -> area_source AR) : res context :=
  let* i := have AttributeError (cx_cur c) in
  let* ss := have AttributeError (cx_sms c) in
  match nth_error ss i with
  | Some s => Ok (set_sms (Some (set_nth i (f s) ss)) c)
  | None => Err IndexError
  end.

(** The numbers computed by the recurrence job, jobs.py:309-317. *)
Definition recurrence_of (k : rec_conf) (eqs : list (event AR)) (tab : list (T * T))
  : res (T * T * T * T) :=
  recurrence_analysis (w_fuel W) (map ev_year eqs) (map ev_mw eqs) tab
    (rc_mag_window k) (rc_algorithm k) (rc_reference k) (rc_time_window k).

(** recurrence, jobs.py:300-332. *)
Definition recurrence : job := fun c =>
  finish c (
    let* eqs := have AttributeError (cx_filtered c) in
    let* eqs := columns eqs in
    let* tab := have TypeError (cx_table c) in
    let* k := cf_recurrence (cx_config c) in
    let* q := recurrence_of k eqs tab in
    update_cur c (apply_recurrence k q)).

(** The numbers computed by the maximum magnitude job, jobs.py:344-354. *)
Definition maximum_magnitude_of (k : mm_conf) (eqs : list (event AR)) : res (T * T) :=
  maximum_magnitude_analysis (w_fuel W) (map ev_year eqs) (map ev_mw eqs) (map ev_sigma eqs)
    (mm_algorithm k) (mm_tolerance k) (mm_max_iter k) (mm_neq k) (mm_samples k)
    (w_normals W (mm_bootstraps k) (length eqs)).

(** maximum_magnitude, jobs.py:335-366. *)
Definition maximum_magnitude : job := fun c =>
  finish c (
    let* eqs := have AttributeError (cx_filtered c) in
    let* eqs := columns eqs in
    let* k := cf_mm (cx_config c) in
    let* q := maximum_magnitude_of k eqs in
    update_cur c (apply_maximum_magnitude q)).

End Jobs.
Arguments gk_conf AR : clear implicits.
Arguments af_conf AR : clear implicits.
Arguments stepp_conf AR : clear implicits.
Arguments rec_conf AR : clear implicits.
Arguments mm_conf AR : clear implicits.
Arguments config AR : clear implicits.
Arguments context AR : clear implicits.
Arguments job AR : clear implicits.
