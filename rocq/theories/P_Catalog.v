(** Properties C01-C11, C82 and C83: reading and writing the earthquake catalogue (mtoolkit/eqcatalog.py). *)
From Coq Require Import ZArith Bool Ascii String List Permutation.
From Coq Require Import Floats.SpecFloat.
From Verif Require Import Base Ops FloatOps PyStr Csv EqCatalog PyStrProofs CsvProofs EqCatSpec EqCatRow EqCatFile EqCatRound EqCatWitness DemoFloat PyFloat PyTexts.
Import ListNotations.
Local Open Scope string_scope.

(** C01.  The reader is constructed exactly for files whose first line names the 25 columns. *)
Theorem C01_header_gate :
  forall (AR : Ops) (parse_float : text -> option T) (now : Z) (order : list key -> list key), forall content, exists line, is_first_line content line /\
  (is_header line -> validate_csv_catalog line = Ok tt /\
     read_file parse_float now order content =
     (let (rows, x) := csv_read c_init (tl (file_lines content)) in read_rows parse_float now order 2 rows x)) /\
  (~ is_header line -> validate_csv_catalog line = Err MalformedCatalogError /\
     read_file parse_float now order content = ([], Some MalformedCatalogError) /\
     read_eq_catalog parse_float now order content = Err MalformedCatalogError).
Proof. exact (@C01_proof). Qed.
Print Assumptions C01_header_gate.

Example C01_case : is_header (t "eventID,Agency, Identifier,year,month,day,hour,minute,second,timeError,longitude,latitude,SemiMajor90,SemiMinor90,ErrorStrike,depth,depthError,Mw,sigmaMw,Ms,sigmaMs,mb,sigmamb,ML,sigmaML ")
  /\ ~ is_header (t "eventID,Agency").
Proof. split; [apply header_iff; reflexivity|]. intros H. apply header_iff in H. discriminate. Qed.

(** C02.  Every accepted entry is valid, for every row of text. *)
Theorem C02_accepted_valid :
  forall (AR : Ops) (parse_float : text -> option T) (now : Z), forall order line row e, rearranges order ->
  read_entry parse_float now order line row = Ok e -> valid_entry now e.
Proof. exact (@C02_proof). Qed.
Print Assumptions C02_accepted_valid.

(** C03.  A 25-column row is accepted exactly when its eleven compulsory columns are in order,
    whatever the order in which the dictionary is visited. *)
Theorem C03_acceptance :
  forall (AR : Ops) (parse_float : text -> option T) (now : Z), forall order line row, rearranges order -> length row = 25 ->
  ((exists e, read_entry parse_float now order line row = Ok e) <-> acceptable parse_float now row).
Proof. exact (@C03_proof). Qed.
Print Assumptions C03_acceptance.

(** C04.  What an accepted entry holds outside the error ellipse; its keys are the 25 columns. *)
Theorem C04_kept_or_blanked :
  forall (AR : Ops) (parse_float : text -> option T) (now : Z), forall order line row e, rearranges order -> length row = 25 ->
  read_entry parse_float now order line row = Ok e ->
  map fst e = order (map Some columns) /\
  (forall f, In f ints -> exists z, parse_int (cell row f) = Some z /\ get (Some f) e = VInt z) /\
  (forall f, In f floats -> exists x, parse_float (cell row f) = Some x /\ get (Some f) e = VFlt x) /\
  get (Some "Agency") e = VStr (cell row "Agency") /\
  (forall f ok d, In (f, ok, d) (@optional_rules AR) ->
     get (Some f) e = kept_or parse_float ok d (cell row f)).
Proof. exact (@C04_proof). Qed.
Print Assumptions C04_kept_or_blanked.

Example C02_C03_C04_case : forall lm, exists e, rearranges cpython_order /\
  @read_entry (FOps lm) small_float 2013 cpython_order 2 (wrow "1" "2" "10" "5" "90" "30" "5") = Ok e.
Proof.
  intros lm. destruct (holds_ex lm (@read_entry (FOps lm) small_float 2013 cpython_order 2 (wrow "1" "2" "10" "5" "90" "30" "5")) (fun _ => true))
    as (e & E & _); [vm_compute; reflexivity|]. exists e. split; auto. exact cpython_rearranges.
Qed.

(** C05, as stated, is false in CPython's dictionary order: a negative SemiMinor90 is blanked
    while SemiMajor90 and ErrorStrike stay. *)
Theorem C05_ellipse_all_or_nothing_refuted :
  forall lm : libm, exists row e, length row = 25 /\
  @read_entry (FOps lm) small_float 2013 cpython_order 2 row = Ok e /\
  ~ ellipse_admissible (AR := FOps lm) small_float row /\
  get (Some "SemiMinor90") e = VStr [] /\
  get (Some "SemiMajor90") e = VFlt (F_ofZ 10 : @T (FOps lm)) /\ get (Some "ErrorStrike") e = VFlt (F_ofZ 90 : @T (FOps lm)).
Proof. exact C05_refuted_proof. Qed.
Print Assumptions C05_ellipse_all_or_nothing_refuted.

(** C05, what holds: all or nothing when each negative axis is visited before ErrorStrike.
    Missing: a negative axis visited later (refuted). *)
Theorem C05_ellipse_all_or_nothing_partial :
  forall (AR : Ops) (parse_float : text -> option T) (now : Z), forall order line row e, rearranges order -> length row = 25 ->
  read_entry parse_float now order line row = Ok e ->
  (forall f x, In f ["SemiMajor90"; "SemiMinor90"] -> parse_float (cell row f) = Some x ->
     axis_before order f \/ ltb x (ofZ 0) = false) ->
  (ellipse_admissible parse_float row -> ellipse_kept parse_float row e) /\
  (~ ellipse_admissible parse_float row -> ellipse_all_blank e).
Proof. exact (@C05_partial_proof). Qed.
Print Assumptions C05_ellipse_all_or_nothing_partial.

(** C05.  Every outcome: all blank, or the strike kept and each axis kept unless it is negative
    and visited after the strike; an admissible ellipse is always kept. *)
Theorem C05_ellipse_outcome :
  forall (AR : Ops) (parse_float : text -> option T) (now : Z), forall order line row e, rearranges order -> length row = 25 ->
  read_entry parse_float now order line row = Ok e ->
  (* all blank, or the strike is kept and each axis is kept or, if negative, blank *)
  (ellipse_all_blank e \/
   exists a b s, parse_float (cell row "SemiMajor90") = Some a /\
     parse_float (cell row "SemiMinor90") = Some b /\
     parse_float (cell row "ErrorStrike") = Some s /\
     leb b a = true /\ within 0 360 s /\
     get (Some "ErrorStrike") e = VFlt s /\
     (ltb a (ofZ 0) = false /\ get (Some "SemiMajor90") e = VFlt a \/
      ltb a (ofZ 0) = true /\ get (Some "SemiMajor90") e = VStr [] /\ ~ axis_before order "SemiMajor90") /\
     (ltb b (ofZ 0) = false /\ get (Some "SemiMinor90") e = VFlt b \/
      ltb b (ofZ 0) = true /\ get (Some "SemiMinor90") e = VStr [] /\ ~ axis_before order "SemiMinor90")) /\
  (ellipse_admissible parse_float row -> ellipse_kept parse_float row e).
Proof. exact (@ellipse_facts). Qed.
Print Assumptions C05_ellipse_outcome.

Example C05_case : rearranges (fun ks => ks) /\ axis_before (fun ks => ks) "SemiMajor90" /\
  axis_before (fun ks => ks) "SemiMinor90" /\ axis_before cpython_order "SemiMajor90".
Proof.
  split; [exact id_rearranges|]. split; [|split].
  - exists (map Some (firstn 14 columns)), (map Some (skipn 15 columns)). split; [reflexivity|simpl; tauto].
  - exists (map Some (firstn 14 columns)), (map Some (skipn 15 columns)). split; [reflexivity|simpl; tauto].
  - exists (map Some (firstn 7 cpython_keys)), (map Some (skipn 8 cpython_keys)). split; [reflexivity|simpl; tauto].
Qed.

(** C06.  A catalogue that is returned has one entry for each non-blank record, in order. *)
Theorem C06_whole_read :
  forall (AR : Ops) (parse_float : text -> option T) (now : Z) (order : list key -> list key), forall content es, read_eq_catalog parse_float now order content = Ok es ->
  is_header (first_line (file_lines content)) /\
  exists rows, csv_read c_init (tl (file_lines content)) = (rows, None) /\
    Forall2 (fun ir e => read_entry parse_float now order (2 + Z.of_nat (fst ir)) (snd ir) = Ok e)
      (combine (seq 0 (length (nonblank rows))) (nonblank rows)) es.
Proof. exact (@C06_all_proof). Qed.
Print Assumptions C06_whole_read.

(** C06.  A catalogue that raises: the lazy reader has yielded exactly the entries before the
    record that raises. *)
Theorem C06_first_bad_row :
  forall (AR : Ops) (parse_float : text -> option T) (now : Z) (order : list key -> list key), forall content x, read_eq_catalog parse_float now order content = Err x ->
  is_header (first_line (file_lines content)) ->
  exists rows cx es, csv_read c_init (tl (file_lines content)) = (rows, cx) /\
    read_file parse_float now order content = (es, Some x) /\
    (forall i e, nth_error es i = Some e -> exists r, nth_error (nonblank rows) i = Some r /\
       read_entry parse_float now order (2 + Z.of_nat i) r = Ok e) /\
    ((length es = length (nonblank rows) /\ cx = Some x) \/
     (exists r, nth_error (nonblank rows) (length es) = Some r /\
        read_entry parse_float now order (2 + Z.of_nat (length es)) r = Err x)).
Proof. exact (@C06_raise_proof). Qed.
Print Assumptions C06_first_bad_row.

Example C06_case : forall lm, exists es,
  @read_eq_catalog (FOps lm) small_float 2013 cpython_order (ctext [plain_row "1" "30" "5"; []; plain_row "2" "30" "6"]) = Ok es /\
  length es = 2.
Proof.
  intros lm.
  assert (H : match @read_eq_catalog (FOps lm) small_float 2013 cpython_order (ctext [plain_row "1" "30" "5"; []; plain_row "2" "30" "6"]) with
     Ok es => Nat.eqb (length es) 2 | Err _ => false end = true) by (vm_compute; reflexivity).
  destruct (read_eq_catalog _ _ _ _) as [es|]; [|discriminate]. exists es. split; auto. now apply Nat.eqb_eq.
Qed.

(** C07, as stated, is false: an unreadable magnitude raises TypeError, and a blank line before
    the bad row makes the reported number (3) differ from the line in the file (4). *)
Theorem C07_located_errors_refuted :
  forall lm : libm,
  @read_eq_catalog (FOps lm) small_float 2013 cpython_order (ctext [plain_row "1" "30" "5"; plain_row "1" "30" "high"])
    = Err TypeError /\
  nth_error (file_lines (ctext [plain_row "1" "30" "5"; []; plain_row "13" "30" "5"])) 3
    = Some (join [chr_comma] (plain_row "13" "30" "5") ++ [chr_lf])%list /\
  @read_eq_catalog (FOps lm) small_float 2013 cpython_order (ctext [plain_row "1" "30" "5"; []; plain_row "13" "30" "5"])
    = Err (EqEntryValidationError "month" 3).
Proof. exact C07_refuted_proof. Qed.
Print Assumptions C07_located_errors_refuted.

(** C07, what holds for every file: the exception is csv's own, or it comes from the first bad
    record, which is ragged, or has a bad compulsory column named in EqEntryValidationError with
    the number of the record (blank records not counted), or raises TypeError for an unreadable
    compulsory number.  Missing: the last case and the count of blank lines (refuted). *)
Theorem C07_located_errors_partial :
  forall (AR : Ops) (parse_float : text -> option T) (now : Z) (order : list key -> list key), forall content x, rearranges order ->
  read_eq_catalog parse_float now order content = Err x -> is_header (first_line (file_lines content)) ->
  exists rows cx i, csv_read c_init (tl (file_lines content)) = (rows, cx) /\
    ((i = length (nonblank rows) /\ cx = Some x) \/
     exists r, nth_error (nonblank rows) i = Some r /\
       (length r <> 25 \/
        (exists f P, In (f, P) (requirements parse_float now r) /\ ~ P /\
           x = EqEntryValidationError f (2 + Z.of_nat i)) \/
        (x = TypeError /\ exists f, In f floats /\ parse_float (cell r f) = None))) /\
    (forall j r, j < i -> nth_error (nonblank rows) j = Some r -> length r = 25 /\ acceptable parse_float now r).
Proof. exact (@C07_file_proof). Qed.
Print Assumptions C07_located_errors_partial.

Example C07_case : forall lm,
  @read_eq_catalog (FOps lm) small_float 2013 cpython_order (ctext [plain_row "1" "30" "5"; plain_row "13" "30" "5"]) =
    Err (EqEntryValidationError "month" 3).
Proof.
  intros lm. destruct (raises_ex lm (@read_eq_catalog (FOps lm) small_float 2013 cpython_order (ctext [plain_row "1" "30" "5"; plain_row "13" "30" "5"]))
      (fun x => match x with EqEntryValidationError f l => String.eqb f "month" && (l =? 3)%Z | _ => false end)) as (x & -> & P).
  { vm_compute. reflexivity. }
  destruct x; try discriminate. apply andb_true_iff in P. destruct P as (P1 & P2).
  apply String.eqb_eq in P1. apply Z.eqb_eq in P2. now subst.
Qed.

(** C08, as stated, is false: 0 February and 31 April are accepted. *)
Theorem C08_dates_exist_refuted :
  forall lm : libm, exists row1 row2 e1 e2, 
  @read_entry (FOps lm) small_float 2013 cpython_order 2 row1 = Ok e1 /\ get (Some "month") e1 = VInt 2 /\ get (Some "day") e1 = VInt 0 /\
  @read_entry (FOps lm) small_float 2013 cpython_order 3 row2 = Ok e2 /\ get (Some "month") e2 = VInt 4 /\ get (Some "day") e2 = VInt 31.
Proof. exact C08_refuted_proof. Qed.
Print Assumptions C08_dates_exist_refuted.

(** C08, what holds: at most 29 in February, 1 to 31 in every other month.  Missing: day >= 1 in
    February and the 30-day months (refuted). *)
Theorem C08_dates_exist_partial :
  forall (AR : Ops) (parse_float : text -> option T) (now : Z), forall order line row e, rearranges order ->
  read_entry parse_float now order line row = Ok e ->
  exists m d, get (Some "month") e = VInt m /\ get (Some "day") e = VInt d /\
    (1 <= m <= 12 /\ d <= 31 /\ (m = 2 -> d <= 29) /\ (m <> 2 -> 1 <= d))%Z.
Proof. exact (@C08_partial_proof). Qed.
Print Assumptions C08_dates_exist_partial.

(** C09.  A record that does not have 25 columns raises. *)
Theorem C09_ragged_rows :
  forall (AR : Ops) (parse_float : text -> option T) (now : Z), forall order line row, rearranges order -> length row <> 25 ->
  exists x, read_entry parse_float now order line row = Err x.
Proof. exact (@C09_proof). Qed.
Print Assumptions C09_ragged_rows.

(** C09.  A file with a non-blank record that does not have 25 columns cannot be read. *)
Theorem C09_ragged_files :
  forall (AR : Ops) (parse_float : text -> option T) (now : Z) (order : list key -> list key), forall content rows cx r, rearranges order ->
  csv_read c_init (tl (file_lines content)) = (rows, cx) -> In r rows -> r <> [] -> length r <> 25 ->
  exists x, read_eq_catalog parse_float now order content = Err x.
Proof. exact (@C09_file_proof). Qed.
Print Assumptions C09_ragged_files.

Example C09_case : forall lm, exists x,
  @read_entry (FOps lm) small_float 2013 cpython_order 2 (wrow "1" "2" "" "" "" "30" "5" ++ [t "extra"])%list = Err x.
Proof. intros. apply C09_ragged_rows. exact cpython_rearranges. discriminate. Qed.

(** C10, as stated, is false: a magnitude nan is accepted, and every comparison with it is false. *)
Theorem C10_finite_magnitude_refuted :
  forall lm : libm, exists row e, @read_entry (FOps lm) small_float 2013 cpython_order 2 row = Ok e /\
  get (Some "Mw") e = VFlt (S754_nan : @T (FOps lm)) /\ (forall x : @T (FOps lm), ltb x S754_nan = false /\ leb x S754_nan = false).
Proof. exact C10_refuted_proof. Qed.
Print Assumptions C10_finite_magnitude_refuted.

(** C10, what holds in binary64: longitude and latitude are finite, depth is not NaN, Mw is a
    float.  Missing: Mw finite (refuted). *)
Theorem C10_finite_magnitude_partial :
  forall lm : libm, forall pf now order line row e, rearranges order ->
  @read_entry (FOps lm) pf now order line row = Ok e ->
  exists lon lat dep mw : spec_float,
    get (Some "longitude") e = VFlt (lon : @T (FOps lm)) /\ finite lon /\
    get (Some "latitude") e = VFlt (lat : @T (FOps lm)) /\ finite lat /\
    get (Some "depth") e = VFlt (dep : @T (FOps lm)) /\ dep <> S754_nan /\
    get (Some "Mw") e = VFlt (mw : @T (FOps lm)).
Proof. exact C10_partial_proof. Qed.
Print Assumptions C10_finite_magnitude_partial.

Example C10_case : forall lm, exists e,
  @read_entry (FOps lm) small_float 2013 cpython_order 2 (wrow "1" "2" "" "" "" "30" "6") = Ok e /\
  get (Some "Mw") e = VFlt (F_ofZ 6 : @T (FOps lm)).
Proof.
  intros lm. destruct (holds_ex lm (@read_entry (FOps lm) small_float 2013 cpython_order 2 (wrow "1" "2" "" "" "" "30" "6"))
    (fun e => is_flt lm (F_ofZ 6) (get (Some "Mw") e))) as (e & E & P); [vm_compute; reflexivity|].
  exists e. split; auto. now apply is_flt_eq.
Qed.

(** C11.  Writing any selection of the entries read from a file and reading the result gives the
    same entries, when the error ellipse of each is consistent. *)
Theorem C11_csv_round_trip :
  forall (AR : Ops) (parse_float : text -> option T) (repr_float : T -> text) (now : Z)
    (order : list key -> list key), rearranges order ->
  (forall s x, parse_float s = Some x -> parse_float (repr_float x) = Some x /\ ~ In chr_nul (repr_float x)) ->
  parse_float (repr_float (ofZ 0)) = Some (ofZ 0) /\ ~ In chr_nul (repr_float (ofZ 0)) ->
  parse_float [] = None -> forall content es sel, read_eq_catalog parse_float now order content = Ok es ->
  incl sel es -> Forall ellipse_consistent sel ->
  exists out, write_rows repr_float sel = Ok out /\ read_eq_catalog parse_float now order out = Ok sel.
Proof. exact (@C11_proof). Qed.
Print Assumptions C11_csv_round_trip.

(** C11, with CPython's float(), repr() and iteration order: no assumption is left. *)
Theorem C11_csv_round_trip_cpython :
  forall (lm : libm) (now : Z) content es sel, @read_eq_catalog (FOps lm) py_float now cpython_order content = Ok es ->
  incl sel es -> Forall ellipse_consistent sel ->
  exists out, @write_rows (FOps lm) py_repr sel = Ok out /\ @read_eq_catalog (FOps lm) py_float now cpython_order out = Ok sel.
Proof. exact (@C11_cpython_proof). Qed.
Print Assumptions C11_csv_round_trip_cpython.

Definition quoted_row : list text :=
  map t ["1"; """GEM, """"Pavia"""""""; "7"; "1990"; "2"; "2"; "3"; "4"; "5"; ""; "10"; "45"; ""; ""; ""; "30";
         ""; "6"; ""; ""; ""; ""; ""; ""; ""].
Example C11_case : forall lm, rearranges cpython_order /\
  (forall s x, demo_parse s = Some x -> demo_parse (demo_repr x) = Some x /\ ~ In chr_nul (demo_repr x)) /\
  (demo_parse (demo_repr (@ofZ (FOps lm) 0)) = Some (@ofZ (FOps lm) 0) /\ ~ In chr_nul (demo_repr (@ofZ (FOps lm) 0))) /\
  demo_parse [] = None /\
  exists e, @read_eq_catalog (FOps lm) demo_parse 2013 cpython_order (ctext [quoted_row]) = Ok [e] /\
    get (Some "Agency") e = VStr (t "GEM, ""Pavia""") /\ ellipse_consistent e.
Proof.
  intros lm. split; [exact cpython_rearranges|]. split; [intros s x _; split; [apply demo_parse_repr|apply demo_repr_no_nul]|].
  split; [split; [apply demo_parse_repr|apply demo_repr_no_nul]|].
  split; [reflexivity|].
  assert (H : match @read_eq_catalog (FOps lm) demo_parse 2013 cpython_order (ctext [quoted_row]) with
     Ok [e] => match get (Some "Agency") e with VStr s => text_eqb s (t "GEM, ""Pavia""") | _ => false end &&
               isblank lm (get (Some "SemiMajor90") e) && isblank lm (get (Some "SemiMinor90") e) && isblank lm (get (Some "ErrorStrike") e)
     | _ => false end = true) by (vm_compute; reflexivity).
  destruct (read_eq_catalog _ _ _ _) as [[|e [|]]|]; try discriminate. exists e. split; auto.
  rewrite !andb_true_iff in H. destruct H as (((H1 & H2) & H3) & H4). split.
  - destruct (get (Some "Agency") e); try discriminate. apply text_eqb_eq in H1. now subst.
  - left. intros f [<-|[<-|[<-|[]]]]; now apply isblank_eq.
Qed.

(** A row whose Mw has seventeen digits. *)
Definition long_row : list text :=
  map t ["1"; """GEM, """"Pavia"""""""; "7"; "1990"; "2"; "2"; "3"; "4"; "5"; ""; "10.123456789012345"; "45"; ""; ""; ""; "30";
         ""; "5.3000000000000007"; ""; ""; ""; ""; ""; ""; ""].
Example C11_cpython_case : forall lm, exists e x, @read_eq_catalog (FOps lm) py_float 2013 cpython_order (ctext [long_row]) = Ok [e] /\
  get (Some "Mw") e = VFlt x /\ py_repr x = t "5.300000000000001" /\ ellipse_consistent e.
Proof.
  intros lm.
  assert (H : match @read_eq_catalog (FOps lm) py_float 2013 cpython_order (ctext [long_row]) with
     Ok [e] => match get (Some "Mw") e with VFlt x => text_eqb (py_repr x) (t "5.300000000000001") | _ => false end &&
               isblank lm (get (Some "SemiMajor90") e) && isblank lm (get (Some "SemiMinor90") e) && isblank lm (get (Some "ErrorStrike") e)
     | _ => false end = true) by (vm_compute; reflexivity).
  destruct (read_eq_catalog _ _ _ _) as [[|e [|]]|]; try discriminate. exists e.
  rewrite !andb_true_iff in H. destruct H as (((H1 & H2) & H3) & H4).
  destruct (get (Some "Mw") e) as [|x| | |] eqn:G; try discriminate. exists x. split; auto. split; auto. apply text_eqb_eq in H1. split; auto.
  left. intros f [<-|[<-|[<-|[]]]]; now apply isblank_eq.
Qed.

(** C82.  The texts that are read as integers, and their values. *)
Theorem C82_integer_cells : forall s z, parse_int s = Some z <-> is_int_text s z.
Proof. exact parse_int_spec. Qed.
Print Assumptions C82_integer_cells.

Example C82_case : is_int_text (t " -042 ") (-42) /\ parse_int (t "4 2") = None /\ parse_int (t "1e3") = None.
Proof. split; [apply C82_integer_cells; reflexivity|]. split; reflexivity. Qed.

(** C83.  Records written by the csv writer are read back unchanged, whatever text they hold. *)
Theorem C83_csv_records : forall rows, Forall (Forall no_nul) rows ->
  csv_read c_init (file_lines (List.concat (map write_row rows))) = (rows, None).
Proof. exact csv_round_trip. Qed.
Print Assumptions C83_csv_records.

Example C83_case : Forall (Forall no_nul) [[t "a,b"; []]; []; [[]]; [[chr_quote; chr_lf; chr_cr]]].
Proof. repeat constructor; intros H; vm_compute in H; intuition discriminate. Qed.
