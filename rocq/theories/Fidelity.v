(** The model run on the inputs of /repo/tests: declustering (tests/declustering,
    tests/qa_tests/test_declustering.py), fault geometry (tests/geo) and occurrence rates
    (tests/fault_calculator).  The expected numbers are those of the tests; they are reproduced
    by computation, so these checks tie the model to the behaviour the project itself
    documents.  Generated from the test files.  Each
    test is evaluated while this file is compiled; the example below it states the answer. *)
From Coq Require Import ZArith Bool Ascii String List.
From Coq Require Import Floats.SpecFloat.
From Verif Require Import Base Ops FloatOps Libm CatUtil PyStr Csv PyFloat EqCatalog SourceModel
  Nrml World CatalogFilter Decluster SimpleFault Tectonic FaultCalc Jobs Workflow Demo.
Import ListNotations.
Local Open Scope string_scope.

Definition ev (y m d lon lat mw s : string) : event FL :=
  @mkEvent FL (fl y) (fl m) (fl d) (fl lon) (fl lat) (fl mw) (fl s).

(** CATALOG_MATRIX_ALL_IN_A_CLUSTER, tests/declustering/data/_declustering_test_data.py. *)
Definition catalog_matrix_all_in_a_cluster : list (event FL) := [
  ev "1982.0" "5.0" "3.0" "20.596" "38.545" "7.2" "0.1";
  ev "1982.0" "5.0" "3.0" "20.581" "38.564" "5.0" "0.1";
  ev "1982.0" "5.0" "3.0" "20.58" "38.562" "4.8" "0.1";
  ev "1982.0" "5.0" "3.0" "20.594" "38.567" "4.6" "0.1";
  ev "1982.0" "5.0" "3.0" "20.589" "38.569" "4.2" "0.1";
  ev "1982.0" "5.0" "3.0" "20.571" "38.565" "5.3" "0.1";
  ev "1982.0" "5.0" "3.0" "20.581" "38.555" "3.7" "0.1";
  ev "1982.0" "5.0" "3.0" "20.599" "38.531" "5.1" "0.1";
  ev "1982.0" "5.0" "3.0" "20.579" "38.562" "5.3" "0.1";
  ev "1982.0" "5.0" "3.0" "20.57" "38.531" "4.6" "0.1";
  ev "1982.0" "5.0" "3.0" "20.603" "38.534" "5.8" "0.1";
  ev "1982.0" "5.0" "3.0" "20.603" "38.557" "4.5" "0.1";
  ev "1982.0" "5.0" "3.0" "20.605" "38.551" "5.0" "0.1";
  ev "1982.0" "5.0" "3.0" "20.594" "38.543" "4.9" "0.1";
  ev "1982.0" "5.0" "3.0" "20.609" "38.542" "2.0" "0.1";
  ev "1982.0" "5.0" "3.0" "20.589" "38.544" "5.1" "0.1";
  ev "1982.0" "5.0" "3.0" "20.573" "38.538" "4.4" "0.1";
  ev "1982.0" "5.0" "3.0" "20.598" "38.548" "4.4" "0.1";
  ev "1982.0" "5.0" "3.0" "20.59" "38.549" "4.4" "0.1";
  ev "1982.0" "5.0" "3.0" "20.571" "38.559" "4.4" "0.1"].

(** CATALOG_MATRIX_NO_CLUSTERS, tests/declustering/data/_declustering_test_data.py. *)
Definition catalog_matrix_no_clusters : list (event FL) := [
  ev "1961.0" "1.0" "21.0" "20.59" "38.55" "6.2" "0.1";
  ev "1964.0" "5.0" "25.0" "122.59" "39.52" "5.7" "0.1";
  ev "1967.0" "4.0" "30.0" "24.18" "37.91" "5.2" "0.1";
  ev "1970.0" "7.0" "14.0" "22.25" "36.86" "6.5" "0.1";
  ev "1970.0" "7.0" "16.0" "122.24" "36.88" "5.3" "0.1";
  ev "1973.0" "8.0" "5.0" "20.86" "33.87" "6.1" "0.1";
  ev "1976.0" "12.0" "8.0" "23.15" "31.68" "7.2" "0.1";
  ev "1979.0" "11.0" "12.0" "25.86" "30.75" "5.7" "0.1";
  ev "1982.0" "3.0" "4.0" "27.85" "30.89" "6.4" "0.1";
  ev "1985.0" "4.0" "14.0" "29.83" "32.79" "6.8" "0.1";
  ev "1985.0" "4.0" "15.0" "-129.82" "32.8" "5.8" "0.1";
  ev "1988.0" "12.0" "18.0" "23.44" "34.52" "4.5" "0.1";
  ev "1991.0" "6.0" "23.0" "25.66" "33.58" "5.0" "0.1";
  ev "1994.0" "8.0" "27.0" "28.47" "34.96" "4.9" "0.1";
  ev "1997.0" "6.0" "30.0" "25.89" "36.1" "5.9" "0.1";
  ev "2000.0" "3.0" "1.0" "20.17" "30.13" "6.4" "0.1";
  ev "2003.0" "2.0" "9.0" "27.29" "38.0" "6.0" "0.1";
  ev "2006.0" "1.0" "10.0" "25.7" "39.87" "5.4" "0.1";
  ev "2009.0" "10.0" "13.0" "29.9" "36.86" "6.3" "0.1";
  ev "2009.0" "10.0" "16.0" "-129.91" "36.86" "5.3" "0.1"].

Definition windows := [TDW_GARDNERKNOPOFF; TDW_GRUENTHAL; TDW_UHRHAMMER].
Definition same_result (vcl : list nat) (main : list (event FL)) (flag : list Z)
    (r : res (list nat * list (event FL) * list Z)) : bool :=
  gives r (fun '(v, m, f) => all2 Nat.eqb vcl v && all2 event_eqb main m && all2 Z.eqb flag f).

(** evaluate_results_gardner and evaluate_results_afteran, test_declustering.py:43-75; each
    window with one time window instead of all three, to save time. *)
Definition evaluate_gardner cat vcl main flag : bool :=
  forallb (fun '(w, ftw) =>
    same_result vcl main flag (@gardner_knopoff_decluster FL demo_argsort cat w (fl ftw)))
    (combine windows ["0.0"; "0.1"; "0.2"]).
Definition evaluate_afteran cat vcl main flag : bool :=
  forallb (fun '(w, tw) =>
    same_result vcl main flag (@afteran_decluster FL demo_argsort cat w (fl tw)))
    (combine windows ["10"; "30"; "60"]).

Definition test_gardner_knopoff_all_events_within_a_cluster : bool := Eval vm_compute in
  evaluate_gardner catalog_matrix_all_in_a_cluster (repeat 1%nat 20)
    (firstn 1 catalog_matrix_all_in_a_cluster) (0%Z :: repeat 1%Z 19).
Example test_gardner_knopoff_all_events_within_a_cluster_passes : test_gardner_knopoff_all_events_within_a_cluster = true.
Proof. reflexivity. Qed.
Definition test_gardner_knopoff_no_events_within_a_cluster : bool := Eval vm_compute in
  evaluate_gardner catalog_matrix_no_clusters (repeat 0%nat 20) catalog_matrix_no_clusters
    (repeat 0%Z 20).
Example test_gardner_knopoff_no_events_within_a_cluster_passes : test_gardner_knopoff_no_events_within_a_cluster = true.
Proof. reflexivity. Qed.
Definition test_afteran_all_events_within_a_cluster : bool := Eval vm_compute in
  evaluate_afteran catalog_matrix_all_in_a_cluster (repeat 1%nat 20)
    (firstn 1 catalog_matrix_all_in_a_cluster) (0%Z :: repeat 1%Z 19).
Example test_afteran_all_events_within_a_cluster_passes : test_afteran_all_events_within_a_cluster = true.
Proof. reflexivity. Qed.
Definition test_afteran_no_events_within_a_cluster : bool := Eval vm_compute in
  evaluate_afteran catalog_matrix_no_clusters (repeat 0%nat 20) catalog_matrix_no_clusters
    (repeat 0%Z 20).
Example test_afteran_no_events_within_a_cluster_passes : test_afteran_no_events_within_a_cluster = true.
Proof. reflexivity. Qed.

(** tests/data/declustering_input_test.csv. *)
Definition declustering_input_test : text := t "eventID,Agency,Identifier,year,month,day,hour,minute,second,timeError,longitude,latitude,SemiMajor90,SemiMinor90,ErrorStrike,depth,depthError,Mw,sigmaMw,Ms,sigmaMs,mb,sigmamb,ML,sigmaML
1,XXX,1,1961,1,21,1,1,1.0,,20.59,38.55,,,,10.0,1.0,6.2,0.1,,,,,,
2,XXX,2,1964,5,25,2,2,2.0,,22.59,39.52,,,,10.0,1.0,5.7,0.1,,,,,,
3,XXX,3,1967,4,30,3,3,3.0,,24.18,37.91,,,,10.0,1.0,5.2,0.1,,,,,,
4,XXX,4,1970,7,14,4,4,4.0,,22.25,36.86,,,,10.0,1.0,6.5,0.1,,,,,,
5,XXX,5,1970,7,16,5,5,5.0,,22.24,36.88,,,,10.0,1.0,5.3,0.1,,,,,,
6,XXX,6,1973,8,5,6,6,6.0,,20.86,33.87,,,,10.0,1.0,6.1,0.1,,,,,,
7,XXX,7,1976,12,8,7,7,7.0,,23.15,31.68,,,,10.0,1.0,7.2,0.1,,,,,,
8,XXX,8,1979,11,12,8,8,8.0,,25.86,30.75,,,,10.0,1.0,5.7,0.1,,,,,,
9,XXX,9,1982,3,4,9,9,9.0,,27.85,30.89,,,,10.0,1.0,6.4,0.1,,,,,,
10,XXX,10,1985,4,14,10,10,10.0,,29.83,32.79,,,,10.0,1.0,6.8,0.1,,,,,,
11,XXX,11,1985,4,15,11,11,11.0,,29.82,32.8,,,,10.0,1.0,5.8,0.1,,,,,,
12,XXX,12,1988,12,18,12,12,12.0,,23.44,34.52,,,,10.0,1.0,4.5,0.1,,,,,,
13,XXX,13,1991,6,23,13,13,13.0,,25.66,33.58,,,,10.0,1.0,5,0.1,,,,,,
14,XXX,14,1994,8,27,14,14,14.0,,28.47,34.96,,,,10.0,1.0,4.9,0.1,,,,,,
15,XXX,15,1997,6,30,15,15,15.0,,25.89,36.1,,,,10.0,1.0,5.9,0.1,,,,,,
16,XXX,16,2000,3,1,16,16,16.0,,20.17,30.13,,,,10.0,1.0,6.4,0.1,,,,,,
17,XXX,17,2003,2,9,17,17,17.0,,27.29,38,,,,10.0,1.0,6,0.1,,,,,,
18,XXX,18,2006,1,10,18,18,18.0,,25.7,39.87,,,,10.0,1.0,5.4,0.1,,,,,,
19,XXX,19,2009,10,13,19,19,19.0,,29.9,36.86,,,,10.0,1.0,6.3,0.1,,,,,,
20,XXX,20,2009,10,16,20,20,20.0,,29.91,36.86,,,,10.0,1.0,5.3,0.1,,,,,,
".

Definition expected_vmain_shock : list (event FL) := [
  ev "1961.0" "1.0" "21.0" "20.59" "38.55" "6.2" "0.1";
  ev "1964.0" "5.0" "25.0" "22.59" "39.52" "5.7" "0.1";
  ev "1967.0" "4.0" "30.0" "24.18" "37.91" "5.2" "0.1";
  ev "1970.0" "7.0" "14.0" "22.25" "36.86" "6.5" "0.1";
  ev "1973.0" "8.0" "5.0" "20.86" "33.87" "6.1" "0.1";
  ev "1976.0" "12.0" "8.0" "23.15" "31.68" "7.2" "0.1";
  ev "1979.0" "11.0" "12.0" "25.86" "30.75" "5.7" "0.1";
  ev "1982.0" "3.0" "4.0" "27.85" "30.89" "6.4" "0.1";
  ev "1985.0" "4.0" "14.0" "29.83" "32.79" "6.8" "0.1";
  ev "1988.0" "12.0" "18.0" "23.44" "34.52" "4.5" "0.1";
  ev "1991.0" "6.0" "23.0" "25.66" "33.58" "5.0" "0.1";
  ev "1994.0" "8.0" "27.0" "28.47" "34.96" "4.9" "0.1";
  ev "1997.0" "6.0" "30.0" "25.89" "36.1" "5.9" "0.1";
  ev "2000.0" "3.0" "1.0" "20.17" "30.13" "6.4" "0.1";
  ev "2003.0" "2.0" "9.0" "27.29" "38.0" "6.0" "0.1";
  ev "2006.0" "1.0" "10.0" "25.7" "39.87" "5.4" "0.1";
  ev "2009.0" "10.0" "13.0" "29.9" "36.86" "6.3" "0.1"].

Definition expected_flag_vector : list Z := [0; 0; 0; 0; 1; 0; 0; 0; 0; 0; 1; 0; 0; 0; 0; 0; 0; 0; 0; 1]%Z.
Definition expected_vcl : list nat := [0; 0; 0; 2; 2; 0; 0; 0; 0; 1; 1; 0; 0; 0; 0; 0; 0; 0; 3; 3]%nat.

(** The whole workflow of tests/data/config_gardner_knopoff.yml and config_afteran.yml. *)
Definition declustering_config (job : string) : config FL :=
  with_gk (@mkGkConf FL "GardnerKnopoff" (fl "0.5"))
    (with_af (@mkAfConf FL "Uhrhammer" (fl "150.8"))
      (no_conf (Given (t "tests/data/declustering_input_test.csv")) Null (Given [job]) Null
         Null Null Absent Null)).
Definition declustering_run (job : string) : bool :=
  let W := demo_world [] [] in
  let cf := declustering_config job in
  let c := init_context cf (demo_files
             [(t "tests/data/declustering_input_test.csv", declustering_input_test)]) in
  match preprocessing_build cf, processing_build cf with
  | Ok pre, Ok pro =>
      match start W pre pro SourceModelCatalogFilter c with
      | (c', None) =>
          some_is (cx_working c') (all2 event_eqb expected_vmain_shock)
          && some_is (cx_vcl c') (all2 Nat.eqb expected_vcl)
          && some_is (cx_flag c') (all2 Z.eqb expected_flag_vector)
      | _ => false
      end
  | _, _ => false
  end.
Definition qa_test_gardner_knopoff : bool := Eval vm_compute in
  declustering_run "GardnerKnopoff".
Example qa_test_gardner_knopoff_passes : qa_test_gardner_knopoff = true.
Proof. reflexivity. Qed.
Definition qa_test_afteran : bool := Eval vm_compute in
  declustering_run "Afteran".
Example qa_test_afteran_passes : qa_test_afteran = true.
Proof. reflexivity. Qed.

(** tests/geo/test_simple_fault_geo.py. *)
Definition fst_fault := @simple_fault_init FL [(fl "90.563202328", fl "24.926468434"); (fl "90.510844525", fl "23.892401812"); (fl "90.615560132", fl "22.400204407"); (fl "90.995154209", fl "21.287601079")]
  (fl "4.0") (fl "35.0") (fl "5.0").
Definition snd_fault := @simple_fault_init FL [(fl "90.995154209", fl "21.287601079"); (fl "92.294781845", fl "19.714732881"); (fl "93.262975563", fl "18.352958814"); (fl "93.581460339", fl "17.816563619")]
  (fl "0.0") (fl "35.0") (fl "10.0").
Definition fault_is (f : res (simple_fault FL)) (len width area : string) : bool :=
  gives f (fun f => near (places 5) (fl len) (@get_length FL f)
                 && near (places 5) (fl width) (@get_width FL f)
                 && near (places 4) (fl area) (@get_area FL f)).
Definition test_fst_fault : bool := Eval vm_compute in
  fault_is fst_fault "411.14582" "355.68511" "146238.4464".
Example test_fst_fault_passes : test_fst_fault = true.
Proof. reflexivity. Qed.
Definition test_snd_fault : bool := Eval vm_compute in
  fault_is snd_fault "472.08545" "201.55697" "95152.1118".
Example test_snd_fault_passes : test_snd_fault = true.
Proof. reflexivity. Qed.

Definition is_value_error {A} (r : res A) : bool :=
  match r with Err ValueError => true | _ => false end.
Definition test_raises_value_error_invalid_params : bool := Eval vm_compute in
  forallb (fun r => is_value_error r) [
    @simple_fault_init FL [(fl "90", fl "24")] (fl "4.0") (fl "35.0") (fl "5.0");
    @simple_fault_init FL [(fl "-185", fl "54"); (fl "90", fl "23")] (fl "4.0") (fl "35.0") (fl "5.0");
    @simple_fault_init FL [(fl "90", fl "-25"); (fl "90", fl "91")] (fl "4.0") (fl "35.0") (fl "5.0");
    @simple_fault_init FL [(fl "90", fl "24"); (fl "90", fl "21")] (fl "-1") (fl "35.0") (fl "5.0");
    @simple_fault_init FL [(fl "90", fl "24"); (fl "90", fl "21")] (fl "1") (fl "0") (fl "5.0");
    @simple_fault_init FL [(fl "90", fl "24"); (fl "90", fl "21")] (fl "3") (fl "2") (fl "5.0");
    @simple_fault_init FL [(fl "90", fl "24"); (fl "90", fl "21")] (fl "2") (fl "3") (fl "95")].
Example test_raises_value_error_invalid_params_passes : test_raises_value_error_invalid_params = true.
Proof. reflexivity. Qed.

(** tests/fault_calculator/test_fault_calculator.py.  The median magnitude of nhlib's WC1994
    for a normal fault (rake -90) is 3.93 + 1.02 log10(area). *)
Definition wc1994_normal (area : spec_float) (rake : option spec_float) : spec_float :=
  SFadd prec64 emax64 (fl "3.93") (SFmul prec64 emax64 (fl "1.02") (L_log10 area)).
Definition test_fault := @simple_fault_init FL [(fl "90.5632", fl "24.9265"); (fl "90.5108", fl "23.8924"); (fl "90.6156", fl "22.4002"); (fl "90.9952", fl "21.2876")] (fl "4.00") (fl "35.0") (fl "5.0").
Definition mfd (max_mag rake : option spec_float) : res (list spec_float) :=
  match @create_tect_region_by_name FL "Active Shallow Crust" None
          (Some (@mkDict FL _ (Some [fl "27.70"]) (Some [fl "1.0"]) false)) None, test_fault with
  | Ok tr, Ok sf =>
      @get_mfd FL wc1994_normal (fl "20.0") (fl "0.0") tr sf (fl "0.8") (fl "5.0") (fl "0.1")
        max_mag rake (@MOMENT_SCALING FL)
  | Err e, _ => Err e
  | _, Err e => Err e
  end.
Definition rates_are (l : list string) (r : res (list spec_float)) : bool :=
  gives r (all2 (fun s x => near (places 5) (fl s) x) l).
Definition test_calculate_occurance_rates : bool := Eval vm_compute in
  rates_are ["0.719905173075"; "0.598791041594"; "0.498052694858"; "0.414262187683"; "0.344568279453"; "0.28659941152"; "0.238383007322"; "0.198278349137"; "0.164920747406"; "0.137175102795"; "0.114097280802"; "0.0949019845528"; "0.0789360325568"; "0.0656561321153"; "0.0546103920443"; "0.0454229456281"; "0.0377811605502"; "0.0314250005759"; "0.0261381769859"; "0.0217407886596"; "0.0180832003622"; "0.0150409509269"; "0.0125105180639"; "0.0104057956833"; "0.00865516385886"; "0.00719905173075"; "0.00598791041594"; "0.00498052694858"; "0.00414262187683"; "0.00344568279453"; "0.0028659941152"; "0.00238383007322"; "0.00198278349137"; "0.00164920747406"; "0.00137175102795"] (mfd (Some (fl "8.5")) None).
Example test_calculate_occurance_rates_passes : test_calculate_occurance_rates = true.
Proof. reflexivity. Qed.
Definition test_compute_max_mag_using_msr : bool := Eval vm_compute in
  rates_are ["0.780179383967"; "0.648924946545"; "0.539752260701"; "0.448946375822"; "0.373417330576"; "0.310595007075"; "0.258341674371"; "0.214879245307"; "0.178728771409"; "0.148660116911"; "0.123650099455"; "0.10284767302"; "0.08554496836"; "0.071153205482"; "0.0591826585177"; "0.0492259912326"; "0.0409443961039"; "0.0340560653089"; "0.0283266013102"; "0.0235610407283"; "0.0195972200873"; "0.0163002576829"; "0.0135579638003"; "0.011277023099"; "0.00937981925965"; "0.00780179383967"; "0.00648924946545"; "0.00539752260701"; "0.00448946375822"; "0.00373417330576"; "0.00310595007075"; "0.00258341674371"; "0.00214879245307"; "0.00178728771409"; "0.00148660116911"; "0.00123650099455"; "0.0010284767302"; "0.0008554496836"; "0.00071153205482"; "0.000591826585177"; "0.000492259912326"; "0.000409443961039"] (mfd None (Some (fl "-90"))).
Example test_compute_max_mag_using_msr_passes : test_compute_max_mag_using_msr = true.
Proof. reflexivity. Qed.
