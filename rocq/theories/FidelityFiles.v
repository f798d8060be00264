(** The model run on the file tests of /repo: reading and writing the catalogue
    (tests/test_jobs.py, tests/test_eqcatalog.py), the completeness table file, the source
    model files (tests/test_source_models.py) and the functions of tests/maximum_magnitude.
    Generated from the test files.  Each
    test is evaluated while this file is compiled; the example below it states the answer. *)
From Coq Require Import ZArith Bool Ascii String List.
From Coq Require Import Floats.SpecFloat.
From Verif Require Import Base Ops FloatOps Libm CatUtil PyStr Csv PyFloat EqCatalog EqCatWitness
  SourceModel Nrml World CatalogFilter MaxMag Jobs Workflow Demo.
Import ListNotations.
Local Open Scope string_scope.

Definition crlf_lines (ls : list string) : text :=
  flat_map (fun l => t l ++ [chr_cr; chr_lf])%list ls.
Definition lf_lines (ls : list string) : text := flat_map (fun l => t l ++ [chr_lf])%list ls.

(** tests/data/ISC_small_data.csv. *)
Definition ISC_small_data : text := crlf_lines [
  "eventID,Agency,Identifier,year,month,day,hour,minute,second,timeError,longitude,latitude,SemiMajor90,SemiMinor90,ErrorStrike,depth,depthError,Mw,sigmaMw,Ms,sigmaMs,mb,sigmamb,ML,sigmaML";
  "1,AAA,20000102034913,2000,01,02,03,49,13,0.02,7.282,44.368,2.43,1.01,298,9.3,0.5,1.71,0.355,   ,   ,   ,   ,1.7,0.1";
  "2,AAA,20000105132157,2000,01,05,13,21,57,0.10,11.988,44.318,0.77,0.25,315,7.9,0.5,3.89,0.199,   ,   ,3.8,0.1,   ,   ";
  "3,FFG,20000105161907,2000,01,05,16,19,07,0.01,8.491,44.599,2.61,1.83,232,4.2,0.2,2.12,0.355,   ,   ,   ,   ,2.1,0.1";
  "4,AAA,20000106051614,2000,01,06,05,16,14,0.07,11.837,38.343,2.78,2.41,70,7.4,0.2,3.98,0.199,   ,   ,3.9,0.1,   ,   ";
  "5,FFG,20000106100500,2000,01,06,10,05,00,0.01,8.711,44.048,2.91,1.65,138,2.1,0.2,2.54,0.355,   ,   ,   ,   ,2.5,0.1";
  "6,AAA,20000107034517,2000,01,07,03,45,17,0.03,7.157,44.373,0.82,0.60,30,9.4,0.2,1.81,0.355,   ,   ,   ,   ,1.8,0.1";
  "7,FFG,20000107042724,2000,01,07,04,27,24,0.04,8.691,44.040,1.02,0.44,336,5.3,0.2,2.12,0.355,   ,   ,   ,   ,2.1,0.1";
  "8,AAA,20000107120040,2000,01,07,12,00,40,0.00,11.922,38.385,2.05,0.72,202,3.2,0.5,4.92,0.436,4.4,0.1,   ,   ,   ,   ";
  "9,AAA,20000107124602,2000,01,07,12,46,02,0.04,11.874,38.418,2.48,0.89,78,9.5,0.5,3.52,0.199,   ,   ,3.4,0.1,   ,   ";
  "10,FFG,20000108020106,2000,01,08,02,01,06,0.09,6.679,44.771,0.66,0.04,332,8.6,0.2,1.71,0.355,   ,   ,   ,   ,1.7,0.1"].

(** tests/data/expected_preprocessed_catalogue.csv. *)
Definition expected_preprocessed_catalogue : text := crlf_lines [
  "eventID,Agency,Identifier,year,month,day,hour,minute,second,timeError,longitude,latitude,SemiMajor90,SemiMinor90,ErrorStrike,depth,depthError,Mw,sigmaMw,Ms,sigmaMs,mb,sigmamb,ML,sigmaML";
  "1,AAA,20000102034913,2000,1,2,3,49,13.0,0.02,7.282,44.368,2.43,1.01,298.0,9.3,0.5,1.71,0.355,,,,,1.7,0.1";
  "2,AAA,20000105132157,2000,1,5,13,21,57.0,0.1,11.988,44.318,0.77,0.25,315.0,7.9,0.5,3.89,0.199,,,3.8,0.1,,";
  "3,FFG,20000105161907,2000,1,5,16,19,7.0,0.01,8.491,44.599,2.61,1.83,232.0,4.2,0.2,2.12,0.355,,,,,2.1,0.1";
  "6,AAA,20000107034517,2000,1,7,3,45,17.0,0.03,7.157,44.373,0.82,0.6,30.0,9.4,0.2,1.81,0.355,,,,,1.8,0.1";
  "8,AAA,20000107120040,2000,1,7,12,0,40.0,0.0,11.922,38.385,2.05,0.72,202.0,3.2,0.5,4.92,0.436,4.4,0.1,,,,";
  "10,FFG,20000108020106,2000,1,8,2,1,6.0,0.09,6.679,44.771,0.66,0.04,332.0,8.6,0.2,1.71,0.355,,,,,1.7,0.1"].

(** tests/data/expected_entries.csv. *)
Definition expected_entries : text := crlf_lines [
  "eventID,Agency,Identifier,year,month,day,hour,minute,second,timeError,longitude,latitude,SemiMajor90,SemiMinor90,ErrorStrike,depth,depthError,Mw,sigmaMw,Ms,sigmaMs,mb,sigmamb,ML,sigmaML";
  "1,AAA,20000102034913,2000,1,2,3,49,13.0,0.02,7.282,44.368,2.43,1.01,298.0,9.3,0.5,1.71,0.355,,,,,1.7,0.1";
  "2,AAA,20000105132157,2000,1,5,13,21,57.0,0.1,11.988,44.318,0.77,0.25,315.0,7.9,0.5,3.89,0.199,,,3.8,0.1,,"].

(** tests/data/expected_completeness_table.csv. *)
Definition expected_completeness_table : text := lf_lines [
  "1991.00000,   4.00000";
  "1991.00000,   4.20000";
  "1961.00000,   4.40000";
  "1961.00000,   4.60000";
  "1961.00000,   4.80000";
  "1961.00000,   5.00000";
  "1961.00000,   5.20000";
  "1912.00000,   5.40000";
  "1912.00000,   5.60000";
  "1911.00000,   5.80000";
  "1911.00000,   6.00000";
  "1911.00000,   6.20000";
  "1911.00000,   6.40000";
  "1911.00000,   6.60000";
  "1911.00000,   6.80000";
  "1911.00000,   7.00000";
  "1911.00000,   7.20000"].

Definition jobs_config : config FL :=
  no_conf (Given (t "tests/data/ISC_small_data.csv"))
    (Given (t "tests/data/area_source_model.xml")) Null (Given ["Recurrence"])
    (Given (t "tests/data/preprocessed_catalogue.csv")) (Given (t "tests/data/ctable.csv"))
    (Given (t "path_to_file")) (Given tt).

Definition ws (n : nat) : text := chr_lf :: repeat " "%char n.
(** tests/data/area_source_model.xml as the parser delivers it. *)
Definition area_source_model : xml :=
  Elem "{http://openquake.org/xmlns/nrml/0.3}nrml" [("{http://www.opengis.net/gml}id", (t "n1"))] (Some (ws 2)) [
    Elem "{http://openquake.org/xmlns/nrml/0.3}sourceModel" [("{http://www.opengis.net/gml}id", (t "sm1"))] (Some (ws 4)) [
      Elem "{http://openquake.org/xmlns/nrml/0.3}config" [] None [];
      Elem "{http://openquake.org/xmlns/nrml/0.3}areaSource" [("{http://www.opengis.net/gml}id", (t "src03"))] (Some (ws 6)) [
        Elem "{http://www.opengis.net/gml}name" [] (Some (t "Quito")) [];
        Elem "{http://openquake.org/xmlns/nrml/0.3}tectonicRegion" [] (Some (t "Active Shallow Crust")) [];
        Elem "{http://openquake.org/xmlns/nrml/0.3}areaBoundary" [] (Some (ws 8)) [
          Elem "{http://www.opengis.net/gml}Polygon" [] (Some (ws 10)) [
            Elem "{http://www.opengis.net/gml}exterior" [] (Some (ws 12)) [
              Elem "{http://www.opengis.net/gml}LinearRing" [("srsName", (t "urn:ogc:def:crs:EPSG::4326"))] (Some (ws 14)) [
                Elem "{http://www.opengis.net/gml}posList" [] (Some (t "-122.5 37.5 -121.5 37.5 -121.5 38.5 -122.5 38.5")) []]]]];
        Elem "{http://openquake.org/xmlns/nrml/0.3}ruptureRateModel" [] (Some (ws 8)) [
          Elem "{http://openquake.org/xmlns/nrml/0.3}truncatedGutenbergRichter" [("type", (t "ML"))] (Some (ws 10)) [
            Elem "{http://openquake.org/xmlns/nrml/0.3}aValueCumulative" [] (Some (t "5.0")) [];
            Elem "{http://openquake.org/xmlns/nrml/0.3}bValue" [] (Some (t "0.8")) [];
            Elem "{http://openquake.org/xmlns/nrml/0.3}minMagnitude" [] (Some (t "5.0")) [];
            Elem "{http://openquake.org/xmlns/nrml/0.3}maxMagnitude" [] (Some (t "7.0")) []];
          Elem "{http://openquake.org/xmlns/nrml/0.3}strike" [] (Some (t "0.0")) [];
          Elem "{http://openquake.org/xmlns/nrml/0.3}dip" [] (Some (t "90.0")) [];
          Elem "{http://openquake.org/xmlns/nrml/0.3}rake" [] (Some (t "0.0")) []];
        Elem "{http://openquake.org/xmlns/nrml/0.3}ruptureDepthDistribution" [] (Some (ws 8)) [
          Elem "{http://openquake.org/xmlns/nrml/0.3}magnitude" [("type", (t "ML"))] (Some (t "6.0 6.5 7.0")) [];
          Elem "{http://openquake.org/xmlns/nrml/0.3}depth" [] (Some (t "5000.0 3000.0 0.0")) []];
        Elem "{http://openquake.org/xmlns/nrml/0.3}hypocentralDepth" [] (Some (t "5000.0")) []]]].

(** tests/data/serialized_models.xml as the parser delivers it. *)
Definition serialized_models : xml :=
  Elem "{http://openquake.org/xmlns/nrml/0.3}nrml" [("{http://www.opengis.net/gml}id", (t "n1"))] (Some (ws 2)) [
    Elem "{http://openquake.org/xmlns/nrml/0.3}sourceModel" [("{http://www.opengis.net/gml}id", (t "sm1"))] (Some (ws 4)) [
      Elem "{http://openquake.org/xmlns/nrml/0.3}config" [] None [];
      Elem "{http://openquake.org/xmlns/nrml/0.3}areaSource" [("{http://www.opengis.net/gml}id", (t "src03"))] (Some (ws 6)) [
        Elem "{http://www.opengis.net/gml}name" [] (Some (t "Quito")) [];
        Elem "{http://openquake.org/xmlns/nrml/0.3}tectonicRegion" [] (Some (t "Active Shallow Crust")) [];
        Elem "{http://openquake.org/xmlns/nrml/0.3}areaBoundary" [] (Some (ws 8)) [
          Elem "{http://www.opengis.net/gml}Polygon" [] (Some (ws 10)) [
            Elem "{http://www.opengis.net/gml}exterior" [] (Some (ws 12)) [
              Elem "{http://www.opengis.net/gml}LinearRing" [("srsName", (t "urn:ogc:def:crs:EPSG::4326"))] (Some (ws 14)) [
                Elem "{http://www.opengis.net/gml}posList" [] (Some (t "-122.5 37.5 -121.5 37.5 -121.5 38.5 -122.5 38.5")) []]]]];
        Elem "{http://openquake.org/xmlns/nrml/0.3}ruptureRateModel" [] (Some (ws 8)) [
          Elem "{http://openquake.org/xmlns/nrml/0.3}truncatedGutenbergRichter" [("type", (t "ML"))] (Some (ws 10)) [
            Elem "{http://openquake.org/xmlns/nrml/0.3}aValueCumulative" [] (Some (t "5.0")) [];
            Elem "{http://openquake.org/xmlns/nrml/0.3}bValue" [] (Some (t "0.8")) [];
            Elem "{http://openquake.org/xmlns/nrml/0.3}minMagnitude" [] (Some (t "5.0")) [];
            Elem "{http://openquake.org/xmlns/nrml/0.3}maxMagnitude" [] (Some (t "7.0")) []];
          Elem "{http://openquake.org/xmlns/nrml/0.3}strike" [] (Some (t "0.0")) [];
          Elem "{http://openquake.org/xmlns/nrml/0.3}dip" [] (Some (t "90.0")) [];
          Elem "{http://openquake.org/xmlns/nrml/0.3}rake" [] (Some (t "0.0")) []];
        Elem "{http://openquake.org/xmlns/nrml/0.3}ruptureDepthDistribution" [] (Some (ws 8)) [
          Elem "{http://openquake.org/xmlns/nrml/0.3}magnitude" [("type", (t "ML"))] (Some (t "6.0 6.5 7.0")) [];
          Elem "{http://openquake.org/xmlns/nrml/0.3}depth" [] (Some (t "5000.0 3000.0 0.0")) []];
        Elem "{http://openquake.org/xmlns/nrml/0.3}hypocentralDepth" [] (Some (t "5000.0")) []]]].

(** tests/data/area_sources.xml as the parser delivers it. *)
Definition area_sources : xml :=
  Elem "{http://openquake.org/xmlns/nrml/0.3}nrml" [("{http://www.opengis.net/gml}id", (t "n1"))] (Some (ws 2)) [
    Elem "{http://openquake.org/xmlns/nrml/0.3}sourceModel" [("{http://www.opengis.net/gml}id", (t "sm1"))] (Some (ws 4)) [
      Elem "{http://openquake.org/xmlns/nrml/0.3}config" [] None [];
      Elem "{http://openquake.org/xmlns/nrml/0.3}areaSource" [("{http://www.opengis.net/gml}id", (t "src03"))] (Some (ws 6)) [
        Elem "{http://www.opengis.net/gml}name" [] (Some (t "Quito")) [];
        Elem "{http://openquake.org/xmlns/nrml/0.3}tectonicRegion" [] (Some (t "Active Shallow Crust")) [];
        Elem "{http://openquake.org/xmlns/nrml/0.3}areaBoundary" [] (Some (ws 8)) [
          Elem "{http://www.opengis.net/gml}Polygon" [] (Some (ws 10)) [
            Elem "{http://www.opengis.net/gml}exterior" [] (Some (ws 12)) [
              Elem "{http://www.opengis.net/gml}LinearRing" [("srsName", (t "urn:ogc:def:crs:EPSG::4326"))] (Some (ws 14)) [
                Elem "{http://www.opengis.net/gml}posList" [] (Some (t "-122.5 37.5 -121.5 37.5 -121.5 38.5 -122.5 38.5")) []]]]];
        Elem "{http://openquake.org/xmlns/nrml/0.3}ruptureRateModel" [] (Some (ws 8)) [
          Elem "{http://openquake.org/xmlns/nrml/0.3}truncatedGutenbergRichter" [("type", (t "ML"))] (Some (ws 10)) [
            Elem "{http://openquake.org/xmlns/nrml/0.3}aValueCumulative" [] (Some (t "5.0")) [];
            Elem "{http://openquake.org/xmlns/nrml/0.3}bValue" [] (Some (t "0.8")) [];
            Elem "{http://openquake.org/xmlns/nrml/0.3}minMagnitude" [] (Some (t "5.0")) [];
            Elem "{http://openquake.org/xmlns/nrml/0.3}maxMagnitude" [] (Some (t "7.0")) []];
          Elem "{http://openquake.org/xmlns/nrml/0.3}strike" [] (Some (t "0.0")) [];
          Elem "{http://openquake.org/xmlns/nrml/0.3}dip" [] (Some (t "90.0")) [];
          Elem "{http://openquake.org/xmlns/nrml/0.3}rake" [] (Some (t "0.0")) []];
        Elem "{http://openquake.org/xmlns/nrml/0.3}ruptureDepthDistribution" [] (Some (ws 8)) [
          Elem "{http://openquake.org/xmlns/nrml/0.3}magnitude" [("type", (t "ML"))] (Some (t "6.0 6.5 7.0")) [];
          Elem "{http://openquake.org/xmlns/nrml/0.3}depth" [] (Some (t "5000.0 3000.0 0.0")) []];
        Elem "{http://openquake.org/xmlns/nrml/0.3}hypocentralDepth" [] (Some (t "5000.0")) []];
      Elem "{http://openquake.org/xmlns/nrml/0.3}areaSource" [("{http://www.opengis.net/gml}id", (t "src03"))] (Some (ws 6)) [
        Elem "{http://www.opengis.net/gml}name" [] (Some (t "Quito")) [];
        Elem "{http://openquake.org/xmlns/nrml/0.3}tectonicRegion" [] (Some (t "Active Shallow Crust")) [];
        Elem "{http://openquake.org/xmlns/nrml/0.3}areaBoundary" [] (Some (ws 8)) [
          Elem "{http://www.opengis.net/gml}Polygon" [] (Some (ws 10)) [
            Elem "{http://www.opengis.net/gml}exterior" [] (Some (ws 12)) [
              Elem "{http://www.opengis.net/gml}LinearRing" [("srsName", (t "urn:ogc:def:crs:EPSG::4326"))] (Some (ws 14)) [
                Elem "{http://www.opengis.net/gml}posList" [] (Some (t "-122.5 37.5 -121.5 37.5 -121.5 38.5 -122.5 38.5")) []]]]];
        Elem "{http://openquake.org/xmlns/nrml/0.3}ruptureRateModel" [] (Some (ws 8)) [
          Elem "{http://openquake.org/xmlns/nrml/0.3}truncatedGutenbergRichter" [("type", (t "ML"))] (Some (ws 10)) [
            Elem "{http://openquake.org/xmlns/nrml/0.3}aValueCumulative" [] (Some (t "5.0")) [];
            Elem "{http://openquake.org/xmlns/nrml/0.3}bValue" [] (Some (t "0.8")) [];
            Elem "{http://openquake.org/xmlns/nrml/0.3}minMagnitude" [] (Some (t "5.0")) [];
            Elem "{http://openquake.org/xmlns/nrml/0.3}maxMagnitude" [] (Some (t "7.0")) []];
          Elem "{http://openquake.org/xmlns/nrml/0.3}strike" [] (Some (t "0.0")) [];
          Elem "{http://openquake.org/xmlns/nrml/0.3}dip" [] (Some (t "90.0")) [];
          Elem "{http://openquake.org/xmlns/nrml/0.3}rake" [] (Some (t "0.0")) []];
        Elem "{http://openquake.org/xmlns/nrml/0.3}ruptureDepthDistribution" [] (Some (ws 8)) [
          Elem "{http://openquake.org/xmlns/nrml/0.3}magnitude" [("type", (t "ML"))] (Some (t "6.0 6.5 7.0")) [];
          Elem "{http://openquake.org/xmlns/nrml/0.3}depth" [] (Some (t "5000.0 3000.0 0.0")) []];
        Elem "{http://openquake.org/xmlns/nrml/0.3}hypocentralDepth" [] (Some (t "5000.0")) []]]].


Definition W := demo_world [(t "area_source_model.xml", area_source_model);
                            (t "area_sources.xml", area_sources)] [t "tests/data"].
Definition the_files : files := demo_files
  [(t "tests/data/ISC_small_data.csv", ISC_small_data);
   (t "tests/data/area_source_model.xml", t "area_source_model.xml");
   (t "tests/data/ctable.csv", expected_completeness_table)].
Definition context_jobs : context FL := init_context jobs_config the_files.

(** test_read_eq_catalog: ten entries and the expected first one. *)
Definition first_eq_entry : list (string * pyval FL) :=
  [("eventID", VInt 1); ("Agency", VStr (t "AAA")); ("month", VInt 1);
   ("depthError", @VFlt FL (fl "0.5")); ("second", @VFlt FL (fl "13.0"));
   ("SemiMajor90", @VFlt FL (fl "2.43")); ("year", VInt 2000);
   ("ErrorStrike", @VFlt FL (fl "298.0")); ("timeError", @VFlt FL (fl "0.02"));
   ("sigmamb", VStr []); ("latitude", @VFlt FL (fl "44.368"));
   ("sigmaMw", @VFlt FL (fl "0.355")); ("sigmaMs", VStr []); ("Mw", @VFlt FL (fl "1.71"));
   ("Ms", VStr []); ("Identifier", VInt 20000102034913); ("day", VInt 2); ("minute", VInt 49);
   ("hour", VInt 3); ("mb", VStr []); ("SemiMinor90", @VFlt FL (fl "1.01"));
   ("longitude", @VFlt FL (fl "7.282")); ("depth", @VFlt FL (fl "9.3"));
   ("ML", @VFlt FL (fl "1.7")); ("sigmaML", @VFlt FL (fl "0.1"))].
Definition val_eqb (a b : pyval FL) : bool :=
  match a, b with
  | VInt x, VInt y => Z.eqb x y
  | VFlt x, VFlt y => SFeqb x y
  | VStr x, VStr y => text_eqb x y
  | _, _ => false
  end.
Definition entry_is (l : list (string * pyval FL)) (e : entry FL) : bool :=
  Nat.eqb (length l) (length e)
  && forallb (fun kv => gives (entry_item (fst kv) e) (val_eqb (snd kv))) l.
Definition test_read_eq_catalog : bool := Eval vm_compute in
  match read_eq_catalog_job W context_jobs with
  | (c, None) => some_is (cx_eq_catalog c) (fun es =>
      Nat.eqb (length es) 10 && some_is (hd_error es) (entry_is first_eq_entry))
  | _ => false
  end.
Example test_read_eq_catalog_passes : test_read_eq_catalog = true.
Proof. reflexivity. Qed.

(** test_store_catalog_in_csv_after_preprocessing: the stored file, byte for byte. *)
Definition set_sel : context FL -> context FL :=
  set_selected (Some [0; 0; 0; 1; 1; 0; 1; 0; 1; 0]%Z).
Definition test_store_catalog_in_csv_after_preprocessing : bool := Eval vm_compute in
  match read_eq_catalog_job W (set_matrix (Some []) (set_sel context_jobs)) with
  | (c, None) =>
      match store_preprocessed_catalog W c with
      | (c', None) => some_is (cx_files c' (t "tests/data/preprocessed_catalogue.csv"))
                        (text_eqb expected_preprocessed_catalogue)
      | _ => false
      end
  | _ => false
  end.
Example test_store_catalog_in_csv_after_preprocessing_passes : test_store_catalog_in_csv_after_preprocessing = true.
Proof. reflexivity. Qed.

(** test_eqcatalog.py, test_write_csv_file: the first two entries. *)
Definition test_write_entries : bool := Eval vm_compute in
  match read_eq_catalog_job W context_jobs with
  | (c, None) => some_is (cx_eq_catalog c) (fun es =>
                   gives (@write_rows FL py_repr (firstn 2 es)) (text_eqb expected_entries))
  | _ => false
  end.
Example test_write_entries_passes : test_write_entries = true.
Proof. reflexivity. Qed.

(** test_store_completeness_table and test_retrieve_completeness_table. *)
Definition the_table : list (spec_float * spec_float) :=
  map (fun '(a, b) => (fl a, fl b))
    [("1991.", "4."); ("1991.", "4.2"); ("1961.", "4.4"); ("1961.", "4.6"); ("1961.", "4.8");
     ("1961.", "5."); ("1961.", "5.2"); ("1912.", "5.4"); ("1912.", "5.6"); ("1911.", "5.8");
     ("1911.", "6."); ("1911.", "6.2"); ("1911.", "6.4"); ("1911.", "6.6"); ("1911.", "6.8");
     ("1911.", "7."); ("1911.", "7.2")].
Definition test_store_completeness_table : bool := Eval vm_compute in
  match store_completeness_table W (@set_table FL (Some the_table) context_jobs) with
  | (c, None) => some_is (cx_files c (t "tests/data/ctable.csv"))
                   (text_eqb expected_completeness_table)
  | _ => false
  end.
Example test_store_completeness_table_passes : test_store_completeness_table = true.
Proof. reflexivity. Qed.
Definition test_retrieve_completeness_table : bool := Eval vm_compute in
  match retrieve_completeness_table W context_jobs with
  | (c, None) => some_is (cx_table c)
      (all2 (fun p q => SFeqb (fst p) (fst q) && SFeqb (snd p) (snd q)) the_table)
  | _ => false
  end.
Example test_retrieve_completeness_table_passes : test_retrieve_completeness_table = true.
Proof. reflexivity. Qed.

(** test_read_smodel: the source in area_source_model.xml. *)
Definition quito : area_source FL :=
  @mkSource FL (Some (t "n1")) (Some (t "sm1")) (Some (t "src03")) (Some (t "Quito"))
    (Some (t "Active Shallow Crust"))
    (@mkBoundary FL (Some (t "urn:ogc:def:crs:EPSG::4326"))
       [(fl "-122.5", fl "37.5"); (fl "-121.5", fl "37.5"); (fl "-121.5", fl "38.5");
        (fl "-122.5", fl "38.5")])
    (@mkRate FL (@mkTgr FL (fl "5.0") (fl "0.8") (fl "5.0") (fl "7.0") (Some (t "ML")))
       (fl "0.0") (fl "90.0") (fl "0.0"))
    (@mkDepth FL (Some (t "ML")) [fl "6.0"; fl "6.5"; fl "7.0"]
       [fl "5000.0"; fl "3000.0"; fl "0.0"]) (fl "5000.0") None None None.
Definition xml_texts_eqb (a b : option text) : bool :=
  match a, b with Some x, Some y => text_eqb x y | None, None => true | _, _ => false end.
Definition num_eqb (a b : spec_float) : bool := SFeqb a b.
Definition tgr_eqb (a b : tgr FL) : bool :=
  num_eqb (tg_a a) (tg_a b) && num_eqb (tg_b a) (tg_b b) && num_eqb (tg_min a) (tg_min b)
  && num_eqb (tg_max a) (tg_max b) && xml_texts_eqb (tg_type a) (tg_type b).
Definition source_eqb (a b : area_source FL) : bool :=
  xml_texts_eqb (as_nrml_id a) (as_nrml_id b) && xml_texts_eqb (as_sm_id a) (as_sm_id b)
  && xml_texts_eqb (as_id a) (as_id b) && xml_texts_eqb (as_name a) (as_name b)
  && xml_texts_eqb (as_tect a) (as_tect b)
  && xml_texts_eqb (ab_srs (as_boundary a)) (ab_srs (as_boundary b))
  && all2 (fun p q => num_eqb (fst p) (fst q) && num_eqb (snd p) (snd q))
       (ab_pos (as_boundary a)) (ab_pos (as_boundary b))
  && tgr_eqb (rm_tgr (as_rate a)) (rm_tgr (as_rate b))
  && num_eqb (rm_strike (as_rate a)) (rm_strike (as_rate b))
  && num_eqb (rm_dip (as_rate a)) (rm_dip (as_rate b))
  && num_eqb (rm_rake (as_rate a)) (rm_rake (as_rate b))
  && num_eqb (as_hypo a) (as_hypo b).
Definition test_read_smodel : bool := Eval vm_compute in
  match read_source_model W context_jobs with
  | (c, None) => some_is (cx_sms c) (all2 source_eqb [quito])
  | _ => false
  end.
Example test_read_smodel_passes : test_read_smodel = true.
Proof. reflexivity. Qed.

(** Writing what was read gives the document of serialized_models.xml, white space between
    elements apart. *)
Definition blank (s : text) : bool := match strip s with [] => true | _ => false end.
Fixpoint squeeze (x : xml) : xml :=
  match x with
  | Elem tag attrs txt kids =>
      Elem tag attrs (match txt with Some s => if blank s then None else Some s | None => None end)
        (map squeeze kids)
  end.
Fixpoint xml_same (a b : xml) : bool :=
  match a, b with
  | Elem t1 a1 x1 k1, Elem t2 a2 x2 k2 =>
      String.eqb t1 t2
      && all2 (fun p q => String.eqb (fst p) (fst q) && text_eqb (snd p) (snd q)) a1 a2
      && xml_texts_eqb x1 x2
      && (fix go (l l' : list xml) : bool :=
            match l, l' with
            | [], [] => true
            | x :: l, y :: l' => xml_same x y && go l l'
            | _, _ => false
            end) k1 k2
  end.
Definition rewritten (d : xml) : res xml :=
  match @read_doc FL py_float d with
  | (ss, None) => @write_doc FL py_str (fun _ => true) ss
  | (_, Some e) => Err e
  end.
Definition test_serialize : bool := Eval vm_compute in
  gives (rewritten area_source_model) (xml_same (squeeze serialized_models)).
Example test_serialize_passes : test_serialize = true.
Proof. reflexivity. Qed.
Definition test_number_of_sources : bool := Eval vm_compute in
  Nat.eqb (length (fst (@read_doc FL py_float area_sources))) 2.
Example test_number_of_sources_passes : test_number_of_sources = true.
Proof. reflexivity. Qed.

(** tests/maximum_magnitude/test_maximum_magnitude.py: test_exp_spaced_points and
    test_gauss_cdf_hastings (mean 0, standard deviation 1, -3 to 3 in steps of 0.05). *)
Definition test_exp_spaced_points : bool := Eval vm_compute in
  all2 (fun s x => close x (fl s))
    ["5.8000000"; "5.8760909"; "5.9467991"; "6.0128362"; "6.0747812"; "6.1331118"; "6.1882266"; "6.2404619"; "6.2901035"; "6.3373970"; "6.3825544"; "6.4257604"; "6.4671767"; "6.5069458"; "6.5451935"; "6.5820321"; "6.6175617"; "6.6518721"; "6.6850443"; "6.7171513"; "6.7482594"; "6.7784290"; "6.8077149"; "6.8361675"; "6.8638330"; "6.8907536"; "6.9169684"; "6.9425135"; "6.9674223"; "6.9917258"; "7.0154525"; "7.0386293"; "7.0612811"; "7.0834311"; "7.1051011"; "7.1263115"; "7.1470813"; "7.1674285"; "7.1873699"; "7.2069215"; "7.2260981"; "7.2449138"; "7.2633821"; "7.2815154"; "7.2993258"; "7.3168245"; "7.3340223"; "7.3509293"; "7.3675552"; "7.3839092"; "7.4000000"]
    (@exp_spaced_points FL (fl "5.8") (fl "7.4") 51).
Example test_exp_spaced_points_passes : test_exp_spaced_points = true.
Proof. reflexivity. Qed.
Definition test_gauss_cdf_hastings : bool := Eval vm_compute in
  all2 (fun s x => close x (fl s))
    ["0.0236282"; "0.0274482"; "0.0317810"; "0.0366685"; "0.0421491"; "0.0482569"; "0.0550191"; "0.0624545"; "0.0705716"; "0.0793668"; "0.0888229"; "0.0989085"; "0.1095770"; "0.1207668"; "0.1324022"; "0.1443950"; "0.1566460"; "0.1690483"; "0.1814899"; "0.1938574"; "0.2060394"; "0.2179296"; "0.2294305"; "0.2404557"; "0.2509319"; "0.2608011"; "0.2700208"; "0.2785650"; "0.2864232"; "0.2936002"; "0.3001145"; "0.3059972"; "0.3112897"; "0.3160430"; "0.3203148"; "0.3241688"; "0.3276724"; "0.3308962"; "0.3339122"; "0.3367931"; "0.3396121"; "0.3424415"; "0.3453536"; "0.3484196"; "0.3517105"; "0.3552969"; "0.3592495"; "0.3636398"; "0.3685409"; "0.3740277"; "0.3801784"; "0.3870751"; "0.3948051"; "0.4034624"; "0.4131485"; "0.4239746"; "0.4360631"; "0.4495494"; "0.4645847"; "0.4813381"; "0.5000000"; "0.5186619"; "0.5354153"; "0.5504506"; "0.5639369"; "0.5760254"; "0.5868515"; "0.5965376"; "0.6051949"; "0.6129249"; "0.6198216"; "0.6259723"; "0.6314591"; "0.6363602"; "0.6407505"; "0.6447031"; "0.6482895"; "0.6515804"; "0.6546464"; "0.6575585"; "0.6603879"; "0.6632069"; "0.6660878"; "0.6691038"; "0.6723276"; "0.6758312"; "0.6796852"; "0.6839570"; "0.6887103"; "0.6940028"; "0.6998855"; "0.7063998"; "0.7135768"; "0.7214350"; "0.7299792"; "0.7391989"; "0.7490681"; "0.7595443"; "0.7705695"; "0.7820704"; "0.7939606"; "0.8061426"; "0.8185101"; "0.8309517"; "0.8433540"; "0.8556050"; "0.8675978"; "0.8792332"; "0.8904230"; "0.9010915"; "0.9111771"; "0.9206332"; "0.9294284"; "0.9375455"; "0.9449809"; "0.9517431"; "0.9578509"; "0.9633315"; "0.9682190"; "0.9725518"; "0.9763718"]
    (@gauss_cdf_hastings FL (@arange FL (fl "-3.") (fl "3.05") (fl "0.05"))).
Example test_gauss_cdf_hastings_passes : test_gauss_cdf_hastings = true.
Proof. reflexivity. Qed.

(** test_h_smooth: the 100 largest magnitudes of completeness_test_cat.csv, in tenths. *)
Definition mag_select : list spec_float :=
  map (fun z => @lit FL z 10) [74; 74; 72; 70; 70; 70; 69; 68; 66; 66; 66; 66; 65; 65; 65; 65; 64; 64; 64; 64; 64; 64; 63; 63; 63; 63; 63; 63; 63; 63; 63; 63; 63; 63; 62; 62; 62; 62; 61; 61; 61; 61; 61; 61; 61; 61; 61; 61; 61; 61; 60; 60; 60; 60; 60; 60; 60; 60; 60; 60; 60; 60; 60; 60; 60; 59; 59; 59; 59; 59; 59; 59; 59; 59; 59; 59; 59; 59; 59; 59; 59; 59; 59; 58; 58; 58; 58; 58; 58; 58; 58; 58; 58; 58; 58; 58; 58; 58; 58; 58]%Z.
Definition test_h_smooth : bool := Eval vm_compute in
  near (places 5) (@h_smooth FL mag_select) (fl "0.11").
Example test_h_smooth_passes : test_h_smooth = true.
Proof. reflexivity. Qed.
