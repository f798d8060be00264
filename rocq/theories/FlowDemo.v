(** A small project to run in the demonstration world: fourteen earthquakes, two zones with events
    and one without, and configurations that use them.  It provides the concrete cases and the
    counterexamples of the workflow properties. *)
From Coq Require Import ZArith Bool Ascii String List.
From Coq Require Import Floats.SpecFloat.
From Verif Require Import Base Ops FloatOps Libm CatUtil PyStr Csv PyFloat EqCatalog EqCatWitness
  SourceModel Nrml World CatalogFilter Jobs Workflow Main Demo.
Import ListNotations.
Local Open Scope string_scope.

(** One catalogue row. *)
Definition quake (id y m d lon lat mw : string) : list text :=
  map t [id; "AAA"; "7"; y; m; d; "3"; "4"; "5"; ""; lon; lat; ""; ""; ""; "30"; ""; mw; "0.1"; ""; ""; ""; ""; ""; ""].

Definition quakes : list (list text) := [
  quake "1" "1965" "3" "11" "20.6" "38.4" "6.0";
  quake "2" "1970" "1" "20" "30.2" "38.6" "5.0";
  quake "3" "1972" "6" "1" "20.2" "38.2" "5.5";
  quake "4" "1978" "9" "15" "20.7" "38.8" "5.0";
  quake "5" "1980" "2" "2" "30.8" "38.2" "5.5";
  quake "6" "1985" "11" "30" "20.4" "38.7" "5.8";
  quake "7" "1990" "5" "3" "20.5" "38.5" "7.0";
  quake "8" "1990" "5" "4" "20.51" "38.52" "5.0";
  quake "9" "1990" "5" "9" "20.48" "38.49" "5.2";
  quake "10" "1990" "7" "7" "30.5" "38.5" "6.0";
  quake "11" "1995" "12" "24" "20.9" "38.1" "6.5";
  quake "12" "2000" "10" "10" "30.3" "38.9" "5.2";
  quake "13" "2003" "4" "17" "20.3" "38.9" "5.1";
  quake "14" "2010" "8" "8" "20.1" "38.6" "5.3"].

(** A square zone one degree wide. *)
Definition square (id lon0 lon1 : string) : area_source FL :=
  @mkSource FL (Some (t "n1")) (Some (t "sm1")) (Some (t id)) (Some (t "zone"))
    (Some (t "Active Shallow Crust"))
    (@mkBoundary FL (Some (t "urn:ogc:def:crs:EPSG::4326"))
       [(fl lon0, fl "38.0"); (fl lon1, fl "38.0"); (fl lon1, fl "39.0"); (fl lon0, fl "39.0")])
    (@mkRate FL (@mkTgr FL (fl "5.0") (fl "0.8") (fl "5.0") (fl "7.0") (Some (t "ML")))
       (fl "0.0") (fl "90.0") (fl "0.0"))
    (@mkDepth FL (Some (t "ML")) [fl "6.0"; fl "6.5"; fl "7.0"]
       [fl "5000.0"; fl "3000.0"; fl "0.0"]) (fl "5000.0") None None None.
Definition zone_a := square "a" "20.0" "21.0".
Definition zone_b := square "b" "30.0" "31.0".
Definition zone_c := square "c" "50.0" "51.0".

Definition document (ss : list (area_source FL)) : xml :=
  match @write_doc FL py_str (fun _ => true) ss with Ok d => d | Err _ => Elem "" [] None [] end.

Definition DW : world FL :=
  demo_world [(t "ab", document [zone_a; zone_b]); (t "ba", document [zone_b; zone_a]);
              (t "acb", document [zone_a; zone_c; zone_b])] [t "out"].

Definition dfiles : files :=
  demo_files [(t "in/cat.csv", ctext quakes); (t "in/ab.xml", t "ab"); (t "in/ba.xml", t "ba"); (t "in/acb.xml", t "acb")].

Definition dconfig (sm : cval text) (pre pro : list string) (alg : string) (store table : cval text) (result : text) : config FL :=
  with_gk (@mkGkConf FL "GardnerKnopoff" (fl "0.5"))
  (with_af (@mkAfConf FL "Uhrhammer" (fl "60.0"))
  (with_stepp (@mkSteppConf FL (fl "0.5") (fl "5.0") (fl "0.2") false)
  (with_rec (@mkRecConf FL (fl "0.5") alg (fl "4.0") (fl "10.0"))
  (with_mm (@mkMmConf FL "Cumulative_Moment" (fl "0.001") 10 5 10 3)
  (no_conf (Given (t "in/cat.csv")) sm (match pre with [] => Null | _ => Given pre end) (Given pro) store table (Given result) (Given tt)))))).

Definition basic : config FL :=
  dconfig (Given (t "in/ab.xml")) ["GardnerKnopoff"] ["Recurrence"; "MaximumMagnitude"] "MLE"
    (Given (t "out/cat.csv")) (Given (t "out/tab.csv")) (t "out/res.xml").

(** The catalogue and table a run stored, taken up again by a run without preprocessing. *)
Definition dconfig_again (sm : cval text) (pro : list string) (alg : string) (table : cval text) (result : text) : config FL :=
  with_rec (@mkRecConf FL (fl "0.5") alg (fl "4.0") (fl "10.0"))
  (with_mm (@mkMmConf FL "Cumulative_Moment" (fl "0.001") 10 5 10 3)
  (no_conf (Given (t "out/cat.csv")) sm Null (Given pro) Null table (Given result) (Given tt))).

(** One run for everything, or two. *)
Definition one_run (alg : string) (pre : list string) : config FL :=
  dconfig Null pre ["Recurrence"] alg (Given (t "out/cat.csv")) (Given (t "out/tab.csv")) (t "out/res.xml").
Definition second_run (alg : string) : config FL :=
  dconfig_again Null ["Recurrence"] alg (Given (t "out/tab.csv")) (t "out/res.xml").

(** The completeness analysis with locked bins. *)
Definition locked (cf : config FL) : config FL :=
  with_stepp (@mkSteppConf FL (fl "0.5") (fl "5.0") (fl "0.2") true) cf.

(** [basic] again from the stored files. *)
Definition basic_again : config FL :=
  dconfig_again (Given (t "in/ab.xml")) ["Recurrence"; "MaximumMagnitude"] "MLE" (Given (t "out/tab.csv")) (t "out/res.xml").

(** The source model file with the zones in the other order. *)
Definition swapped : files := write_file (t "in/ab.xml") (t "ba") dfiles.

(** A zone without events between two with events. *)
Definition with_empty_zone : config FL :=
  dconfig (Given (t "in/acb.xml")) ["GardnerKnopoff"] ["Recurrence"; "MaximumMagnitude"] "MLE"
    (Given (t "out/cat.csv")) (Given (t "out/tab.csv")) (t "out/res.xml").

(** Declustering twice. *)
Definition twice : config FL :=
  dconfig (Given (t "in/ab.xml")) ["GardnerKnopoff"; "GardnerKnopoff"] ["Recurrence"] "MLE"
    (Given (t "out/cat.csv")) (Given (t "out/tab.csv")) (t "out/res.xml").
