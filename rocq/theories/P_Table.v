(** Property C153: the file of a stored completeness table (mtoolkit/jobs.py:268-281). *)
From Coq Require Import ZArith Ascii String List Reals.
From Verif Require Import Base Ops CatUtil PyStr EqCatalog SourceModel Nrml World CatalogFilter Jobs Workflow Main FlowCases TableSpec TableProofs.
Import ListNotations.

(** C153.  A stored table has one line per row: the year and the magnitude with five decimals,
    rounded to the nearest, right-aligned in ten columns and separated by a comma. *)
Theorem C153_stored_lines : forall (W : world ROps) p tab (c c1 : context ROps),
  cf_completeness_table_file (cx_config c) = Given p -> cx_table c = Some tab ->
  run_job W J_store_completeness_table c = (c1, None) ->
  exists content, cx_files c1 p = Some content /\ table_file tab content.
Proof. exact C153_proof. Qed.
Print Assumptions C153_stored_lines.

(** A table of two rows, and two fields. *)
Example C153_case : (let tab : list (@T ROps * @T ROps) := [(1990%R, (45 / 10)%R); (1965%R, (50001 / 10000)%R)] in
  exists c1, cf_completeness_table_file (cx_config (rcontext tab)) = Given (t "tab.csv") /\ cx_table (rcontext tab) = Some tab /\
    run_job RW J_store_completeness_table (rcontext tab) = (c1, None)) /\
  field_of 1990 (t "1990.00000") /\ field_of (9 / 2) (t "   4.50000") /\ ~ field_of (9 / 2) (t "4.50000").
Proof.
  split; [destruct C69_case_proof as (c1 & A & B & C & _); exists c1; auto|exact field_case].
Qed.
