# Formal model of oq-hazard-modeller (mtoolkit and nrml)

Source: `/repo` (Python 2.7, numpy, scipy, lxml, shapely, yaml, nhlib), read as text only; nothing of
it was executed.  Prover: Rocq/Coq 8.16.1, `rocq/theories`, logical name `Verif`.  Libraries: the
standard library; Flocq (`PyNearest`, `PyRound`, `FReal`, `FloatSpec`, `PyTexts`, `FlowOrder`,
`FlowFive`, `FStepp`) and Coquelicot (`NormalCdf`) in proof files only.  No axiom of those libraries is used.

## What is modelled

Each Python function has a Gallina function of the same name whose comment cites file and lines and
states the simplifications.

| Python file | Model file | Covered | Left out |
|---|---|---|---|
| `main.py` | `Main.v` | whole script | |
| `mtoolkit/console.py` | `Main.v`, `Argparse.v` | `cmd_line`, log level, whether the log file is opened; the grammar of Python 2.7's argparse for this parser (trusted: written down from knowledge of its source, which is not in the sandbox; compared once with Python 3.11's argparse on 4362 command lines, they differ only where later versions changed it: text after = in a group of short options, and `--` as an attached value) | the texts printed by argparse; command line arguments from a file |
| `mtoolkit/workflow.py` | `Workflow.v`, `Jobs.v`, `Pipeline.v` | job table, both pipeline builders, `PipeLine` with its `==` and `!=`, `Workflow.start`, `Context` | logging; that a pipeline shares the list it is given |
| `mtoolkit/jobs.py` | `Jobs.v` | every job and every store/retrieve function, with the files they write | log texts |
| `mtoolkit/catalog_filter.py` | `CatalogFilter.v` | both filters | GEOS: polygon validity and containment are parameters |
| `mtoolkit/eqcatalog.py` | `EqCatalog.v`, `Csv.v`, `PyStr.v` | reader, all field checks, writer | |
| `mtoolkit/source_model.py` | `SourceModel.v`, `SourceEq.v` | data, `__eq__` and `__ne__` | `__str__` (log texts) |
| `mtoolkit/geo/simple_fault.py` | `SimpleFault.v` | all | |
| `mtoolkit/geo/tectonic_region.py` | `Tectonic.v`, `RegionEq.v` | all | aliasing of the module-level default dictionaries |
| `mtoolkit/scientific/catalogue_utilities.py` | `CatUtil.v` | all | |
| `mtoolkit/scientific/completeness.py` | `Completeness.v` | all | |
| `mtoolkit/scientific/declustering.py` | `Decluster.v` | all | |
| `mtoolkit/scientific/recurrence.py` | `Recurrence.v` | all | |
| `mtoolkit/scientific/maximum_magnitude.py` | `MaxMag.v` | all | the random generator: the draws are a parameter |
| `mtoolkit/scientific/fault_calculator.py` | `FaultCalc.v` | all | the WC1994 relation of nhlib is a parameter |
| `nrml/reader.py`, `writer.py`, `nrml_xml.py` | `Nrml.v` | reader and writer on XML trees | XML text (a parameter), comments and processing instructions; the schema is transcribed in `NrmlSchema.v`, validation itself is not modelled: validity is a hypothesis |

`Base.v` (results, exceptions, lists), `Ops.v` (arithmetic) and `World.v` (surroundings) have no
Python counterpart.

## How it is modelled

* **Control.**  Mutation becomes a returned value; exceptions are values of `res`; a run returns the
  context reached together with the exception, so effects before a failure are visible.  Unbounded
  loops take fuel and answer `OutOfFuel`; theorems about results quantify over all fuel.
* **Numbers.**  All numeric code is written once over a record `Ops`.  It is used at
  * every `Ops`: theorems that need no arithmetic law, valid in particular for binary64 with NaN;
  * `ROps`, the real numbers: theorems that need laws.  They are about formulas and control flow,
    not about rounding.  Division by zero gives Coq's `/ 0`, where numpy gives inf or nan; the
    theorems exclude zero divisors or are insensitive to them;
  * `FOps lm`, binary64 built on the standard library's `SpecFloat` with the elementary functions
    `lm` as parameter: theorems and witnesses about rounding and NaN.
* **Text and numbers.**  `PyFloat.v` is an executable model of CPython 2.7's `float(s)`, `str(x)` and
  `repr(x)`; the round trips used by C11, C59, C61, C69 are proved for it.
* **Catalogue matrix**: rows of the seven columns year, month, day, longitude, latitude, Mw, sigmaMw.
* **Dictionaries**: association lists.  The visiting order of the reader's entry dictionary is a
  parameter; CPython 2.7's order is one instance (`cpython_order`).
* **csv**: the excel dialect's reader state machine and writer.  The field size limit of 131072
  characters is not modelled.
* **Files**: a map from paths to texts.  When a write fails part-way (an exception between `open`
  and the last row) the truncated file is not modelled; the model leaves the file unchanged.
* **`'%10.5f'`** of the completeness table: correctly rounded five decimals; `-0.00000`, `nan` and
  `inf` are not printed as such.

## Trusted base

1. **Coq's kernel**, including `vm_compute`, and `coqchk`, which re-checks every module.
2. **Axioms.**  `Print Assumptions` stands under every theorem in the `P_*.v` files.  It prints
   either "Closed under the global context" or axioms of the standard library among
   * `ClassicalDedekindReals.sig_not_dec` (N),
   * `ClassicalDedekindReals.sig_forall_dec` (D),
   * `FunctionalExtensionality.functional_extensionality_dep` (F),
   * `Classical_Prop.classic` (C),

   all of which come with `Reals`.  There is no axiom of our own, no `Admitted`, no disabled check.
3. **Parameters** (section variables or fields of `world`; every theorem quantifies over them): the
   argsort permutation, text/number conversions, the current year, dictionary order, the strings
   lxml accepts, XML printing and parsing with schema, polygon validity and containment, the random
   draws, fuel, `os.path.exists` for directories, whether a file can be opened for writing, the YAML
   parser, WC1994, the elementary functions of binary64.  A theorem that needs a law of one of them
   states it as a hypothesis, and the example beside it gives an instance.
4. **The model is faithful to the Python text.**  Checks of this at compile time: `Fidelity.v`,
   `FidelityFiles.v` and `FidelityQa.v` evaluate tests of the repository (declustering, the declustering QA workflows,
   fault geometry, fault calculator, catalogue reader and writer, completeness table files, NRML
   reader and writer, maximum magnitude, and on the 1801 events of the QA catalogue Stepp, both
   recurrence methods, cumulative moment and Kijko) in binary64 with the executable C library `Libm.v`
   and compare with the expected values; and
   `FlowCases.v` runs whole workflows.  `Libm.v`, `HeapSort.v` (numpy's
   heapsort), `Demo.v`, `FlowDemo.v` serve only examples,
   witnesses and these checks.

5. **numpy 1.6** (the README asks for >= 1.6.1): in `vsel[vsel] = vsel1` (declustering.py:210) the
   right side is a column of shape (k, 1) assigned through a mask that selects k entries; numpy 1.6
   writes the k values in order, which is what `mask_put` does.  Later versions may reject the shape.

## Files

* Model: `Base Ops CatUtil Decluster Completeness Recurrence MaxMag SimpleFault Tectonic RegionEq FaultCalc
  PyStr Csv EqCatalog SourceModel Nrml World CatalogFilter Jobs Workflow Main Argparse FloatOps PyFloat`.
* Specifications, written from the documentation of the methods: the files `*Spec.v`, `NrmlSchema`,
  and the first lines of `NormalCdf`.
* Property files: `P_*.v`, containing only theorems closed by one lemma, `Print Assumptions`, and an
  example that meets the hypotheses of each.
* Everything else: proofs.

## Tests against wrong programs

`seeded/LOG.jsonl` has one line per attempt: a copy of the model was edited the way a programmer might
get it wrong, everything was rebuilt, every lemma whose proof failed was admitted, and a property
theorem counts as failed when it then depends on an admitted lemma.  `failed` lists those theorems.
Where a theorem whose English claim became false survived, the line says what was tightened or added.

## Not modelled

Log texts and timestamps; the internals of lxml, GEOS, scipy and numpy beyond the behaviour written
out in the model; rounding error of the numeric algorithms except where a theorem is about `FOps`;
memory aliasing between Python objects.

`write_rows` (Csv.v, EqCatalog.v) yields either the whole file or an exception; the file a failing
writer leaves half written is not described.  By C136 no workflow meets that case.

## Theorems and their axioms

Every theorem listed in `MANIFEST.json`, with the file that states it and what `Print Assumptions`
prints: `-` is "Closed under the global context", `NDFC` stands for the four axioms named above.

| Property | Status | Theorem | File | Axioms |
|---|---|---|---|---|
| C01 | proved | `C01_header_gate` | P_Catalog | - |
| C02 | proved | `C02_accepted_valid` | P_Catalog | - |
| C03 | proved | `C03_acceptance` | P_Catalog | - |
| C04 | proved | `C04_kept_or_blanked` | P_Catalog | - |
| C05 | partial | `C05_ellipse_all_or_nothing_refuted` | P_Catalog | - |
|  |  | `C05_ellipse_all_or_nothing_partial` | P_Catalog | - |
|  |  | `C05_ellipse_outcome` | P_Catalog | - |
| C06 | proved | `C06_whole_read` | P_Catalog | - |
|  |  | `C06_first_bad_row` | P_Catalog | - |
| C07 | partial | `C07_located_errors_refuted` | P_Catalog | - |
|  |  | `C07_located_errors_partial` | P_Catalog | - |
| C08 | partial | `C08_dates_exist_refuted` | P_Catalog | - |
|  |  | `C08_dates_exist_partial` | P_Catalog | - |
| C09 | proved | `C09_ragged_rows` | P_Catalog | - |
|  |  | `C09_ragged_files` | P_Catalog | - |
| C10 | partial | `C10_finite_magnitude_refuted` | P_Catalog | - |
|  |  | `C10_finite_magnitude_partial` | P_Catalog | - |
| C11 | proved | `C11_csv_round_trip` | P_Catalog | - |
|  |  | `C11_csv_round_trip_cpython` | P_Catalog | NDFC |
| C12 | proved | `C12_selection_vector_meaning` | P_Selection | - |
| C13 | proved | `C13_removed_events_are_incomplete` | P_Selection | NDFC |
| C14 | partial | `C14_kept_events_are_complete_refuted` | P_Selection | NDFC |
|  |  | `C14_kept_events_are_complete_partial` | P_Selection | NDFC |
| C15 | proved | `C15_gk_succeeds` | P_Decluster | - |
|  |  | `C15_gk_shape` | P_Decluster | - |
| C16 | proved | `C16_gk_clusters_in_window` | P_Decluster | - |
|  |  | `C16_gk_one_kept_per_cluster` | P_Decluster | - |
| C17 | proved | `C17_gk_never_empties` | P_Decluster | - |
| C18 | proved | `C18_gk_isolated_events_kept` | P_Decluster | - |
|  |  | `C18_gk_unclustered_events_are_isolated` | P_Decluster | - |
| C19 | partial | `C19_largest_kept_refuted` | P_Decluster | NDFC |
|  |  | `C19_largest_kept_partial` | P_Decluster | NDFC |
| C20 | proved | `C20_gk_foreshock_window` | P_Decluster | NDFC |
|  |  | `C20_gk_no_foreshocks_without_window` | P_Decluster | NDFC |
| C21 | proved | `C21_gk_row_order_irrelevant` | P_Decluster | NDFC |
|  |  | `C21_afteran_row_order_irrelevant` | P_Decluster | NDFC |
| C22 | proved | `C22_afteran_succeeds` | P_Decluster | NDFC |
|  |  | `C22_afteran_one_main_shock` | P_Decluster | NDFC |
| C23 | proved | `C23_afteran_shape` | P_Decluster | - |
| C24 | partial | `C24_afteran_members_near_main_refuted` | P_Decluster | NDFC |
|  |  | `C24_afteran_members_near_main_partial` | P_Decluster | NDFC |
| C25 | partial | `C25_aftershock_chain` | P_Decluster | - |
|  |  | `C25_foreshock_chain_refuted` | P_Decluster | NDFC |
|  |  | `C25_foreshock_chain_partial` | P_Decluster | - |
| C26 | partial | `C26_windows_grow_refuted` | P_Geo | NDFC |
|  |  | `C26_windows_grow_partial` | P_Geo | NDFC |
| C27 | proved | `C27_decimal_year_in_year` | P_Geo | NDFC |
|  |  | `C27_decimal_year_order` | P_Geo | NDFC |
|  |  | `C27_catalogue` | P_Geo | NDFC |
| C28 | proved | `C28_haversine` | P_Geo | NDFC |
|  |  | `C28_haversine_symmetric` | P_Geo | NDFC |
|  |  | `C28_default` | P_Geo | NDFC |
| C29 | partial | `C29_consecutive_days_refuted` | P_Geo | NDFC |
|  |  | `C29_julian_day_value` | P_Geo | NDFC |
|  |  | `C29_consecutive_days_partial` | P_Geo | NDFC |
|  |  | `C29_ordinal_counts_days` | P_Geo | - |
| C30 | proved | `C30_stepp_table_shape` | P_Stepp | NDFC |
|  |  | `C30_stepp_empty_catalogue` | P_Stepp | - |
| C31 | proved | `C31_stepp_duration_chosen` | P_Stepp | NDFC |
|  |  | `C31_stepp_lock_monotone` | P_Stepp | NDFC |
| C32 | proved | `C32_stepp_counts_every_event_once` | P_Stepp | NDFC |
| C33 | proved | `C33_stepp_ignores_event_order` | P_Stepp | NDFC |
| C34 | partial | `C34_last_violating_duration_refuted` | P_Stepp | NDFC |
|  |  | `C34_last_violating_duration_partial` | P_Stepp | NDFC |
| C35 | proved | `C35_recurrence_table` | P_Recurrence | NDFC |
|  |  | `C35_recurrence_cumulative` | P_Recurrence | NDFC |
| C36 | proved | `C36_b_maximum_likelihood` | P_Recurrence | NDFC |
|  |  | `C36_b_shift_invariant` | P_Recurrence | NDFC |
| C37 | proved | `C37_b_time_weighted_mean` | P_Recurrence | NDFC |
|  |  | `C37_b_time_succeeds` | P_Recurrence | NDFC |
| C38 | partial | `C38_every_period_used_refuted` | P_Recurrence | NDFC |
|  |  | `C38_every_period_used_partial` | P_Recurrence | NDFC |
|  |  | `C38_stepp_tables_grouped` | P_Recurrence | NDFC |
| C39 | proved | `C39_weichert_prep` | P_Recurrence | NDFC |
|  |  | `C39_weichert_counts_at_most_all` | P_Recurrence | NDFC |
| C40 | partial | `C40_complete_events_counted_refuted` | P_Recurrence | NDFC |
|  |  | `C40_complete_events_counted_partial` | P_Recurrence | NDFC |
| C41 | proved | `C41_weichert_result` | P_Recurrence | NDFC |
| C42 | partial | `C42_weichert_terminates_refuted` | P_Recurrence | NDFC |
|  |  | `C42_weichert_extreme_bin_diverges` | P_Recurrence | NDFC |
|  |  | `C42_weichert_default_start_diverges` | P_Recurrence | NDFC |
|  |  | `C42_weichert_terminates_partial` | P_Recurrence | NDFC |
|  |  | `C42_weichert_returns_partial` | P_Recurrence | NDFC |
| C43 | proved | `C43_recurrence_dispatch` | P_Recurrence | - |
| C44 | proved | `C44_hastings_central` | P_MaxMag | NDFC |
| C45 | partial | `C45_distribution_function_refuted` | P_MaxMag | NDFC |
|  |  | `C45_distribution_function_partial` | P_MaxMag | NDFC |
| C46 | proved | `C46_exponential_points` | P_MaxMag | NDFC |
| C47 | proved | `C47_kijko_result` | P_MaxMag | NDFC |
| C48 | partial | `C48_increment_refuted` | P_MaxMag | NDFC |
|  |  | `C48_increment_partial` | P_MaxMag | NDFC |
|  |  | `C77_kijko_at_least_observed` | P_MaxMag | NDFC |
| C49 | proved | `C49_cumulative_moment` | P_MaxMag | NDFC |
|  |  | `C49_order_irrelevant` | P_MaxMag | NDFC |
|  |  | `C49_shift` | P_MaxMag | NDFC |
| C50 | proved | `C50_bootstrap_exact` | P_MaxMag | NDFC |
| C51 | partial | `C51_silverman_refuted` | P_MaxMag | NDFC |
|  |  | `C51_silverman_partial` | P_MaxMag | NDFC |
| C52 | partial | `C52_dispatch_refuted` | P_MaxMag | - |
|  |  | `C52_dispatch_partial` | P_MaxMag | - |
| C53 | proved | `C53_fault_rates` | P_Fault | NDFC |
|  |  | `C53_rates_positive` | P_Fault | NDFC |
|  |  | `C53_proportional_to_slip` | P_Fault | NDFC |
| C54 | partial | `C54_rates_nonnegative_refuted` | P_Fault | NDFC |
|  |  | `C54_rates_nonnegative_partial` | P_Fault | NDFC |
| C55 | proved | `C55_construction` | P_Fault | NDFC |
|  |  | `C55_rejection` | P_Fault | NDFC |
|  |  | `C55_geometry` | P_Fault | NDFC |
|  |  | `C55_reverse` | P_Fault | NDFC |
|  |  | `C55_additive` | P_Fault | NDFC |
| C56 | proved | `C56_region_construction` | P_Fault | NDFC |
|  |  | `C56_first_values` | P_Fault | NDFC |
| C57 | partial | `C57_weights_refuted` | P_Fault | - |
|  |  | `C57_weights_partial` | P_Fault | - |
| C58 | proved | `C58_region_by_name` | P_Fault | NDFC |
|  |  | `C58_default_region` | P_Fault | NDFC |
|  |  | `C58_unknown_name` | P_Fault | DF |
| C59 | proved | `C59_round_trip` | P_Nrml | - |
|  |  | `C59_round_trip_twelve_digits` | P_Nrml | NDFC |
| C60 | partial | `C60_keeps_document_ids_refuted` | P_Nrml | - |
|  |  | `C60_keeps_document_ids_partial` | P_Nrml | - |
| C61 | partial | `C61_keeps_numbers_refuted` | P_Nrml | - |
|  |  | `C61_keeps_numbers_partial` | P_Nrml | - |
|  |  | `C61_keeps_twelve_digits_partial` | P_Nrml | NDFC |
| C62 | proved | `C62_reads_every_source` | P_Nrml | - |
|  |  | `C62_reads_every_source_any` | P_Nrml | - |
| C63 | proved | `C63_preprocessing_pipeline` | P_Flow | - |
|  |  | `C63_processing_pipeline` | P_Flow | - |
|  |  | `C63_nothing_runs` | P_Flow | - |
|  |  | `C63_missing_key` | P_Flow | - |
| C64 | proved | `C64_pipeline_runs_in_order` | P_Flow | - |
|  |  | `C64_failing_job` | P_Flow | - |
| C65 | proved | `C65_processing_per_source` | P_Flow | - |
| C66 | proved | `C66_other_sources_irrelevant` | P_Flow | - |
|  |  | `C66_same_events_same_result` | P_Flow | - |
|  |  | `C66_job_order` | P_Flow | - |
|  |  | `C66_job_order_run` | P_Flow | - |
| C67 | proved | `C67_stored_catalogue` | P_Flow | - |
| C68 | partial | `C68_flags_aligned_refuted` | P_Flow | - |
|  |  | `C68_flags_aligned_partial` | P_Flow | - |
|  |  | `C68_misaligned_again` | P_Flow | - |
|  |  | `C68_selection_after_misalignment` | P_Flow | - |
| C69 | proved | `C69_table_round_trip` | P_Flow | NDFC |
|  |  | `C69_table_round_trip_float` | P_Flow | NDFC |
|  |  | `C69_five_places_stored` | P_Flow | NDFC |
|  |  | `C69_five_places_read` | P_Flow | NDFC |
|  |  | `C69_empty_table` | P_Flow | - |
| C70 | partial | `C70_two_steps_refuted` | P_Flow | - |
|  |  | `C70_two_steps_weichert_refuted` | P_FlowWeichert | - |
|  |  | `C70_two_steps_mle_partial` | P_Flow | - |
|  |  | `C70_two_steps_complete_partial` | P_Flow | - |
|  |  | `C70_two_steps_five_places_partial` | P_Flow | NDFC |
|  |  | `C70_two_steps_declustered_partial` | P_Flow | NDFC |
|  |  | `C70_two_steps_float_partial` | P_Flow | NDFC |
|  |  | `C70_locked_tables` | P_Flow | NDFC |
|  |  | `C70_restart` | P_Flow | - |
| C71 | partial | `C71_empty_zone_refuted` | P_Flow | - |
|  |  | `C71_empty_zone_partial` | P_Flow | - |
|  |  | `C71_empty_zone_stops` | P_Flow | - |
|  |  | `C71_empty_zone_stops_loop` | P_Flow | - |
| C72 | proved | `C72_result_after_success` | P_Flow | - |
|  |  | `C72_failure_keeps_result` | P_Flow | - |
| C73 | proved | `C73_geographic_filter` | P_Flow | - |
|  |  | `C73_invalid_polygon` | P_Flow | - |
| C74 | proved | `C74_default_values` | P_Flow | - |
|  |  | `C74_default_values_float` | P_Flow | NDFC |
|  |  | `C74_default_values_real` | P_Flow | NDFC |
|  |  | `C74_stored_without_completeness` | P_Flow | - |
| C75 | proved | `C75_command_line` | P_Flow | - |
|  |  | `C75_command_line_errors` | P_Flow | - |
|  |  | `C75_debug_log` | P_Input | - |
| C76 | proved | `C76_haversine_triangle` | P_Geo | NDFC |
| C77 | proved | `C77_kijko_at_least_observed` | P_MaxMag | NDFC |
| C78 | proved | `C78_kijko_uses_largest` | P_MaxMag | NDFC |
| C79 | proved | `C79_quantile` | P_MaxMag | NDFC |
| C80 | proved | `C80_length_at_least_direct` | P_Fault | NDFC |
| C81 | proved | `C81_rate_sign` | P_Fault | NDFC |
| C82 | proved | `C82_integer_cells` | P_Catalog | - |
| C83 | proved | `C83_csv_records` | P_Catalog | - |
| C84 | proved | `C84_object_of_element` | P_Nrml | - |
| C85 | proved | `C85_write_failures` | P_Nrml | - |
| C86 | proved | `C86_only_output_files` | P_Flow | - |
| C87 | proved | `C87_result_file_needs_directory` | P_Flow | - |
|  |  | `C87_result_file_in_directory` | P_Flow | - |
| C88 | partial | `C88_normal_cdf_refuted` | P_MaxMag | NDFC |
|  |  | `C88_normal_cdf_partial` | P_MaxMag | NDFC |
| C89 | partial | `C89_weichert_a_value_refuted` | P_Recurrence | NDFC |
|  |  | `C89_weichert_a_value_partial` | P_Recurrence | NDFC |
| C90 | partial | `C90_mle_a_error_refuted` | P_Recurrence | NDFC |
|  |  | `C90_mle_a_error_partial` | P_Recurrence | NDFC |
| C91 | partial | `C91_mle_all_events_refuted` | P_Recurrence | NDFC |
|  |  | `C91_mle_all_events_partial` | P_Recurrence | NDFC |
| C92 | partial | `C92_mle_rate_refuted` | P_Recurrence | NDFC |
|  |  | `C92_mle_rate_partial` | P_Recurrence | NDFC |
| C93 | proved | `C93_weichert_is_the_estimate` | P_Recurrence | NDFC |
| C94 | proved | `C94_matrix_rows` | P_Matrix | - |
| C95 | partial | `C95_declustering_twice_refuted` | P_Twice | - |
|  |  | `C95_declustering_twice_partial` | P_Twice | - |
|  |  | `C95_declustering_twice_one_smallest_partial` | P_Twice | NDFC |
| C96 | partial | `C96_removed_events_explained_refuted` | P_Twice | - |
|  |  | `C96_removed_events_explained_partial` | P_Twice | NDFC |
| C97 | partial | `C97_far_event_changes_nothing_refuted` | P_Twice | - |
|  |  | `C97_far_event_changes_nothing_partial` | P_Twice | NDFC |
| C98 | partial | `C98_recurrence_ignores_order` | P_Order | NDFC |
|  |  | `C98_kijko_ignores_order_refuted` | P_Order | NDFC |
|  |  | `C98_kijko_ignores_order_partial` | P_Order | NDFC |
| C99 | proved | `C99_declustering_frame` | P_Order | NDFC |
| C100 | proved | `C100_epoch` | P_Order | NDFC |
| C101 | partial | `C101_order_with_ties_refuted` | P_Order | - |
| C102 | partial | `C102_valid_is_read_refuted` | P_Schema | - |
|  |  | `C102_valid_is_read_partial` | P_Schema | - |
|  |  | `C102_float_reads_doubles_partial` | P_Schema | - |
| C103 | partial | `C103_reading_keeps_all_refuted` | P_Schema | - |
|  |  | `C103_reading_keeps_all_partial` | P_Schema | - |
| C104 | partial | `C104_read_is_written_refuted` | P_Schema | - |
|  |  | `C104_read_is_written_partial` | P_Schema | - |
| C105 | partial | `C105_written_is_valid_refuted` | P_Schema | - |
|  |  | `C105_written_is_valid_partial` | P_Schema | - |
|  |  | `C105_printed_doubles_partial` | P_Schema | - |
| C106 | partial | `C106_result_is_valid_refuted` | P_Schema | - |
|  |  | `C106_default_never_valid_partial` | P_Schema | - |
|  |  | `C106_result_is_valid_partial` | P_Schema | - |
| C107 | proved | `C107_afteran_time_chain` | P_Decluster | NDFC |
|  |  | `C107_afteran_time_order` | P_Decluster | NDFC |
| C108 | proved | `C108_only_input_files_matter` | P_Repeat | - |
|  |  | `C108_only_stored_files_change` | P_Repeat | - |
| C109 | proved | `C109_running_again` | P_Repeat | - |
| C110 | proved | `C110_counting_events_again` | P_Scaling | NDFC |
| C111 | partial | `C111_magnitude_scale_weichert` | P_Scaling | NDFC |
|  |  | `C111_magnitude_scale_mle_partial` | P_Scaling | NDFC |
|  |  | `C111_magnitude_scale_error_refuted` | P_Scaling | NDFC |
| C112 | partial | `C112_own_area_budget_refuted` | P_Budget | NDFC |
|  |  | `C112_length_unused` | P_Budget | - |
|  |  | `C112_moment_budget_partial` | P_Budget | NDFC |
| C113 | partial | `C113_result_as_source_model_refuted` | P_Reuse | - |
|  |  | `C113_result_as_source_model_partial` | P_Reuse | - |
|  |  | `C113_result_as_source_model_cpython_partial` | P_Reuse | NDFC |
| C114 | partial | `C114_outside_events_refuted` | P_Zones | - |
|  |  | `C114_outside_events_partial` | P_Zones | - |
| C115 | proved | `C115_unused_columns` | P_Zones | - |
| C116 | partial | `C116_row_order_refuted` | P_RowOrder | - |
|  |  | `C116_selection_partial` | P_RowOrder | - |
|  |  | `C116_weichert_counts_partial` | P_RowOrder | - |
|  |  | `C116_maxlike_partial` | P_RowOrder | NDFC |
| C117 | proved | `C117_magnitude_scale` | P_MagShift | NDFC |
| C118 | partial | `C118_wider_window_refuted` | P_Wider | - |
|  |  | `C118_gk_wider_partial` | P_Wider | NDFC |
|  |  | `C118_afteran_wider_partial` | P_Wider | NDFC |
| C119 | partial | `C119_cumulative_below_observed_refuted` | P_Cumulative | - |
|  |  | `C119_cumulative_bounds_partial` | P_Cumulative | NDFC |
| C120 | proved | `C120_counting_events_again` | P_Cumulative | NDFC |
|  |  | `C120_reversed_time` | P_Cumulative | NDFC |
| C121 | proved | `C121_stepp_repeated_events` | P_StepCopies | NDFC |
| C122 | partial | `C122_tenths_own_bin_refuted` | P_Tenths | - |
|  |  | `C122_tenths_own_bin_partial` | P_Tenths | NDFC |
| C123 | partial | `C123_weichert_covered_events_refuted` | P_WeichertTenths | - |
|  |  | `C123_weichert_covered_events_partial` | P_WeichertTenths | NDFC |
|  |  | `C123_weichert_covered_events_half_partial` | P_WeichertTenths | NDFC |
| C124 | proved | `C124_double_decimal_year_in_year` | P_FYear | NDFC |
|  |  | `C124_double_decimal_year_order` | P_FYear | NDFC |
| C125 | proved | `C125_region_equality` | P_RegionEq | - |
|  |  | `C125_equal_regions_same_rates` | P_RegionEq | - |
| C126 | proved | `C126_bootstrap_statistics` | P_Boot | NDFC |
| C127 | proved | `C127_catalogue_b_value` | P_Catalogue | NDFC |
| C128 | partial | `C128_incomplete_events_refuted` | P_Incomplete | NDFC |
|  |  | `C128_incomplete_events_partial` | P_Incomplete | NDFC |
| C129 | partial | `C129_incomplete_not_counted_refuted` | P_Incomplete | NDFC |
|  |  | `C129_incomplete_not_counted_partial` | P_Incomplete | NDFC |
| C130 | proved | `C130_understood` | P_Args | - |
|  |  | `C130_only_these` | P_Args | - |
| C131 | partial | `C131_group_refuted` | P_Args | - |
|  |  | `C131_group_partial` | P_Args | - |
| C132 | proved | `C132_stepp_counts_once_float` | P_SteppFloat | NDFC |
| C133 | proved | `C133_gk_table` | P_Windows | NDFC |
| C134 | partial | `C134_uhrhammer_law_refuted` | P_Windows | NDFC |
|  |  | `C134_uhrhammer_three_weeks_partial` | P_Windows | NDFC |
|  |  | `C134_uhrhammer_keeps_partial` | P_Windows | NDFC |
| C135 | partial | `C135_schema_regions_refuted` | P_Names | NDFC |
|  |  | `C135_schema_regions_partial` | P_Names | NDFC |
| C136 | proved | `C136_read_entries_stored` | P_Names | - |
| C137 | proved | `C137_larger_mean_smaller_b` | P_Mean | NDFC |
|  |  | `C137_sign_of_b` | P_Mean | NDFC |
| C138 | partial | `C138_range_refuted` | P_Range | - |
|  |  | `C138_range_partial` | P_Range | NDFC |
| C139 | proved | `C139_result` | P_Whole | - |
|  |  | `C139_determined` | P_Whole | - |
|  |  | `C139_runs` | P_Whole | - |
| C140 | partial | `C140_window` | P_Dup | - |
|  |  | `C140_gk_partial` | P_Dup | NDFC |
|  |  | `C140_afteran_refuted` | P_Dup | - |
| C141 | partial | `C141_unlisted` | P_Param | - |
|  |  | `C141_preprocessed_input_refuted` | P_Param | - |
| C142 | partial | `C142_unique_identifiers_refuted` | P_Param | - |
| C143 | proved | `C143_job_set` | P_Jobset | - |
| C144 | partial | `C144_declustering_accumulates_refuted` | P_Restart | - |
|  |  | `C144_afteran_starts_over` | P_Restart | - |
| C145 | proved | `C145_storing_changes_nothing` | P_Store | - |
| C146 | proved | `C146_catalogue_rate` | P_CatRate | NDFC |
|  |  | `C146_rate_bounds` | P_CatRate | NDFC |
|  |  | `C146_one_period` | P_CatRate | NDFC |
| C147 | proved | `C147_sign` | P_CatMean | NDFC |
|  |  | `C147_sign_one_period` | P_CatMean | NDFC |
|  |  | `C147_larger_mean_smaller_b` | P_CatMean | NDFC |
| C148 | proved | `C148_bad_input` | P_Input | - |
|  |  | `C148_nothing_written` | P_Input | - |
|  |  | `C148_bad_table` | P_Input | - |
| C149 | proved | `C149_default_source` | P_Default | - |
|  |  | `C149_no_processing` | P_Default | - |
| C150 | partial | `C150_equal_written_same_refuted` | P_SourceEq | - |
|  |  | `C150_equal_written_same_partial` | P_SourceEq | - |
|  |  | `C150_equality` | P_SourceEq | - |
|  |  | `C150_differs` | P_SourceEq | - |
| C151 | proved | `C151_completes_iff` | P_Runs | - |
| C152 | proved | `C152_document` | P_Doc | - |
|  |  | `C152_written` | P_Doc | - |
|  |  | `C152_result_document` | P_Doc | - |
| C153 | proved | `C153_stored_lines` | P_Table | NDFC |
| C154 | proved | `C154_text` | P_Stored | - |
|  |  | `C154_exact` | P_Stored | - |
|  |  | `C154_run` | P_Stored | - |
| C155 | proved | `C155_equal` | P_Plan | - |
|  |  | `C155_same_run` | P_Plan | - |
|  |  | `C155_queue` | P_Plan | - |
|  |  | `C155_same_lists_refuted` | P_Plan | - |

## Properties

Title, status and note of each property; the full statements are in `properties.jsonl`.

* **C01 Header gate** (proved). every arithmetic
* **C02 Accepted entries are valid** (proved). every arithmetic, every text-to-float function, every key order
* **C03 Acceptance criterion** (proved). every arithmetic, every key order
* **C04 Optional fields are kept or blanked, nothing else changes** (proved). every arithmetic, every key order
* **C05 Error ellipse is all-or-nothing** (partial). REFUTED in CPython 2.7 key order: negative SemiMinor90 blanked, the others kept; holds when negative axes are visited before ErrorStrike; C05_ellipse_outcome lists every outcome
* **C06 Catalogue read is all-or-nothing and order preserving** (proved). every file
* **C07 Bad compulsory fields raise a located validation error** (partial). REFUTED: an unreadable compulsory float raises TypeError, and blank lines are not counted in the line number; otherwise as stated
* **C08 Accepted dates exist** (partial). REFUTED: 0 February and 31 April are accepted; at most 29 in February and 1..31 elsewhere holds
* **C09 Ragged rows are rejected** (proved). every arithmetic, every key order
* **C10 Accepted magnitudes are numbers** (partial). REFUTED in binary64: Mw nan is accepted; longitude and latitude are finite and depth is not NaN
* **C11 CSV round trip** (proved). generic theorem assumes float(repr(x)) == x for numbers that were read; the second theorem has no such assumption: the round trip of repr is proved for CPython's algorithms on binary64
* **C12 Selection vector meaning** (proved). for every arithmetic
* **C13 Completeness removal is sound** (proved). over the reals
* **C14 Kept events are complete** (partial). REFUTED: a recent event below every tabulated magnitude is kept; strongest true weakening: each row is satisfied in year or in magnitude
* **C15 Gardner-Knopoff output shape** (proved). for every arithmetic and every sort
* **C16 Gardner-Knopoff clusters lie in their main event's window** (proved). for every arithmetic and every sort
* **C17 Gardner-Knopoff never empties a catalogue** (proved). for every arithmetic and every sort
* **C18 Gardner-Knopoff finds exactly the non-isolated events** (proved). for every arithmetic and every sort
* **C19 Gardner-Knopoff keeps the largest event of a cluster** (partial). REFUTED: with foreshock proportion 0 an M7 is purged in favour of an M5 one day earlier (the algorithm removes an event from consideration once clustered); strongest true weakening: the largest event of the catalogue is kept when its windows cover all others in both time directions
* **C20 Gardner-Knopoff without foreshock window** (proved). over the reals
* **C21 Declustering does not depend on row order** (proved). over the reals; with equal magnitudes the order matters, see C101
* **C22 AFTERAN clusters have exactly one main shock** (proved). over the reals
* **C23 AFTERAN output shape** (proved). for every arithmetic and every sort
* **C24 AFTERAN cluster members are near their main shock** (partial). REFUTED: the member's distance is measured from the seed event, not from the kept event; strongest true weakening: within twice the distance window
* **C25 AFTERAN aftershock chain** (partial). aftershock half proved for every arithmetic; foreshock half REFUTED (an event right after an aftershock in the list is skipped); weakening: no false marks, no missed event unless the preceding one is an aftershock
* **C26 Declustering windows grow with magnitude** (partial). REFUTED: the Gardner-Knopoff time window drops at M6.5; everything else in the claim is proved
* **C27 Decimal year** (proved). over the reals; 29 February ties with 1 March
* **C28 Haversine distance** (proved). over the reals
* **C29 Julian day** (partial). REFUTED: 1900-02-28 and 1900-03-01 differ by 2; exact value of the function proved for every date
* **C30 Stepp table shape** (proved). over the reals; exact outcome incl. the exceptional cases
* **C31 Stepp increment lock** (proved). over the reals; the slope test is stated from the method's description in SteppSpec.v
* **C32 Stepp counts every event once** (proved). over the reals
* **C33 Stepp ignores event order** (proved). over the reals
* **C34 Stepp uses the last violating duration** (partial). REFUTED: a violation at the first duration only is ignored; proved for every later position
* **C35 Recurrence table** (proved). over the reals
* **C36 Maximum-likelihood b-value** (proved). over the reals; at least one complete event
* **C37 Time-varying b-value is a weighted mean** (proved). over the reals; rows of one year adjacent (see C38)
* **C38 Every completeness period is used** (partial). REFUTED for tables in which the rows of a year are not adjacent: a period is skipped; strongest true weakening: adjacent equal years (met by Stepp tables with the increment lock)
* **C39 Weichert preparation** (proved). over the reals
* **C40 Weichert preparation keeps complete events** (partial). REFUTED: a complete event in a time bin that starts before the completeness year is dropped; strongest true weakening: steps on bin edges
* **C41 Weichert result** (proved). over the reals
* **C42 Weichert terminates** (partial). REFUTED: never returns when all complete events are in the lowest or highest bin, and diverges from the default start 1.5 for two bins with one event each; otherwise the estimate exists, is unique and the iteration returns from every start near it, and for equally spaced bins from every start in an explicit range (default start and counts 100, 10, 1 included). Missing: an exact description of all starts from which it returns
* **C43 Recurrence dispatch** (proved). for every arithmetic
* **C44 Hastings normal CDF** (proved). over the reals
* **C45 Hastings CDF tails** (partial). REFUTED: value 1 more than five deviations below the mean; proved elsewhere
* **C46 Exponentially spaced points** (proved). over the reals
* **C47 Kijko iteration terminates** (proved). over the reals
* **C48 Kijko increment is bounded** (partial). REFUTED: the code's distribution function leaves [0,1] so Mmax may be below the observed maximum; the bound for values in [0,1] is proved, and C77 gives a condition under which Mmax is at least the observed maximum
* **C49 Cumulative moment** (proved). over the reals
* **C50 Bootstrap with exact magnitudes** (proved). over the reals
* **C51 Kernel bandwidth** (partial). REFUTED: the standard deviation is not used; the formula with the interquartile range is proved
* **C52 Maximum magnitude dispatch** (partial). REFUTED: unknown names return (0, 0); the two names are dispatched correctly, for every arithmetic
* **C53 Fault recurrence rates** (proved). over the reals; WC1994 of nhlib is a parameter
* **C54 Fault rates are never negative** (partial). REFUTED: negative rates for b-values above the slope of the moment scaling; non-negative up to it; C81 gives the exact sign
* **C55 Simple fault geometry** (proved). over the reals
* **C56 Tectonic region validation** (proved). over the reals
* **C57 Weights that sum to one are accepted** (partial). REFUTED in binary64: 0.7, 0.2, 0.1 is refused; two weights in thousandths are always accepted (for every libm)
* **C58 Tectonic region builder** (proved). over the reals; unknown names for every arithmetic
* **C59 NRML round trip** (proved). every arithmetic; text conversion is a parameter with float(str(x)) = x on the numbers concerned; the second theorem proves this for numbers of at most twelve digits; lists not empty, name and region not the empty text
* **C60 NRML keeps document ids** (partial). REFUTED: all sources get the ids of the first one; the rest holds
* **C61 NRML keeps numbers** (partial). REFUTED in binary64: str() keeps 12 digits; each number read back is float(str(x)); numbers of at most twelve digits come back equal
* **C62 Reader yields every area source** (proved). every document, every arithmetic
* **C63 Pipeline construction** (proved). All configurations, any arithmetic; pipelines are compared as lists of jobs.
* **C64 Pipeline execution** (proved). Any job list and context. A failing job itself leaves no effect except for the two named in C64_failing_job.
* **C65 Per-source processing** (proved). Runs that complete, with the two processing jobs; the polygon tests and the random draws are parameters.
* **C66 Sources do not interfere** (proved). For runs that complete: a failing source stops the run (C71), so failure of another source does matter. The draws of the bootstrap depend on the sizes only.
* **C67 Preprocessed file content** (proved). Flags after one declustering job (gk_first); the selection flag of an entry is 0 exactly if it is unflagged and complete.
* **C68 Flags stay aligned with the catalogue** (partial). REFUTED as stated: Gardner-Knopoff after another declustering job works on the working catalogue and misaligns the flags. Proved when Gardner-Knopoff is not preceded by a declustering job; the other theorems say what happens otherwise.
* **C69 Completeness table file round trip** (proved). Over the reals for all tables; for doubles, exact recovery of values below 10^7 with at most five decimals. An empty table is the exception: it cannot be retrieved.
* **C70 Two-step workflow equivalence** (partial). REFUTED as stated: a Stepp analysis without locked bins counts incomplete events in the one-run workflow, and with Weichert's method the incomplete events move the time bins even for locked tables. Proved for declustering-only preprocessing with all processing jobs, for every processing job when all events left are complete, and for maximum likelihood when every counted event is complete, as with tables of increasing periods.
* **C71 Zones without events keep their defaults** (partial). REFUTED: the documented behaviour is not that of the code, which raises IndexError at the first source without events; what the code does instead is proved.
* **C72 Result file only after success** (proved). Any configuration and failure point, when the result file is not also configured as another output.
* **C73 Geographic filter** (proved). The polygon validity and containment tests of shapely are parameters.
* **C74 Default values job** (proved). In any arithmetic whose comparison orders the values; reals and doubles (years always, magnitudes if none is NaN).
* **C75 Command line** (proved). The option parser and the YAML parser are parameters. With -i naming a missing file the help is printed too, and the run then raises IOError.
* **C76 Haversine distance is a metric** (proved). over the reals
* **C77 Kijko estimate is not below the observed maximum** (proved). over the reals
* **C78 Kijko uses the largest events** (proved). over the reals
* **C79 Quantiles** (proved). over the reals
* **C80 Fault length and end points** (proved). over the reals
* **C81 Sign of the fault rates** (proved). over the reals
* **C82 Integer columns** (proved). 
* **C83 CSV records survive writing and reading** (proved). 
* **C84 A source object says what its element says** (proved). every element, every arithmetic
* **C85 Source writer failures** (proved). 
* **C86 Only the configured outputs are written** (proved). Any configuration, any outcome.
* **C87 Result files need a directory part** (proved). os.path.exists('') is False; with a directory part the workflow writes the file exactly when that directory exists.
* **C88 Hastings accuracy** (partial). REFUTED as stated: one deviation above the mean the result is more than 0.17 too small, because a_2 has the wrong sign; partial: exact at the mean and within 1/4 everywhere in the range
* **C89 Weichert a-value is a cumulative rate** (partial). REFUTED for reference magnitude 0, where the code returns the rate above the lowest bin edge with an unrelated error; partial: holds for all other reference magnitudes
* **C90 Error of the maximum-likelihood a-value** (partial). REFUTED: lines 216-217 multiply by the reference magnitude where the a-value uses the completeness magnitude; partial: closed form of the error
* **C91 Every complete event enters the b-value** (partial). REFUTED: bins are kept by their centre; partial: holds when the completeness magnitude is a multiple of 0.1
* **C92 Maximum-likelihood annual rate** (partial). REFUTED: the span of the complete events is used instead of the completeness period; partial: exact value, never too small, equality condition
* **C93 Weichert's b-value is the maximum-likelihood estimate** (proved). over the reals; tolerance times magnitude range at most 0.3
* **C94 The event matrix is the catalogue file** (proved). any arithmetic
* **C95 Declustering a declustered catalogue removes nothing** (partial). REFUTED in binary64 with numpy's heapsort and the default windows: a second run removes the M7 of the witness.  The loop never visits the event the sort puts last; ties in the smallest magnitude let that be another event in the second run.  Proved: nothing is removed when that event is removed or is the same in both runs, in particular (reals) when one event has the smallest magnitude.
* **C96 Every event removed by Gardner-Knopoff lies in the window of a kept event** (partial). REFUTED in binary64 with the default windows and foreshock proportion 0: the aftershock of a main shock that is itself removed later is in no kept event's window.  Proved over the reals for foreshock proportion 1 and windows that do not shrink with magnitude (true of Uhrhammer and Gruenthal, C26).
* **C97 An event far from all others does not change the declustering of the others** (partial). REFUTED in binary64 with the default windows and foreshock proportion 0: the loop stops before the smallest event, so adding a smaller far event lets the former smallest act as a main shock and purge an M7.  Proved over the reals when the added event is larger than some other event and magnitudes are distinct, at any position in the catalogue.
* **C98 Recurrence and maximum magnitude do not depend on the order of the events** (partial). REFUTED for the uncertainty of Kijko's estimate when several events share the largest magnitude with different uncertainties; proved for both recurrence methods, for the estimate itself, and for the uncertainty when the largest events have one uncertainty (over the reals)
* **C99 Declustering does not depend on the frame of reference** (proved). over the reals
* **C100 Analyses do not depend on the epoch of the years** (proved). over the reals
* **C101 Declustering does not depend on row order among equal magnitudes** (partial). REFUTED for both methods in binary64 with numpy's heapsort: three events of one magnitude give two main shocks in one order and one in another; the case of distinct magnitudes is C21
* **C102 Every schema-valid source model is read** (partial). REFUTED: valid area sources without a name, with a discretised magnitude distribution, an odd coordinate list, no ring or an empty magnitude list end the reader with an exception; proved: a valid document is read exactly when each area source has what the reader wants beyond the schema, and float() reads every xs:double.
* **C103 Reading a source model loses nothing the schema allows** (partial). REFUTED: holes of a polygon and rate models after the first are dropped; proved: they never make a difference for a valid area source.
* **C104 What was read from a valid source model can be written** (partial). REFUTED: sources read without srsName or magnitude type raise TypeError, and a valid document without area sources IndexError; proved: writable exactly when there are area sources and all have the three attributes.
* **C105 What is written is valid against the schema** (partial). REFUTED: default_area_source is written with the same id for root, model and source, and an infinite number as inf; proved: the exact condition for validity, and that str(x) is an xs:double exactly for finite x.
* **C106 The result of a run is a valid source model** (partial). REFUTED: without a source model the result is never valid; proved: with a valid source model the result is valid exactly when its numbers, including the computed rates, are printed as the schema allows.
* **C107 AFTERAN clusters are chains in time** (proved). real arithmetic; argsort sorts
* **C108 A run depends on its input files only and changes its stored files only** (proved). For every Ops and world; the random draws are a function in the model, so both runs get the same ones.
* **C109 Running the same configuration again** (proved). For every Ops and world; corollary of C108.
* **C110 Counting every event again** (proved). ROps; for every event list, table, window and both algorithms.
* **C111 Another zero of the magnitude scale** (partial). REFUTED for the maximum likelihood error of the rate, which is a power of ten of an expression containing the reference magnitude; proved for all four Weichert numbers and for b, its error and the rate of maximum likelihood.
* **C112 Moment budget of a fault** (partial). REFUTED for the area of the fault: with a given maximum magnitude the length is not used and large maximum magnitudes release more than the fault accumulates; proved with the length of the largest rupture in place of the fault length: exact sum and upper bounds.
* **C113 The result as source model** (partial). REFUTED for boundaries with more than twelve digits; proved for every arithmetic when coordinates read back and result numbers print the same again, and for CPython's numbers when coordinates have at most twelve digits and the printed numbers an ordinary size. Missing: sizes outside 1e-280..1e300 and processing lists with other jobs.
* **C114 Earthquakes outside every zone** (partial). REFUTED without a completeness table (default table from the whole catalogue); proved with a table or when oldest year and smallest magnitude are unchanged, for every arithmetic
* **C115 Columns the result does not depend on** (proved). every arithmetic and every job list
* **C116 Order of the rows of the completeness table** (partial). REFUTED for Weichert's method (swapping two rows moves b from 0.764 to 0.569 in binary64: the observation time is that of the last row not above the bin); proved: the selection depends on the set of rows only (every arithmetic), Weichert's bins and counts do not depend on the order (every arithmetic), maximum likelihood does not when the rows of a year are adjacent in both tables (reals).
* **C117 Completeness and maximum magnitude with another zero of the magnitude scale** (proved). Over the reals; the cumulative moment method is C49_shift.
* **C118 A wider declustering window never leaves more main shocks** (partial). REFUTED for both algorithms in binary64 with the sort numpy uses: an M5 taken into the cluster of an M7 by the wider window no longer removes the M4 and the M3.9 near it, so three main shocks are left where the narrower window leaves two. What holds, over the reals and for every sort: when the wider window removes nothing, the narrower gives the same result.
* **C119 Cumulative-moment estimate and the observed maximum** (partial). REFUTED in binary64: events of 7, 6.9 and 7 in three years give an estimate below 6.6, one M7 in each of two years gives minus infinity. What holds, over the reals, unless the release is uniform: the moment of the estimate is at least that of every event less the mean yearly moment, and at most that of all events together.
* **C120 Cumulative moment of copied events and of reversed time** (proved). Over the reals; part one needs a release that is not perfectly uniform (otherwise the logarithm of 0 is taken).
* **C121 Stepp's completeness table when events are listed several times** (proved). Over the reals, with sensitivity at most 3 and events x years at most 10^12 (larger products let the 1e-14 floor of the deviations be reached).
* **C122 Magnitudes in tenths are counted in their own bin (binary64)** (partial). REFUTED as stated: magnitudes 3.0 and 3.3 leave the bin of 3.3 empty in binary64. Proved instead, for every catalogue in tenths from 0.0 to 10.0: no event lost, each in its own bin or the one below, exact rows when the smallest magnitude is at least 4.0.
* **C123 Weichert's preparation keeps every complete event (binary64, tenths)** (partial). REFUTED as stated: an early event exactly at the completeness magnitude 4.3 is dropped in binary64. Proved instead: the counts lie between those of the strictly covered and of the covered events, bin by bin and in total; exact counts when the completeness magnitudes are half-way between tenths.
* **C124 Decimal years keep calendar order in double precision** (proved). Binary64 counterpart of C27, through Flocq's correctness of sum, difference, product and quotient.
* **C125 Equality of tectonic regions** (proved). Binary64, any mathematical library; contents of keys other than model/value/weight are not modelled.
* **C126 Mean and deviation of the bootstrap** (proved). over the reals; the draws are a parameter
* **C127 Weichert's b-value of a catalogue** (proved). over the reals; composes C39, C43 and C93
* **C128 Incomplete events in Weichert's analysis** (partial). REFUTED as stated (the earliest event sets the time bins). Proved over the reals for magnitudes in tenths when the first and last year and the smallest and largest magnitude stay.
* **C129 Incomplete events are not counted** (partial). REFUTED as stated (magnitudes are rounded to tenths first). Proved over the reals for magnitudes in tenths.
* **C130 The command lines the program runs on** (proved). C130_understood for values that do not start with a dash in an argument of their own; C130_only_these gives the converse with the values argparse takes for one (negative numbers, blanks, a single dash). The two classes differ only in values that start with a dash.
* **C131 Grouped short options** (partial). REFUTED for a text that starts with an equals sign: -d -i=f reads f and -di=f reads =f. Proved for every other text.
* **C132 Stepp counts every event once in double precision** (proved). Binary64 version of C32, for every end time and duration.
* **C133 Gardner-Knopoff windows follow the published table** (proved). Over the reals.
* **C134 Uhrhammer time window follows the published law** (partial). REFUTED: declustering.py:145 divides the magnitude term by 365 inside exp, so at magnitude 9 the law gives more than forty times the window used. Proved instead: the window is between 19 and 24 days for every magnitude from 0 to 9 (too long up to 4, too short from 6), and with it Gardner-Knopoff keeps every event of a catalogue without two events within 24 days.
* **C135 Region names of the schema are known to the builder** (partial). REFUTED: 'Subduction IntraSlab' and 'Stable Shallow Crust' are valid NRML but the builder knows 'Subction Intraslab' and 'Stable Continental'; the partial theorem says which names are known.
* **C136 What was read can always be stored** (proved). For every Ops and every world whose dictionary order is a rearrangement.
* **C137 Weichert's b-value falls as the mean magnitude grows** (proved). Over the reals; with a lower bound for the difference.
* **C138 Magnitude range of a result** (partial). REFUTED in binary64: events of 7, 6.9 and 7 in three years with reference magnitude 6.8 give minMagnitude 6.8 and maxMagnitude below it (cumulative moment). Proved for Kijko's method over the reals when the magnitudes span at most five bandwidths.
* **C139 What a run computes** (proved). every arithmetic and world; no axioms; the converse (C139_runs) is for runs that do not store the preprocessed catalogue
* **C140 An earthquake listed twice is kept at most once by declustering** (partial). REFUTED for AFTERAN (C140_afteran_refuted: binary64, numpy's heapsort, an M5 listed twice after an older M7 at the same place: all three rows kept, because row 0 of the distance selection is taken to be the event itself). Proved for Gardner-Knopoff: for every arithmetic when each row is in the other's window (C140_window), and over the reals from equal date and place (C140_gk_partial). Case: C140_case.
* **C141 Configuration entries that are not used** (partial). REFUTED as documented: with blank preprocessing_jobs a completed run ignores the preprocessed catalogue named in pprocessing_result_file. Proved for every arithmetic, world and configuration: entries of unlisted jobs, and that entry, have no effect at all. Case: C141_case.
* **C142 Event identifiers are unique in an accepted catalogue** (partial). REFUTED: two rows with identifier 7. The identifiers play no part in the results (C115).
* **C143 The processing jobs are a set** (proved). for every arithmetic and world; C143_case: two jobs in the other order, one of them twice
* **C144 Declustering jobs in one list** (partial). REFUTED by a run of the demonstration world; C144_afteran_starts_over says what happens instead, for every arithmetic and world
* **C145 Storing does not change the result** (proved). for every arithmetic and world; C145_case: a run that stores both files and one that stores none
* **C146 Weichert's activity rate of a catalogue** (proved). real arithmetic; C146_case: seven events for which the method returns, at least six of them counted. Reference magnitude 0 is C89.
* **C147 Weichert's b-value of a catalogue and its mean magnitude** (proved). exact real arithmetic; the bins are those of C146
* **C148 A run stopped by its input writes nothing** (proved). every Ops and every world
* **C149 The source of a run without source model** (proved). every Ops and every world; the writer that turns the source into the file is that of C59 and C84
* **C150 Equality of sources** (partial). REFUTED in binary64: a rate of -0.0 equals one of 0.0 and is written differently. Proved for all sources without -0.0; the laws of == and != proved
* **C151 Exactly which runs without jobs complete** (proved). every Ops and every world; rows of the table as modelled (comments not modelled)
* **C152 The document written, name by name** (proved). every Ops and every world
* **C153 The lines of a stored completeness table** (proved). over the reals; a negative value that rounds to zero is printed as 0.00000 in the model and as -0.00000 by Python, the statement allows both
* **C154 The text of a stored catalogue, character by character** (proved). Independent description of the whole file (heading, order of values, digits, quoting, line ends), which holds of the text written and of no other (C154_exact); C154_run gives it for the file of a preprocessing run under the conditions of C67.
* **C155 Equality of pipelines** (proved). Proved for every arithmetic and world. C155_same_lists_refuted: the lists of jobs themselves may differ, as storing can be asked for by name or by result file.
