{"id": "C01", "title": "Header gate", "statement": "Constructing the catalogue reader succeeds exactly when the first line, split at commas and with surrounding blanks of each piece removed, is the list of the 25 documented column names in order; any other first line raises MalformedCatalogError and nothing is read.", "quantifier": "every text file", "why_tests_cant": "the set of first lines is infinite; a test tries one bad header", "anchors": ["mtoolkit/eqcatalog.py:EqEntryReader.validate_csv_catalog", "mtoolkit/eqcatalog.py:FIELDNAMES"]}
{"id": "C02", "title": "Accepted entries are valid", "statement": "Every entry the reader yields has an integer eventID > 0, Identifier > 0, year in [-10000, current year], month 1..12, hour 0..23, minute 0..59, longitude in [-180,180], latitude in [-90,90], depth > 0 and a float Mw; every optional field is either blank or satisfies its own documented range; sigmaMw is always a number and never negative.", "quantifier": "every row of text, every current year, every order in which the dictionary's keys are visited, every text-to-float conversion", "why_tests_cant": "inputs and dictionary orders are unbounded; tests check single fields on a hand-made dictionary", "anchors": ["mtoolkit/eqcatalog.py:EqEntryReader.read", "mtoolkit/eqcatalog.py:EqEntryReader.convert_values", "mtoolkit/eqcatalog.py:EqEntryReader.check_map"]}
{"id": "C03", "title": "Acceptance criterion", "statement": "A 25-column row is accepted if and only if its eleven compulsory fields parse and pass their own checks; optional fields never cause a rejection and the key order never changes the verdict.", "quantifier": "every 25-column row, every pair of key orders", "why_tests_cant": "an equivalence over all rows and orders", "anchors": ["mtoolkit/eqcatalog.py:EqEntryReader.read", "mtoolkit/eqcatalog.py:EqEntryReader.compulsory_fields"]}
{"id": "C04", "title": "Optional fields are kept or blanked, nothing else changes", "statement": "In an accepted entry every compulsory field and Agency hold exactly the parsed input; every optional field holds its parsed input when that parses and is in range and is blank otherwise (0.0 for sigmaMw); no field outside the error ellipse group depends on key order.", "quantifier": "every row, every key order", "why_tests_cant": "universally quantified frame condition", "anchors": ["mtoolkit/eqcatalog.py:EqEntryReader.convert_values", "mtoolkit/eqcatalog.py:check_positive_value", "mtoolkit/eqcatalog.py:check_second", "mtoolkit/eqcatalog.py:check_sigma_mw"]}
{"id": "C05", "title": "Error ellipse is all-or-nothing", "statement": "If one of ErrorStrike, SemiMinor90, SemiMajor90 fails its own check, all three are blank in the entry the reader yields.", "quantifier": "every row and every key order (in particular CPython 2.7's own)", "why_tests_cant": "the outcome depends on dictionary iteration order, which the unit test bypasses", "anchors": ["mtoolkit/eqcatalog.py:EqEntryReader.check_epicentre_error_location"]}
{"id": "C06", "title": "Catalogue read is all-or-nothing and order preserving", "statement": "read_eq_catalog returns exactly one entry per non-blank data row, in file order, or raises at the first bad row and returns nothing; the lazy reader yields exactly the entries before the first bad row.", "quantifier": "every file", "why_tests_cant": "quantifies over all files and failure positions", "anchors": ["mtoolkit/eqcatalog.py:EqEntryReader.read", "mtoolkit/eqcatalog.py:EqEntryReader.read_eq_catalog"]}
{"id": "C07", "title": "Bad compulsory fields raise a located validation error", "statement": "When a compulsory field does not parse or fails its check the exception raised is EqEntryValidationError, and it carries the field and the number of the offending line.", "quantifier": "every bad row at every position of every file", "why_tests_cant": "all error paths on all rows", "anchors": ["mtoolkit/eqcatalog.py:EqEntryReader.convert_values", "mtoolkit/eqcatalog.py:EqEntryValidationError"]}
{"id": "C08", "title": "Accepted dates exist", "statement": "In every accepted entry day >= 1 and the day exists in that month (at most 29 in February, 30 or 31 otherwise).", "quantifier": "every row", "why_tests_cant": "boundary cases of an integer-valued field", "anchors": ["mtoolkit/eqcatalog.py:EqEntryReader.check_day"]}
{"id": "C09", "title": "Ragged rows are rejected", "statement": "A data row with fewer than 25 columns or more than 25 columns never produces an entry: reading raises.", "quantifier": "every row length and content", "why_tests_cant": "unbounded row shapes", "anchors": ["mtoolkit/eqcatalog.py:EqEntryReader.read"]}
{"id": "C10", "title": "Accepted magnitudes are numbers", "statement": "The Mw of an accepted entry is a finite number, so magnitude comparisons downstream are meaningful.", "quantifier": "every row", "why_tests_cant": "special float texts", "anchors": ["mtoolkit/eqcatalog.py:EqEntryReader.no_check"]}
{"id": "C11", "title": "CSV round trip", "statement": "Writing entries with EqEntryWriter.write_rows and reading the file back with EqEntryReader yields the same entries, for any Agency text including commas, quotes and line breaks.", "quantifier": "every list of entries that the reader can produce with a consistent error ellipse", "why_tests_cant": "needs all strings and all numbers", "anchors": ["mtoolkit/eqcatalog.py:EqEntryWriter.write_rows", "mtoolkit/eqcatalog.py:EqEntryReader.read_eq_catalog"]}
{"id": "C12", "title": "Selection vector meaning", "statement": "Position k of the selection vector is 0 if and only if event k was not flagged by declustering and no completeness row has both a later year and a larger magnitude than the event; otherwise it is 1, and the vector has one position per event.", "quantifier": "every catalogue, completeness table and flag vector of the same length", "why_tests_cant": "all vectors and tables", "anchors": ["mtoolkit/scientific/completeness.py:selected_eq_flag_vector"]}
{"id": "C13", "title": "Completeness removal is sound", "statement": "With a completeness table whose magnitudes increase and years do not increase, an unflagged event that is removed is outside the complete part of the catalogue (its year precedes the year of every row with magnitude at most its own).", "quantifier": "every monotone table and event", "why_tests_cant": "all tables", "anchors": ["mtoolkit/scientific/completeness.py:selected_eq_flag_vector"]}
{"id": "C14", "title": "Kept events are complete", "statement": "Every event kept by the selection vector lies in the complete part of the catalogue described by the table (some row has magnitude <= its magnitude and year <= its year).", "quantifier": "every monotone table and event", "why_tests_cant": "all tables", "anchors": ["mtoolkit/scientific/completeness.py:selected_eq_flag_vector", "docs/source/user/completeness_table.rst"]}
{"id": "C15", "title": "Gardner-Knopoff output shape", "statement": "The cluster and flag vectors have one position per catalogue row, in catalogue order; flags are -1, 0 or 1; the returned catalogue is exactly the rows with flag 0, unaltered and in their original order; a removed row always has a cluster number; a row with cluster number 0 is always kept.", "quantifier": "every catalogue, window option, foreshock proportion and every tie-breaking of the magnitude sort", "why_tests_cant": "all catalogues and sorts; float special values included", "anchors": ["mtoolkit/scientific/declustering.py:gardner_knopoff_decluster"]}
{"id": "C16", "title": "Gardner-Knopoff clusters lie in their main event's window", "statement": "For every cluster number in use there is one main event such that each event with that number is inside the main event's time and distance window, has flag 0 if it is the main event itself, -1 if earlier and 1 otherwise; hence each cluster keeps at most one event.", "quantifier": "every catalogue, window option, foreshock proportion, sort", "why_tests_cant": "invariant over a mutating loop", "anchors": ["mtoolkit/scientific/declustering.py:gardner_knopoff_decluster"]}
{"id": "C17", "title": "Gardner-Knopoff never empties a catalogue", "statement": "Declustering a non-empty catalogue returns a non-empty catalogue.", "quantifier": "every catalogue and parameters", "why_tests_cant": "all catalogues", "anchors": ["mtoolkit/scientific/declustering.py:gardner_knopoff_decluster"]}
{"id": "C18", "title": "Gardner-Knopoff finds exactly the non-isolated events", "statement": "An event that is in no other event's window and has no other event in its own window is kept with cluster number 0; conversely an event with cluster number 0, other than the last in the processing order, has no other event in its window.", "quantifier": "every catalogue and parameters", "why_tests_cant": "all catalogues", "anchors": ["mtoolkit/scientific/declustering.py:gardner_knopoff_decluster"]}
{"id": "C19", "title": "Gardner-Knopoff keeps the largest event of a cluster", "statement": "In each cluster the event of largest magnitude is kept (it is never purged as aftershock or foreshock of a smaller event).", "quantifier": "every catalogue", "why_tests_cant": "needs search over catalogues; the tests use one cluster", "anchors": ["mtoolkit/scientific/declustering.py:gardner_knopoff_decluster"]}
{"id": "C20", "title": "Gardner-Knopoff without foreshock window", "statement": "With foreshock proportion 0 no event is flagged as foreshock (-1), and with proportion p an event flagged -1 precedes the main event of its cluster by at most p times the main event's time window.", "quantifier": "every catalogue, proportion >= 0", "why_tests_cant": "all catalogues", "anchors": ["mtoolkit/scientific/declustering.py:gardner_knopoff_decluster"]}
{"id": "C21", "title": "Declustering does not depend on row order", "statement": "Reordering the rows of a catalogue with pairwise distinct magnitudes reorders the cluster numbers and flags of Gardner-Knopoff and of AFTERAN the same way.", "quantifier": "every catalogue with distinct magnitudes, every permutation of its rows, both methods", "why_tests_cant": "all permutations", "anchors": ["mtoolkit/scientific/declustering.py:gardner_knopoff_decluster", "mtoolkit/scientific/declustering.py:afteran_decluster"]}
{"id": "C22", "title": "AFTERAN clusters have exactly one main shock", "statement": "Cluster numbers in use are exactly 1..n; each cluster has at least two events, exactly one of which has flag 0, and no event of the cluster has larger magnitude than that one.", "quantifier": "every catalogue, window, time window and sort", "why_tests_cant": "invariant over a mutating loop", "anchors": ["mtoolkit/scientific/declustering.py:afteran_decluster"]}
{"id": "C23", "title": "AFTERAN output shape", "statement": "The cluster and flag vectors have one position per row in catalogue order, flags are -1, 0 or 1, a row with cluster 0 has flag 0, and the returned catalogue is exactly the rows with flag 0 in original order; a non-empty catalogue never becomes empty.", "quantifier": "every catalogue, window, time window and sort", "why_tests_cant": "all catalogues", "anchors": ["mtoolkit/scientific/declustering.py:afteran_decluster"]}
{"id": "C24", "title": "AFTERAN cluster members are near their main shock", "statement": "Every event of an AFTERAN cluster is within the distance window of that cluster's kept event.", "quantifier": "every catalogue", "why_tests_cant": "needs particular interleavings of space and time", "anchors": ["mtoolkit/scientific/declustering.py:afteran_decluster"]}
{"id": "C25", "title": "AFTERAN aftershock chain", "statement": "The aftershock search marks an event exactly when it is at or after, and within the time window of, the most recently marked event (starting from the first); the foreshock search does the same backwards in time for every event not marked as an aftershock.", "quantifier": "every list of times and window", "why_tests_cant": "all lists", "anchors": ["mtoolkit/scientific/declustering.py:_find_aftershocks", "mtoolkit/scientific/declustering.py:_find_foreshocks"]}
{"id": "C26", "title": "Declustering windows grow with magnitude", "statement": "For each of the three window methods the distance and time windows are positive and non-decreasing in magnitude.", "quantifier": "every pair of magnitudes >= 0", "why_tests_cant": "real-valued inequality", "anchors": ["mtoolkit/scientific/declustering.py:GardnerKnopoffWindow", "mtoolkit/scientific/declustering.py:GruenthalWindow", "mtoolkit/scientific/declustering.py:UhrhammerWindow"]}
{"id": "C27", "title": "Decimal year", "statement": "For every date with month 1..12 and day 1..31 the decimal year lies in [year, year+1), and it is non-decreasing in calendar order and strictly increasing over the days of a 365-day year.", "quantifier": "every date", "why_tests_cant": "all dates", "anchors": ["mtoolkit/scientific/catalogue_utilities.py:decimal_year"]}
{"id": "C28", "title": "Haversine distance", "statement": "For locations with latitude in [-90,90] the distance is symmetric, zero from a point to itself, between 0 and half the circumference, and equals the earth radius times the central angle given by the spherical law of cosines; the result has one row per first-set location and one column per second-set location.", "quantifier": "every pair of locations", "why_tests_cant": "real-valued identity", "anchors": ["mtoolkit/scientific/catalogue_utilities.py:haversine"]}
{"id": "C29", "title": "Julian day", "statement": "Consecutive calendar days get consecutive Julian day numbers, and the time of day adds hours/24.", "quantifier": "every Gregorian date", "why_tests_cant": "all dates", "anchors": ["mtoolkit/scientific/catalogue_utilities.py:greg2julian"]}
{"id": "C30", "title": "Stepp table shape", "statement": "The Stepp table has one row per magnitude bin, the bins being lowm, lowm+dm, ... up to the highest tenth; each row's year is the last catalogue year minus one of the tested durations dt, 2dt, ...; with no bin the table is empty; with bins but no testable duration, or with an empty catalogue, an exception is raised.", "quantifier": "every catalogue and parameters", "why_tests_cant": "all catalogues", "anchors": ["mtoolkit/scientific/completeness.py:stepp_analysis"]}
{"id": "C31", "title": "Stepp increment lock", "statement": "With the increment lock on, completeness years do not increase as magnitude increases; without it each bin's year is the one selected for that bin alone (or the previous bin's if none passes).", "quantifier": "every catalogue and parameters", "why_tests_cant": "all catalogues", "anchors": ["mtoolkit/scientific/completeness.py:stepp_analysis"]}
{"id": "C32", "title": "Stepp counts every event once", "statement": "For each tested duration the per-bin counts sum to the number of events not older than that duration.", "quantifier": "every catalogue, dm > 0", "why_tests_cant": "partition of the real line", "anchors": ["mtoolkit/scientific/completeness.py:stepp_analysis"]}
{"id": "C33", "title": "Stepp ignores event order", "statement": "Permuting the events does not change the completeness table.", "quantifier": "every catalogue and permutation", "why_tests_cant": "all permutations", "anchors": ["mtoolkit/scientific/completeness.py:stepp_analysis"]}
{"id": "C34", "title": "Stepp uses the last violating duration", "statement": "For each bin the duration used is the last one at which the slope change exceeds the tolerance, whenever there is one.", "quantifier": "every bin", "why_tests_cant": "edge case: the only violation is at the first position", "anchors": ["mtoolkit/scientific/completeness.py:stepp_analysis"]}
{"id": "C35", "title": "Recurrence table", "statement": "The recurrence table counts every event in exactly one bin, its cumulative column is the suffix sum (first entry = number of events, non-increasing), and the annual columns are those divided by the number of years spanned.", "quantifier": "every non-empty catalogue and dmag > 0", "why_tests_cant": "all catalogues", "anchors": ["mtoolkit/scientific/recurrence.py:recurrence_table"]}
{"id": "C36", "title": "Maximum-likelihood b-value", "statement": "b_max_likelihood returns the Aki/Bender estimate over bins at or above the completeness magnitude; it is positive and at most log10(e)/(dmag/2), and invariant under shifting all magnitudes and the completeness magnitude.", "quantifier": "every histogram with at least one event above completeness, dmag > 0", "why_tests_cant": "real-valued identity and bound", "anchors": ["mtoolkit/scientific/recurrence.py:b_max_likelihood"]}
{"id": "C37", "title": "Time-varying b-value is a weighted mean", "statement": "b_maxlike_time returns the event-count-weighted mean of the per-period estimates, hence between their minimum and maximum, visiting each distinct completeness year exactly once when equal years are adjacent in the table.", "quantifier": "every catalogue and table", "why_tests_cant": "loop with data-dependent stride", "anchors": ["mtoolkit/scientific/recurrence.py:b_maxlike_time"]}
{"id": "C38", "title": "Every completeness period is used", "statement": "b_maxlike_time uses every distinct completeness year of the table exactly once.", "quantifier": "every table", "why_tests_cant": "tables with repeated non-adjacent years", "anchors": ["mtoolkit/scientific/recurrence.py:b_maxlike_time"]}
{"id": "C39", "title": "Weichert preparation", "statement": "weichert_prep counts, per magnitude bin, exactly the events whose time and magnitude bin is not below a completeness step, so the total never exceeds the number of events; the observation length of a bin is last year minus the year of the last completeness row at or below the bin plus one.", "quantifier": "every catalogue and table", "why_tests_cant": "all catalogues", "anchors": ["mtoolkit/scientific/recurrence.py:weichert_prep"]}
{"id": "C40", "title": "Weichert preparation keeps complete events", "statement": "No event that satisfies every completeness row (year >= the row's year or magnitude >= the row's magnitude) is dropped from the counts.", "quantifier": "every catalogue, table and bin widths", "why_tests_cant": "needs events sharing a bin with a completeness step", "anchors": ["mtoolkit/scientific/recurrence.py:weichert_prep"]}
{"id": "C41", "title": "Weichert result", "statement": "When weichert returns, its b-value is the last Newton iterate beta/ln 10 whose step was at most the tolerance, the second derivative is negative (so the standard error is real and positive), and rates are positive.", "quantifier": "every observation table with positive durations and at least two distinct magnitudes", "why_tests_cant": "unbounded iteration", "anchors": ["mtoolkit/scientific/recurrence.py:weichert"]}
{"id": "C42", "title": "Weichert terminates", "statement": "weichert returns for every observation table with at least one event.", "quantifier": "every table", "why_tests_cant": "non-termination cannot be observed by a test", "anchors": ["mtoolkit/scientific/recurrence.py:weichert"]}
{"id": "C43", "title": "Recurrence dispatch", "statement": "recurrence_analysis uses Weichert exactly for the name 'Weichert' and the maximum-likelihood estimate for every other name, passing the completeness columns in (year, magnitude) order and the windows unswapped.", "quantifier": "every algorithm name and arguments", "why_tests_cant": "all names", "anchors": ["mtoolkit/scientific/recurrence.py:recurrence_analysis"]}
{"id": "C44", "title": "Hastings normal CDF", "statement": "On [-5,5] the approximation lies in [0,1], is 1/2 at the mean, satisfies F(-x) = 1 - F(x) and is non-decreasing.", "quantifier": "every real argument in the range", "why_tests_cant": "real-valued inequality", "anchors": ["mtoolkit/scientific/maximum_magnitude.py:gauss_cdf_hastings"]}
{"id": "C45", "title": "Hastings CDF tails", "statement": "The approximation is non-decreasing on the whole line, 0 far below and 1 far above the mean.", "quantifier": "every real argument", "why_tests_cant": "the test grid stops at 3 standard deviations", "anchors": ["mtoolkit/scientific/maximum_magnitude.py:gauss_cdf_hastings"]}
{"id": "C46", "title": "Exponentially spaced points", "statement": "exp_spaced_points returns nsamp strictly increasing points whose first is lower and last is upper, equally spaced in exp scale.", "quantifier": "every lower < upper and integer nsamp >= 2", "why_tests_cant": "real-valued identity", "anchors": ["mtoolkit/scientific/maximum_magnitude.py:exp_spaced_points"]}
{"id": "C47", "title": "Kijko iteration terminates", "statement": "kijko_nonparametric_gauss performs at most maximum_iterations + 1 iterations for any non-negative tolerance, and returns observed maximum plus the last increment with uncertainty sqrt(sigma^2 + increment^2).", "quantifier": "every catalogue, tolerance >= 0, iteration cap and any integrand", "why_tests_cant": "unbounded iteration", "anchors": ["mtoolkit/scientific/maximum_magnitude.py:kijko_nonparametric_gauss"]}
{"id": "C48", "title": "Kijko increment is bounded", "statement": "The integral of a distribution function with values in [0,1] over increasing sample points is between 0 and the width of the sample range, so Mmax is at least the observed maximum.", "quantifier": "every increasing sample and CDF values in [0,1]", "why_tests_cant": "real-valued bound", "anchors": ["mtoolkit/scientific/maximum_magnitude.py:kijko_npg_intfunc_simps"]}
{"id": "C49", "title": "Cumulative moment", "statement": "cumulative_moment equals the moment magnitude of the width (maximum minus minimum) over the years of the catalogue of the excess of the cumulative moment over a uniform release of the same total; it does not depend on event order, and adding c to every magnitude adds c to the result unless the release is perfectly uniform (then the width is 0 and the result minus infinity).", "quantifier": "every catalogue with whole years", "why_tests_cant": "real-valued identity", "anchors": ["mtoolkit/scientific/maximum_magnitude.py:cumulative_moment"]}
{"id": "C50", "title": "Bootstrap with exact magnitudes", "statement": "With zero magnitude uncertainties the bootstrap returns the cumulative-moment estimate with standard deviation 0 whatever the random numbers are.", "quantifier": "every random stream, number of bootstraps >= 2", "why_tests_cant": "all random streams", "anchors": ["mtoolkit/scientific/maximum_magnitude.py:cum_mo_uncertainty"]}
{"id": "C51", "title": "Kernel bandwidth", "statement": "h_smooth is 0.9 times the smaller of the standard deviation and IQR/1.34, times n^(-1/5), rounded to two decimals (Silverman).", "quantifier": "every magnitude vector", "why_tests_cant": "the test vector happens to have the smaller IQR", "anchors": ["mtoolkit/scientific/maximum_magnitude.py:h_smooth"]}
{"id": "C52", "title": "Maximum magnitude dispatch", "statement": "maximum_magnitude_analysis computes an estimate for 'Kijko_Npg' and 'Cumulative_Moment' with the arguments of the right method and never returns a made-up magnitude.", "quantifier": "every algorithm name", "why_tests_cant": "all names", "anchors": ["mtoolkit/scientific/maximum_magnitude.py:maximum_magnitude_analysis"]}
{"id": "C53", "title": "Fault recurrence rates", "statement": "get_mfd returns one rate per magnitude bin between min_mag and max_mag, the rates are the successive differences of the Anderson-Luco cumulative curve (their sum telescopes), are strictly positive for 0 < b < 1.5 and proportional to the seismic slip.", "quantifier": "every fault, slip > 0, aseismic coefficient in [0,1), bin width > 0", "why_tests_cant": "real-valued identity", "anchors": ["mtoolkit/scientific/fault_calculator.py:get_mfd", "mtoolkit/scientific/fault_calculator.py:_cumulative_value"]}
{"id": "C54", "title": "Fault rates are never negative", "statement": "get_mfd never returns a negative occurrence rate.", "quantifier": "every b-value > 0", "why_tests_cant": "b-values outside the tested one", "anchors": ["mtoolkit/scientific/fault_calculator.py:get_mfd"]}
{"id": "C55", "title": "Simple fault geometry", "statement": "SimpleFaultGeo is constructed exactly for traces of at least two points within longitude/latitude range, 0 <= upper depth < lower depth and 0 < dip <= 90, and raises ValueError for all other parameters; its length is non-negative, unchanged by reversing the trace, additive over concatenation, its width and area are positive/non-negative with width at least the depth range.", "quantifier": "every trace and parameters", "why_tests_cant": "all traces; real-valued bounds", "anchors": ["mtoolkit/geo/simple_fault.py:SimpleFaultGeo"]}
{"id": "C56", "title": "Tectonic region validation", "statement": "A tectonic region is constructed exactly when each list has one weight per value, models are supported, values are positive and each weight list sums to one; the first-value accessors of a constructed region never fail.", "quantifier": "every parameter dictionary", "why_tests_cant": "all lists", "anchors": ["mtoolkit/geo/tectonic_region.py:TectonicRegion"]}
{"id": "C57", "title": "Weights that sum to one are accepted", "statement": "Decimal weights whose exact sum is one are accepted.", "quantifier": "every list of decimal weights", "why_tests_cant": "binary rounding of the sum", "anchors": ["mtoolkit/geo/tectonic_region.py:TectonicRegion.check_weights"]}
{"id": "C58", "title": "Tectonic region builder", "statement": "create_tect_region_by_name builds the region of the named class with its documented defaults for the omitted parameters and raises ValueError for any other name.", "quantifier": "every name and parameter combination", "why_tests_cant": "all names", "anchors": ["mtoolkit/geo/tectonic_region.py:TectonicRegionBuilder"]}
{"id": "C59", "title": "NRML round trip", "statement": "Serialising area sources that share their document ids and reading the file back yields equal area sources in the same order.", "quantifier": "every list of area sources whose numbers survive text conversion", "why_tests_cant": "all documents", "anchors": ["nrml/writer.py:AreaSourceWriter.serialize", "nrml/reader.py:NRMLReader.read"]}
{"id": "C60", "title": "NRML keeps document ids", "statement": "Every area source read back has the nrml id and source model id it was written with.", "quantifier": "every non-empty list of area sources", "why_tests_cant": "heterogeneous lists", "anchors": ["nrml/writer.py:_write_header"]}
{"id": "C61", "title": "NRML keeps numbers", "statement": "Every number in an area source read back equals the number written.", "quantifier": "every number", "why_tests_cant": "str() keeps 12 significant digits", "anchors": ["nrml/writer.py:_write_truncated_guten_richter"]}
{"id": "C62", "title": "Reader yields every area source", "statement": "Reading yields one object per areaSource element, in document order, each carrying the ids of its own enclosing elements, whatever other elements are in the document.", "quantifier": "every document", "why_tests_cant": "all trees", "anchors": ["nrml/reader.py:NRMLReader.read", "nrml/reader.py:_parse_area_source"]}
{"id": "C63", "title": "Pipeline construction", "statement": "The built preprocessing pipeline is exactly: read catalogue, read or default source model, build matrix, defaults, the configured jobs in order, then the three storing jobs iff jobs are configured and a result file is given, or the retrieve job iff no jobs are configured and a table file is given; an unknown job name raises RuntimeError and runs nothing.", "quantifier": "every configuration", "why_tests_cant": "all configurations", "anchors": ["mtoolkit/workflow.py:PreprocessingBuilder.build", "mtoolkit/workflow.py:ProcessingBuilder.build", "mtoolkit/workflow.py:PipeLineBuilder.append_jobs"]}
{"id": "C64", "title": "Pipeline execution", "statement": "Running a pipeline runs its jobs in list order, each on the context left by the previous one, and stops at the first exception leaving the effects of the completed jobs.", "quantifier": "every job list and failure position", "why_tests_cant": "all histories", "anchors": ["mtoolkit/workflow.py:PipeLine.run"]}
{"id": "C65", "title": "Per-source processing", "statement": "After preprocessing, processing jobs run once per source model in order, on the events of the declustered catalogue inside that source; they change only a-value, b-value, minimum and maximum magnitude (and the sigma attributes) of that source.", "quantifier": "every configuration, source list and catalogue", "why_tests_cant": "all histories", "anchors": ["mtoolkit/workflow.py:Workflow.start", "mtoolkit/jobs.py:recurrence", "mtoolkit/jobs.py:maximum_magnitude"]}
{"id": "C66", "title": "Sources do not interfere", "statement": "In runs that complete, the result for a source model does not depend on which other source models are in the file or on their order, and swapping the two processing jobs gives the same result.", "quantifier": "every source list, permutation, job order", "why_tests_cant": "all histories", "anchors": ["mtoolkit/workflow.py:Workflow.start"]}
{"id": "C67", "title": "Preprocessed file content", "statement": "The preprocessed catalogue written is exactly the entries of the input catalogue, unaltered and in order, whose selection flag is 0; in particular it is a sub-catalogue of the input.", "quantifier": "every catalogue and at most one declustering job", "why_tests_cant": "all histories", "anchors": ["mtoolkit/jobs.py:store_preprocessed_catalog", "mtoolkit/jobs.py:create_selected_eq_vector"]}
{"id": "C68", "title": "Flags stay aligned with the catalogue", "statement": "At every point of any preprocessing run the flag vector has one position per catalogue row and the working catalogue is the rows flagged 0.", "quantifier": "every sequence of preprocessing jobs", "why_tests_cant": "all job sequences", "anchors": ["mtoolkit/jobs.py:gardner_knopoff", "mtoolkit/jobs.py:afteran", "mtoolkit/jobs.py:create_selected_eq_vector"]}
{"id": "C69", "title": "Completeness table file round trip", "statement": "A completeness table stored and retrieved has the same shape and every value is the original rounded to five decimals, so a table whose values have at most five decimals is recovered exactly.", "quantifier": "every table", "why_tests_cant": "all tables", "anchors": ["mtoolkit/jobs.py:store_completeness_table", "mtoolkit/jobs.py:retrieve_completeness_table"]}
{"id": "C70", "title": "Two-step workflow equivalence", "statement": "Running preprocessing, storing, and then processing the stored catalogue with the stored table gives the same recurrence input as running everything in one go.", "quantifier": "every catalogue and configuration", "why_tests_cant": "compares two executions", "anchors": ["tests/qa_tests/test_equivalent_workflows.py", "mtoolkit/jobs.py:recurrence"]}
{"id": "C71", "title": "Zones without events keep their defaults", "statement": "If geographical filtering leaves no event in a source, the source keeps its default recurrence values and the workflow goes on.", "quantifier": "every configuration with an empty zone", "why_tests_cant": "documented behaviour on an edge case", "anchors": ["docs/source/user/area_source.rst:65-69", "mtoolkit/jobs.py:recurrence"]}
{"id": "C72", "title": "Result file only after success", "statement": "The NRML result is written only if every job of both pipelines succeeded; a failure at any point leaves an existing result file untouched.", "quantifier": "every configuration and failure point", "why_tests_cant": "all crash points", "anchors": ["main.py"]}
{"id": "C73", "title": "Geographic filter", "statement": "The events passed on for a source are exactly the catalogue rows whose (longitude, latitude) point is strictly inside the source polygon, in catalogue order; an invalid polygon raises; without a source model every row is passed on unchanged.", "quantifier": "every catalogue and polygon", "why_tests_cant": "all catalogues", "anchors": ["mtoolkit/catalog_filter.py:SourceModelCatalogFilter.filter_eqs", "mtoolkit/catalog_filter.py:NullCatalogFilter", "mtoolkit/catalog_filter.py:CatalogFilter.filter_eqs"]}
{"id": "C74", "title": "Default values job", "statement": "Before any preprocessing job the flags are all 0 and the completeness table is the single row (smallest year, smallest magnitude), so with no completeness job no event is removed for incompleteness.", "quantifier": "every non-empty catalogue", "why_tests_cant": "all catalogues", "anchors": ["mtoolkit/jobs.py:create_default_values"]}
{"id": "C75", "title": "Command line", "statement": "With no arguments help is printed and nothing runs; otherwise the workflow runs only if the configuration file exists. The log file debug.log is opened exactly when -d is given.", "quantifier": "every command line", "why_tests_cant": "all argument lists", "anchors": ["mtoolkit/console.py:cmd_line", "main.py"]}
{"id": "C76", "title": "Haversine distance is a metric", "statement": "The distance between two locations is never longer than the sum of the distances via any third location (triangle inequality), so distance windows compose.", "quantifier": "every three locations and every non-negative radius", "why_tests_cant": "a universally quantified inequality over reals", "anchors": ["mtoolkit/catalogue_utilities.py:haversine"]}
{"id": "C77", "title": "Kijko estimate is not below the observed maximum", "statement": "If every event selected for the Kijko estimate lies within five kernel bandwidths of the smallest one, the returned maximum magnitude is at least the observed maximum and its standard deviation at least the one of the observed maximum.", "quantifier": "every catalogue meeting the condition, every tolerance, iteration limit and number of samples", "why_tests_cant": "needs the whole iteration, sample points, kernel sums and integral for all catalogues", "anchors": ["mtoolkit/scientific/maximum_magnitude.py:kijko_nonparametric_gauss"]}
{"id": "C78", "title": "Kijko uses the largest events", "statement": "The magnitudes entering the Kijko estimate are the number_earthquakes largest of the catalogue (all of them if there are fewer).", "quantifier": "every catalogue and positive number_earthquakes", "why_tests_cant": "all orders and ties of magnitudes", "anchors": ["mtoolkit/scientific/maximum_magnitude.py:kijko_nonparametric_gauss"]}
{"id": "C79", "title": "Quantiles", "statement": "The quantile used by h_smooth is the piecewise linear function through the points ((i-0.4)/(n+0.2), i-th smallest magnitude), constant beyond the first and the last.", "quantifier": "every magnitude vector with at least two values, every probability", "why_tests_cant": "all vectors and probabilities, including the ends", "anchors": ["mtoolkit/scientific/maximum_magnitude.py:h_smooth"]}
{"id": "C80", "title": "Fault length and end points", "statement": "The length of a constructed fault is at least the great-circle distance between the first and the last point of its trace.", "quantifier": "every trace with at least two points", "why_tests_cant": "needs the triangle inequality on the sphere for all points", "anchors": ["mtoolkit/geo/simple_fault.py:get_length"]}
{"id": "C81", "title": "Sign of the fault rates", "statement": "On a constructed region and fault every occurrence rate returned by get_mfd is positive, zero or negative exactly as b_value is below, equal to or above the slope of the moment scaling relation (1.5 by default).", "quantifier": "every b-value other than 0, slip > 0, aseismic coefficient in [0,1), bin width > 0", "why_tests_cant": "all real parameters", "anchors": ["mtoolkit/scientific/fault_calculator.py:get_mfd"]}
{"id": "C82", "title": "Integer columns", "statement": "A text is accepted in an integer column exactly when it is optional blanks, an optional sign, at least one decimal digit and optional blanks, and the stored integer is its decimal value.", "quantifier": "every text", "why_tests_cant": "all texts of every length", "anchors": ["mtoolkit/eqcatalog.py:convert_values"]}
{"id": "C83", "title": "CSV records survive writing and reading", "statement": "Any list of records written by the csv writer, with any texts free of NUL bytes, is read back by the csv reader as the same list.", "quantifier": "every list of records, any number of columns, any text", "why_tests_cant": "quotes, commas and line breaks in every combination", "anchors": ["mtoolkit/eqcatalog.py:write_rows", "mtoolkit/eqcatalog.py:read"]}
{"id": "C84", "title": "A source object says what its element says", "statement": "An area source object is produced exactly for an areaSource element that has all its parts with readable numbers, and every field of the object is the corresponding attribute, text or number of that element (first element of each name), with the ids of its own enclosing elements.", "quantifier": "every element with any children in any order", "why_tests_cant": "all documents", "anchors": ["nrml/reader.py:_parse_area_source"]}
{"id": "C85", "title": "Source writer failures", "statement": "Serialising an empty list of area sources raises IndexError; a source without id, srs name or type attribute makes the whole serialisation raise.", "quantifier": "every list of area sources", "why_tests_cant": "all lists and positions of the bad source", "anchors": ["nrml/writer.py:AreaSourceWriter.serialize"]}
{"id": "C86", "title": "Only the configured outputs are written", "statement": "A run, successful or failing at any point, changes no file other than the preprocessed catalogue, the completeness table and the result file named in its configuration; in particular the input catalogue and the source model are not modified unless they are also named as outputs.", "quantifier": "every configuration, every file system content, every outcome", "why_tests_cant": "quantifies over all runs and all paths", "anchors": ["mtoolkit/jobs.py:store_preprocessed_catalog", "mtoolkit/jobs.py:store_completeness_table", "main.py"]}
{"id": "C87", "title": "Result files need a directory part", "statement": "If result_file is a bare file name the workflow runs completely and then raises IOError, so no result can ever be written to the current directory by its bare name. If it is a name in a directory d (d/name, or /name for the root), a missing d gives IOError after the run and an existing d gets the printed result.", "quantifier": "every configuration with a result file name, bare or with a directory", "why_tests_cant": "a consequence of os.path.dirname on all such names", "anchors": ["main.py", "nrml/writer.py"]}
{"id": "C88", "title": "Hastings accuracy", "statement": "Within five standard deviations of the mean, gauss_cdf_hastings differs from the normal distribution function by at most 2.5e-4, the accuracy of the published approximation it implements.", "quantifier": "every mean, every positive deviation, every argument in the range", "why_tests_cant": "the repository's test compares the function with values computed by the same formula, and no finite table of values bounds the error in between", "anchors": ["mtoolkit/scientific/maximum_magnitude.py:gauss_cdf_hastings"]}
{"id": "C89", "title": "Weichert a-value is a cumulative rate", "statement": "The a-value returned by weichert is the annual rate of events at or above the reference magnitude under the fitted Gutenberg-Richter law, so it does not increase with the reference magnitude, and its error is the a-value divided by the square root of the number of events.", "quantifier": "every observation table and reference magnitude, including 0", "why_tests_cant": "the tests fix one reference magnitude; the claim relates results for all of them", "anchors": ["mtoolkit/scientific/recurrence.py:weichert"]}
{"id": "C90", "title": "Error of the maximum-likelihood a-value", "statement": "For a table with one row the error of the a-value returned by b_maxlike_time comes from the error of the b-value alone: with the same data it does not depend on the reference magnitude.", "quantifier": "every catalogue, completeness row and pair of reference magnitudes", "why_tests_cant": "relates results for different reference magnitudes", "anchors": ["mtoolkit/scientific/recurrence.py:b_maxlike_time"]}
{"id": "C91", "title": "Every complete event enters the b-value", "statement": "The magnitude bins from which b_maxlike_time computes the b-value of a period hold all events of the period at or above its completeness magnitude.", "quantifier": "every catalogue, bin width and completeness magnitude", "why_tests_cant": "depends on how the completeness magnitude falls within a bin", "anchors": ["mtoolkit/scientific/recurrence.py:b_maxlike_time", "mtoolkit/scientific/recurrence.py:b_max_likelihood", "mtoolkit/scientific/recurrence.py:recurrence_table"]}
{"id": "C92", "title": "Maximum-likelihood annual rate", "statement": "For a table with one row and the completeness magnitude as reference, the a-value of b_maxlike_time is the number of complete events divided by the number of years from the completeness year to the last year of the catalogue.", "quantifier": "every catalogue and completeness row", "why_tests_cant": "the tests compare one catalogue with recorded output", "anchors": ["mtoolkit/scientific/recurrence.py:b_maxlike_time"]}
{"id": "C93", "title": "Weichert's b-value is the maximum-likelihood estimate", "statement": "Whenever weichert returns, the likelihood has a unique maximum, the b-value times ln 10 is within the stability tolerance of it, and the reported error is the asymptotic standard error (inverse square root of the curvature at the maximum) up to a factor between exp(-range*tolerance) and exp(range*tolerance).", "quantifier": "every observation table, start and tolerance (tolerance times magnitude range at most 0.3) for which weichert returns", "why_tests_cant": "the code stops when two Newton iterates are close, which says nothing by itself about the distance to the maximum; a test compares a few outputs with stored numbers", "anchors": ["mtoolkit/scientific/recurrence.py:weichert"]}
{"id": "C94", "title": "The event matrix is the catalogue file", "statement": "Once the catalogue and the source model have been read, building the event matrix never raises, and its rows are the records of the catalogue file one by one and in file order: year, month, day, longitude, latitude, Mw and sigmaMw are each the number in the column of that name (sigmaMw 0 where it is missing or negative).", "quantifier": "every catalogue file that is accepted, every number format, every dictionary order", "why_tests_cant": "a test compares a small matrix; a swapped column or a lost record in another file is not seen, and every later job addresses columns by position", "anchors": ["mtoolkit/jobs.py:create_catalog_matrix", "mtoolkit/jobs.py:CATALOG_MATRIX_FIXED_COLOUMNS", "mtoolkit/eqcatalog.py:EqEntryReader"]}
{"id": "C95", "title": "Declustering a declustered catalogue removes nothing", "statement": "Gardner-Knopoff declustering run again, with the same windows and foreshock proportion, on the events it kept removes none of them.", "quantifier": "every catalogue, window method, foreshock proportion and sort", "why_tests_cant": "needs a second run on every result; the tests run each algorithm once", "anchors": ["mtoolkit/scientific/declustering.py:gardner_knopoff_decluster", "mtoolkit/jobs.py:gardner_knopoff"]}
{"id": "C96", "title": "Every event removed by Gardner-Knopoff lies in the window of a kept event", "statement": "For each event flagged as foreshock or aftershock there is an event that was kept whose time and distance window contains it.", "quantifier": "every catalogue, window method and foreshock proportion", "why_tests_cant": "the tests compare flags of given catalogues with expected vectors; they never relate a removed event to a kept one", "anchors": ["mtoolkit/scientific/declustering.py:gardner_knopoff_decluster", "mtoolkit/jobs.py:gardner_knopoff"]}
{"id": "C97", "title": "An event far from all others does not change the declustering of the others", "statement": "Adding to a catalogue an event that lies in no other event's window and has no other event in its own leaves the cluster number and flag of every other event unchanged, and the added event is kept.", "quantifier": "every catalogue, added event, position, window method and foreshock proportion", "why_tests_cant": "compares runs on all pairs of catalogues that differ in one event; the tests use fixed catalogues", "anchors": ["mtoolkit/scientific/declustering.py:gardner_knopoff_decluster", "mtoolkit/jobs.py:gardner_knopoff"]}
{"id": "C98", "title": "Recurrence and maximum magnitude do not depend on the order of the events", "statement": "Listing the events of a catalogue in another order changes none of the results of the recurrence analysis (either method) nor of Kijko's maximum magnitude estimate and its uncertainty.", "quantifier": "every catalogue, every reordering, every completeness table and configuration", "why_tests_cant": "all reorderings, including equal magnitudes", "anchors": ["mtoolkit/scientific/recurrence.py:recurrence_analysis", "mtoolkit/scientific/maximum_magnitude.py:kijko_nonparametric_gauss"]}
{"id": "C99", "title": "Declustering does not depend on the frame of reference", "statement": "Counting the years from another epoch, adding the same angle to all longitudes, or writing longitudes with other multiples of 360 degrees (0..360 instead of -180..180) changes no cluster number, no flag and no main shock, for Gardner-Knopoff and AFTERAN.", "quantifier": "every catalogue, epoch shift, rotation and per-event number of turns, both methods and all windows", "why_tests_cant": "events on both sides of the 180 degree meridian in every combination", "anchors": ["mtoolkit/scientific/declustering.py:gardner_knopoff_decluster", "mtoolkit/scientific/declustering.py:afteran_decluster", "mtoolkit/scientific/catalogue_utilities.py:haversine"]}
{"id": "C100", "title": "Analyses do not depend on the epoch of the years", "statement": "Counting the years of the catalogue and of the completeness table from another epoch moves the years of Stepp's completeness table by the same amount, and changes neither the completeness flags, nor the recurrence parameters of either method, nor the maximum magnitude.", "quantifier": "every catalogue, completeness table, shift and configuration", "why_tests_cant": "no finite set of shifts covers the binning of years", "anchors": ["mtoolkit/scientific/completeness.py:stepp_analysis", "mtoolkit/scientific/completeness.py:selected_eq_flag_vector", "mtoolkit/scientific/recurrence.py:recurrence_analysis", "mtoolkit/scientific/maximum_magnitude.py:maximum_magnitude_analysis"]}
{"id": "C101", "title": "Declustering does not depend on row order among equal magnitudes", "statement": "Reordering the rows of a catalogue in which several events have the same magnitude reorders the main shocks and changes nothing else, for Gardner-Knopoff and AFTERAN.", "quantifier": "every catalogue and every permutation of its rows", "why_tests_cant": "all permutations; the outcome depends on the unstable sort", "anchors": ["mtoolkit/scientific/declustering.py:gardner_knopoff_decluster", "mtoolkit/scientific/declustering.py:afteran_decluster"]}
{"id": "C102", "title": "Every schema-valid source model is read", "statement": "NRMLReader.read yields every area source of a document that is valid against nrml.xsd, without an exception.", "quantifier": "every document valid against the schema", "why_tests_cant": "the schema admits infinitely many documents; the tests read two", "anchors": ["nrml/reader.py:NRMLReader.read", "nrml/schema/nrml_seismic.xsd:AreaSource", "nrml/schema/gmlsf.xsd:Polygon"]}
{"id": "C103", "title": "Reading a source model loses nothing the schema allows", "statement": "Two valid area sources that differ in their geometry or rate models are read as different sources.", "quantifier": "every valid area source", "why_tests_cant": "a test compares a document with its own reading, not two documents with each other", "anchors": ["nrml/reader.py:_parse_area_boundary", "nrml/reader.py:_parse_rupture_rate_model"]}
{"id": "C104", "title": "What was read from a valid source model can be written", "statement": "AreaSourceWriter.serialize writes the sources that NRMLReader.read yielded for a valid document, without an exception.", "quantifier": "every document valid against the schema", "why_tests_cant": "depends on every optional attribute of the schema", "anchors": ["nrml/writer.py:AreaSourceWriter.serialize", "nrml/reader.py:NRMLReader.read"]}
{"id": "C105", "title": "What is written is valid against the schema", "statement": "The file written by AreaSourceWriter.serialize is valid against nrml.xsd.", "quantifier": "every list of sources that the writer accepts", "why_tests_cant": "the test validates the output for one list of sources", "anchors": ["nrml/writer.py:AreaSourceWriter.serialize", "mtoolkit/source_model.py:default_area_source"]}
{"id": "C106", "title": "The result of a run is a valid source model", "statement": "The result file of a run that succeeded is valid against nrml.xsd, so that it can be given to the program again.", "quantifier": "every configuration, catalogue and source model for which the run succeeds", "why_tests_cant": "quantifies over whole runs", "anchors": ["main.py", "mtoolkit/jobs.py:create_default_source_model", "nrml/writer.py:AreaSourceWriter.serialize"]}
{"id": "C107", "title": "AFTERAN clusters are chains in time", "statement": "Every event that AFTERAN flags as aftershock (foreshock) is reached from the kept event of its cluster by steps through aftershocks (foreshocks) of the same cluster, each step going to an event of no larger magnitude, not earlier (not later) than the previous one and at most the given number of days, counted in 365-day years, away from it; so aftershocks are never before and foreshocks never after the kept event.", "quantifier": "every catalogue with valid months, window method, time window and sort", "why_tests_cant": "follows from an invariant of a loop that mutates cluster numbers and flags in place", "anchors": ["mtoolkit/scientific/declustering.py:afteran_decluster", "mtoolkit/scientific/declustering.py:_find_aftershocks", "mtoolkit/scientific/declustering.py:_find_foreshocks"]}
{"id": "C108", "title": "A run depends on its input files only and changes its stored files only", "statement": "Take one configuration and two sets of files that agree on the configured catalogue file, the configured source model file and, when the configuration retrieves a completeness table (it names Retrieve_completeness_table, or it lists no preprocessing jobs), the configured completeness table file. With the same random draws and the same directories, the two runs end in the same way (both complete or raise the same exception), with the same context (catalogue, sources with their recurrence and maximum-magnitude values, flags, table, selection), and every file either has the same content after both runs or was left alone by both. In particular earlier output files, and a table file that is only written, have no influence. A run, successful or not, changes no file except the preprocessed catalogue and the completeness table when a job stores them, and the result file.", "quantifier": "every configuration, every two file systems, every world (parsers, directories, random draws), every arithmetic", "why_tests_cant": "It relates two runs over all file systems; a test fixes one set of files and cannot show that a stale output is never read.", "anchors": ["mtoolkit/jobs.py", "mtoolkit/workflow.py:PipeLine.run", "mtoolkit/workflow.py:Workflow.start", "main.py"]}
{"id": "C109", "title": "Running the same configuration again", "statement": "When none of the files a configuration reads is also one it writes, running it a second time on the files left by the first run ends in the same way (also when the first run failed half way), with the same context, and leaves every file exactly as the first run left it.", "quantifier": "every configuration whose read and written files are distinct, every file system, every arithmetic; same random draws", "why_tests_cant": "Idempotence of the whole workflow including failed runs is a statement about all file systems and all configurations.", "anchors": ["mtoolkit/jobs.py", "mtoolkit/workflow.py:PipeLine.run", "mtoolkit/workflow.py:Workflow.start", "main.py"]}
{"id": "C110", "title": "Counting every event again", "statement": "If every event of a catalogue is listed n times, in any order, recurrence_analysis fails in the same cases with the same error; otherwise b is the same and the rate at the reference magnitude is n times as large. Weichert's error of b is divided by the square root of n exactly (and the error of its rate is multiplied by it); the maximum likelihood error of b falls to at most that.", "quantifier": "every n > 0, catalogue, order of the copies, completeness table, windows, reference magnitude, both methods and every number of Newton passes; exact real arithmetic", "why_tests_cant": "A test multiplies one catalogue and compares rounded numbers; it cannot cover every table, every window and every order, nor the runs that fail or do not converge.", "anchors": ["mtoolkit/scientific/recurrence.py:recurrence_analysis", "mtoolkit/scientific/recurrence.py:b_maxlike_time", "mtoolkit/scientific/recurrence.py:weichert"]}
{"id": "C111", "title": "Another zero of the magnitude scale", "statement": "Adding the same multiple of 0.1 to every event magnitude, every completeness magnitude and the reference magnitude leaves the results of recurrence_analysis unchanged. Weichert: all four numbers or the error (when no completeness row starts after the last event, neither reference magnitude is 0, and no magnitude lies halfway between two tenths or the multiple is even). Maximum likelihood: b, its error and the rate (when every completeness row has an event half a window above it); the error of the rate is not invariant.", "quantifier": "every catalogue, completeness table, window, reference magnitude, number of passes and every multiple of 0.1 under the stated conditions; exact real arithmetic", "why_tests_cant": "The invariance relates infinitely many pairs of runs; a test shifts one catalogue by one amount, and the rate error is only wrong away from the magnitudes of the fixtures.", "anchors": ["mtoolkit/scientific/recurrence.py:recurrence_analysis", "mtoolkit/scientific/recurrence.py:b_maxlike_time", "mtoolkit/scientific/recurrence.py:weichert_prep", "mtoolkit/scientific/recurrence.py:weichert"]}
{"id": "C112", "title": "Moment budget of a fault", "statement": "The earthquakes whose rates get_mfd returns release no more seismic moment per year than the seismic slip accumulates on the fault: sum of rate times moment is at most shear modulus times fault area times slip rate.", "quantifier": "every region, constructed fault, slip, aseismic coefficient, 0 < b < d, bins, given or computed maximum magnitude and moment scaling; exact real arithmetic", "why_tests_cant": "The balance is an identity between an integral over magnitudes and the geometry; a test compares a list of rates with reference numbers and cannot show for which faults the sum of moments stays below the accumulated moment.", "anchors": ["mtoolkit/scientific/fault_calculator.py:get_mfd", "mtoolkit/geo/simple_fault.py:SimpleFaultGeo"]}
{"id": "C113", "title": "The result as source model", "statement": "Taking the NRML file written by a run as the source model file and running the same settings again completes and leaves the same result file (and the same other files). REFUTED in general: str prints twelve digits, so a zone whose boundary has more digits moves and an earthquake next to the boundary changes sides. It holds when the boundary coordinates have at most twelve digits and the printed numbers lie between 1e-280 and 1e300, whatever their digits.", "quantifier": "every configuration that lists only Recurrence and MaximumMagnitude for processing, every readable source model, catalogue and file contents, every completed run", "why_tests_cant": "A test runs one model twice; it cannot show that rounding the printed rates never changes the next result for every catalogue and every set of zones, and the fixtures have few digits.", "anchors": ["nrml/writer.py:AreaSourceWriter", "nrml/reader.py:NRMLReader", "mtoolkit/workflow.py:PipeLine", "mtoolkit/jobs.py:create_default_source_model"]}
{"id": "C114", "title": "Earthquakes outside every zone", "statement": "Without preprocessing jobs, adding, removing or moving earthquakes that lie in none of the sources changes neither whether a run completes nor its result file. REFUTED without a completeness table: then the oldest year and smallest magnitude of the whole catalogue are taken as the table, so one old small earthquake in no zone changes the recurrence of every zone. It holds with a table, or when that year and magnitude stay the same.", "quantifier": "every configuration without preprocessing jobs, source model, pair of catalogues differing outside the sources, completed run; every arithmetic", "why_tests_cant": "A test compares runs for a few catalogues; independence of all events outside arbitrary polygons, and the hidden dependence through the default table, need a statement about all pairs of catalogues.", "anchors": ["mtoolkit/catalog_filter.py:SourceModelCatalogFilter", "mtoolkit/jobs.py:create_default_values", "mtoolkit/workflow.py:Workflow.start"]}
{"id": "C115", "title": "Columns the result does not depend on", "statement": "Changing the columns of the catalogue other than year, month, day, longitude, latitude, Mw and sigmaMw, as long as it stays readable, changes neither whether a run completes nor any of its files except the stored catalogue.", "quantifier": "every configuration (all preprocessing jobs included), pair of readable catalogues agreeing in the seven columns, completed run; every arithmetic", "why_tests_cant": "No test can vary all other columns over all catalogues and configurations; a job that began to use depth or time of day would pass the fixtures.", "anchors": ["mtoolkit/jobs.py:create_catalog_matrix", "mtoolkit/jobs.py:store_preprocessed_catalog", "main.py"]}
{"id": "C116", "title": "Order of the rows of the completeness table", "statement": "Writing the rows of the completeness table in another order changes neither which earthquakes count as complete nor the recurrence parameters.", "quantifier": "every catalogue, table and permutation of its rows, method, window and reference magnitude", "why_tests_cant": "A test uses one table in one order, usually the sorted one; that no order matters is a statement about all permutations, and it turns out to hold for one method and not for the other.", "anchors": ["mtoolkit/scientific/completeness.py:selected_eq_flag_vector", "mtoolkit/scientific/recurrence.py:recurrence_analysis", "mtoolkit/scientific/recurrence.py:weichert_prep", "mtoolkit/scientific/recurrence.py:b_maxlike_time"]}
{"id": "C117", "title": "Completeness and maximum magnitude with another zero of the magnitude scale", "statement": "Adding one number to every magnitude (and to the magnitudes of a given completeness table) leaves the selection of complete events unchanged, raises Stepp's completeness magnitudes by it (multiples of 0.1), and raises Kijko's maximum magnitude by it with the same error.", "quantifier": "every catalogue, table, parameters and number (a multiple of 0.1 for Stepp); exact arithmetic", "why_tests_cant": "A relation between two runs for every catalogue and every shift; exponentially spaced integration points and rounded bins make it non-obvious, and fixtures hold one catalogue.", "anchors": ["mtoolkit/scientific/completeness.py:stepp_analysis", "mtoolkit/scientific/completeness.py:selected_eq_flag_vector", "mtoolkit/scientific/maximum_magnitude.py:kijko_nonparametric_gauss", "mtoolkit/scientific/maximum_magnitude.py:exp_spaced_points"]}
{"id": "C118", "title": "A wider declustering window never leaves more main shocks", "statement": "Declustering the same catalogue with a longer foreshock window (Gardner-Knopoff) or a longer time window (AFTERAN) leaves no more main shocks than with the shorter one.", "quantifier": "For every catalogue, every magnitude window formula and every two foreshock proportions fs <= fs' (time windows tw <= tw').", "why_tests_cant": "A test compares two runs on one catalogue; that widening a window can free smaller events, because the event that used to remove them is now itself removed and its cluster is not formed, needs a particular chain of three distances, and that nothing changes when the wider window removes nothing is a statement about every catalogue and every sort.", "anchors": ["mtoolkit/scientific/declustering.py:gardner_knopoff_decluster", "mtoolkit/scientific/declustering.py:afteran_decluster"]}
{"id": "C119", "title": "Cumulative-moment estimate and the observed maximum", "statement": "The maximum magnitude estimated by cumulative_moment is not below the magnitude of any event of the catalogue it is estimated from, and not above the magnitude of all its events together.", "quantifier": "For every catalogue of whole years and magnitudes.", "why_tests_cant": "A test compares one estimate with one catalogue; catalogues whose release is steady, for which the estimate falls below the observed maximum and down to minus infinity, have to be looked for, and the bounds that do hold are inequalities between sums over every catalogue.", "anchors": ["mtoolkit/scientific/maximum_magnitude.py:cumulative_moment", "mtoolkit/scientific/maximum_magnitude.py:cum_mo_uncertainty"]}
{"id": "C120", "title": "Cumulative moment of copied events and of reversed time", "statement": "If every event is listed n times, in any order, cumulative_moment rises by 2/3 of the decimal logarithm of n; if the years are counted backwards from any year it stays the same (also when it fails).", "quantifier": "For every catalogue of whole years and magnitudes, every n > 0 and every year; the first part for catalogues whose moment release is not perfectly uniform.", "why_tests_cant": "The two relations compare two runs on catalogues of any size; that the width of the deviation from uniform release is symmetric in time is a statement about all partial sums, not about one value.", "anchors": ["mtoolkit/scientific/maximum_magnitude.py:cumulative_moment"]}
{"id": "C121", "title": "Stepp's completeness table when events are listed several times", "statement": "Listing every event of the catalogue n times, in any order, does not change the completeness table of Stepp's analysis.", "quantifier": "every catalogue of (year, magnitude) pairs whose number of events times number of years is at most 10^12, every n > 0, every magnitude and time window, every tolerance up to 3, with and without the increment lock", "why_tests_cant": "Two merged catalogues list the same shocks twice; the table depends on the logarithms of rate deviations with a floor for empty bins, and only an argument over all counts shows that the floor never moves a decision.", "anchors": ["mtoolkit/scientific/completeness.py:stepp_analysis"]}
{"id": "C122", "title": "Magnitudes in tenths are counted in their own bin (binary64)", "statement": "For a catalogue whose magnitudes are given to one decimal (0.0 to 10.0, as doubles) and bins of width 0.1, recurrence_table counts in row k exactly the events whose magnitude is the smallest magnitude plus k tenths. False in double precision: with magnitudes 3.0 and 3.3 the bin of 3.3 is empty. What holds: no event is lost, every event is counted in its own bin or in the one just below, and when the smallest magnitude is at least 4.0 every row is exact.", "quantifier": "every non-empty list of magnitudes z/10 with 0 <= z <= 100, every non-empty list of years, every mathematical library", "why_tests_cant": "The bin edges are accumulated rounding results; which starts misplace which tenths can only be settled by checking all 101 starts against all magnitudes and all catalogues.", "anchors": ["mtoolkit/scientific/recurrence.py:recurrence_table"]}
{"id": "C123", "title": "Weichert's preparation keeps every complete event (binary64, tenths)", "statement": "For whole years and magnitudes given to one decimal between 4.0 and 10.0, with d_m = 0.1 and d_t = 1 as doubles, weichert_prep counts in each magnitude bin exactly the events of that magnitude that every completeness row covers (from the row's year on, or from its magnitude on). False in double precision: with the row (1970, 4.3) the event (1960, 4.3) is dropped when the smallest magnitude is 4.0. What holds: no uncovered event is ever counted, every event covered strictly is, and with completeness magnitudes half-way between tenths (4.25 for 4.3) the counts are exact.", "quantifier": "every non-empty list of events with |year| <= 10^6 and magnitude z/10, 40 <= z <= 100, every non-empty completeness table, every mathematical library", "why_tests_cant": "Whether a computed edge falls below a completeness magnitude depends on the rounding for that start and that row; a test shows one combination, the claim is about all starts, rows and catalogues.", "anchors": ["mtoolkit/scientific/recurrence.py:weichert_prep"]}
{"id": "C124", "title": "Decimal years keep calendar order in double precision", "statement": "For every whole year up to a million in absolute value and every date, the decimal year computed in double precision lies in [year, year+1), is within 1e-9 of the exact value, and a later date never gets a smaller value; it gets a strictly greater one unless the earlier date is a 29 February.", "quantifier": "every pair of dates with |year| <= 10^6, every mathematical library", "why_tests_cant": "two roundings per date; the order has to survive them for all pairs of dates", "anchors": ["mtoolkit/scientific/catalogue_utilities.py:decimal_year"]}
{"id": "C125", "title": "Equality of tectonic regions", "statement": "Among the tectonic regions that the constructor accepts (in double precision), == is reflexive, symmetric and transitive and != is its negation; two equal regions have the same identifier, models, shear moduli and displacement ratios, and give the same activity rates (or the same exception) for every fault.", "quantifier": "all regions accepted by TectonicRegion.__init__, all faults and arguments of get_mfd, every mathematical library", "why_tests_cant": "NaN and signed zeros make == of floats neither reflexive nor the identity; that the constructor's checks exclude them, and that equal objects are interchangeable, is a statement about all inputs.", "anchors": ["mtoolkit/geo/tectonic_region.py:TectonicRegion.__eq__", "mtoolkit/geo/tectonic_region.py:TectonicRegion.__ne__", "mtoolkit/scientific/fault_calculator.py:get_mfd"]}
{"id": "C126", "title": "Mean and deviation of the bootstrap", "statement": "The cumulative moment method returns the mean and the sample standard deviation (divisor n - 1) of the estimates obtained from the disturbed catalogues, in each of which every magnitude is replaced by itself plus its own uncertainty times the draw for that event. The call succeeds exactly when each of these estimates can be computed, and there is no other result.", "quantifier": "all years, magnitudes, uncertainties and draws (at least two bootstraps)", "why_tests_cant": "The draws are random; a test fixes a seed and checks two numbers to some digits, which does not distinguish the divisors n and n - 1 for a thousand samples.", "anchors": ["mtoolkit/scientific/maximum_magnitude.py:274-306"]}
{"id": "C127", "title": "Weichert's b-value of a catalogue", "statement": "Whenever recurrence_analysis with 'Weichert' returns for a catalogue and a completeness table, its b-value is, to the tolerance 1e-5, the unique value under which the counts of the catalogue are most probable, and its error is the one given by the curvature of the log-likelihood there up to a factor within exp(+-1e-5 times the magnitude range). The counts are those of the events that no completeness row excludes, in bins of the given width from the smallest magnitude (rounded to a tenth) on; each bin was observed from its completeness year to the last year of the catalogue.", "quantifier": "all catalogues with a magnitude range up to 10000 and completeness years not after the last event; at least one counted event", "why_tests_cant": "The likelihood has to be maximal over all real b; a test compares one b-value with a published one.", "anchors": ["mtoolkit/scientific/recurrence.py:34-89", "mtoolkit/scientific/recurrence.py:249-369"]}
{"id": "C128", "title": "Incomplete events in Weichert's analysis", "statement": "Leaving events that the completeness table calls incomplete out of the catalogue does not change the result of Weichert's recurrence analysis.", "quantifier": "every catalogue, table, selection and window", "why_tests_cant": "compares two analyses of arbitrary catalogues; the tests never vary the events below the table", "anchors": ["mtoolkit/scientific/recurrence.py:249-312"]}
{"id": "C129", "title": "Incomplete events are not counted", "statement": "No event that is earlier than the year and smaller than the magnitude of a row of the completeness table contributes to the counts of Weichert's preparation.", "quantifier": "every catalogue and table", "why_tests_cant": "the tests use one table and magnitudes that are all tenths", "anchors": ["mtoolkit/scientific/recurrence.py:249-312"]}
{"id": "C130", "title": "The command lines the program runs on", "statement": "The program runs on the options -d/--detailed and -i/--input-file FILE in any order, number and spelling (long options abbreviated, FILE in the next argument, after =, or attached to -i, short options grouped); the last file named counts and details are given if asked for anywhere. It runs on no other command line: anything else prints a text and ends, or raises.", "quantifier": "every list of arguments", "why_tests_cant": "the tests call the parser with three fixed lines; spellings are unbounded", "anchors": ["mtoolkit/console.py:30-71"]}
{"id": "C131", "title": "Grouped short options", "statement": "-d -iFILE and -diFILE mean the same, whatever follows on the line.", "quantifier": "every text FILE and every rest of the line", "why_tests_cant": "no test groups options", "anchors": ["mtoolkit/console.py:30-71"]}
{"id": "C132", "title": "Stepp counts every event once in double precision", "statement": "For every duration the counts of Stepp's magnitude bins add up to the number of events of the period, computed in double precision: rounding of magnitudes and bin edges loses no event and counts none twice.", "quantifier": "every catalogue of doubles between -100 and 100, every bin width from 0.002 to 100", "why_tests_cant": "edges are accumulated with rounding; tests use one width and a few catalogues", "anchors": ["mtoolkit/scientific/completeness.py:56-93"]}
{"id": "C133", "title": "Gardner-Knopoff windows follow the published table", "statement": "For every magnitude from 2.5 to 8 the Gardner-Knopoff distance and time windows lie between the values of Gardner and Knopoff's (1974) table at the two neighbouring magnitudes, up to 5% in distance and -15%/+20% in days.", "quantifier": "every real magnitude in [2.5, 8]", "why_tests_cant": "a test compares single magnitudes with values computed by the same formula; the claim is about a continuum and an independent table", "anchors": ["mtoolkit/scientific/declustering.py:GardnerKnopoffWindow"]}
{"id": "C134", "title": "Uhrhammer time window follows the published law", "statement": "The Uhrhammer time window of a magnitude is exp(-2.87 + 1.235 M) days, expressed in years.", "quantifier": "every magnitude from 0 to 9", "why_tests_cant": "the docstring test records the values the code computes, so it passes whatever the law; the deviation concerns every magnitude", "anchors": ["mtoolkit/scientific/declustering.py:UhrhammerWindow", "mtoolkit/scientific/declustering.py:gardner_knopoff_decluster"]}
{"id": "C135", "title": "Region names of the schema are known to the builder", "statement": "Every tectonic region name that a valid NRML source model may carry names a region TectonicRegionBuilder can create with its default scaling relation, shear moduli and displacement ratios.", "quantifier": "every tectonicRegion element the NRML schema admits", "why_tests_cant": "a test that asks for the names the builder lists never compares them with the schema; two of the five names are spelt differently on the two sides", "anchors": ["mtoolkit/geo/tectonic_region.py:TectonicRegionBuilder.create_tect_region_by_name", "nrml/schema/nrml_seismic.xsd:tectonicRegion"]}
{"id": "C136", "title": "What was read can always be stored", "statement": "Any selection of the entries read from a catalogue file is written by the catalogue writer without an error, whatever the file contained and however numbers print.", "quantifier": "every file that is read without an error, every selection and order of its entries, every arithmetic and every way of printing numbers", "why_tests_cant": "the entries come from arbitrary files, and the writer raises on a missing key or an unexpected key, which no sample file shows", "anchors": ["mtoolkit/eqcatalog.py:EqEntryReader.read", "mtoolkit/eqcatalog.py:EqEntryWriter.write_rows"]}
{"id": "C137", "title": "Weichert's b-value falls as the mean magnitude grows", "statement": "With the same magnitude bins and observation times, the catalogue with the larger mean magnitude gets the smaller b-value; in particular b is positive when the events are on average smaller than the bins weighted by observation time, and negative when they are larger.", "quantifier": "all bins, positive observation times, event counts, start values, reference magnitudes and tolerances (at most 0.3 over the magnitude range); up to the tolerance of the iteration", "why_tests_cant": "it compares the results of two iterations over all possible counts", "anchors": ["mtoolkit/scientific/recurrence.py:weichert"]}
{"id": "C138", "title": "Magnitude range of a result", "statement": "When recurrence and maximum magnitude are both computed for a source that contains an event at or above the reference magnitude, the result has minMagnitude at most maxMagnitude.", "quantifier": "every run that completes, every source", "why_tests_cant": "the two limits come from different analyses of arbitrary events; a sample catalogue with a wide range of magnitudes never shows them crossed", "anchors": ["mtoolkit/jobs.py:recurrence", "mtoolkit/jobs.py:maximum_magnitude", "mtoolkit/scientific/maximum_magnitude.py:cumulative_moment"]}
{"id": "C139", "title": "What a run computes", "statement": "A run that completes writes to result_file exactly the sources of the source model (or the default source), unchanged but for the rates given by the processing analyses named in the configuration, called in order with the parameters of the configuration, on the events of each source within the catalogue and with the completeness table that result from the listed preprocessing (or the stored or the default table). Configuration and input files determine these sources, and a run of which every analysis succeeds and whose result can be written completes and writes nothing else.", "quantifier": "every configuration whose preprocessing list does not retrieve a table and whose processing list holds processing jobs, every set of input files, every arithmetic", "why_tests_cant": "quantifies over all configurations and files; needs the composition of all jobs", "anchors": ["main.py", "mtoolkit/workflow.py:Workflow.start", "mtoolkit/jobs.py"]}
{"id": "C140", "title": "An earthquake listed twice is kept at most once by declustering", "statement": "If a catalogue lists one earthquake twice (two rows with the same date and epicentre, for instance from two agencies, whatever the two magnitudes), declustering flags at least one of the two rows: never are both in the declustered catalogue. Merged catalogues are the usual input, and a doubled event otherwise counts twice in every rate. True for Gardner-Knopoff with every window and every non-negative foreshock window; false for AFTERAN, which may keep both rows when an older, larger event lies nearby.", "quantifier": "all catalogues, all pairs of rows of one date and epicentre, every time-distance window, every non-negative foreshock fraction; for AFTERAN a concrete catalogue in double precision", "why_tests_cant": "The example catalogues of the tests contain no doubled events, and the AFTERAN failure needs a particular older, larger event nearby", "anchors": ["mtoolkit/scientific/declustering.py:154-233", "mtoolkit/scientific/declustering.py:302-395"]}
{"id": "C141", "title": "Configuration entries that are not used", "statement": "The parameter group of a job that is not listed (GardnerKnopoff, Afteran, Stepp, Recurrence, MaximumMagnitude) has no effect on a run: whether it is present, wrong or missing, the run ends the same way, leaves the same files and computes the same sources. Without preprocessing jobs the same is true of pprocessing_result_file. The documentation says the opposite of the last point (configuration.rst:41-53: to skip preprocessing, name the preprocessed catalogue there); that is false, the catalogue in eq_catalog_file is analysed.", "quantifier": "every arithmetic and world, all configurations and input files; for the documented use a concrete run in double precision", "why_tests_cant": "Tests run one sample configuration with all groups present; that an entry never matters is a statement about all values of it", "anchors": ["mtoolkit/workflow.py:159-205", "mtoolkit/jobs.py:140-366", "docs/source/user/configuration.rst:41-53"]}
{"id": "C142", "title": "Event identifiers are unique in an accepted catalogue", "statement": "No two rows of a catalogue that is read have the same eventID, as the documentation requires (catalogue.rst:20-21: a unique identifier for each earthquake). False: each row is checked alone, and a catalogue with two different earthquakes under one identifier is read without an error.", "quantifier": "a concrete catalogue in double precision", "why_tests_cant": "A test would have to contain repeated identifiers; the samples do not", "anchors": ["mtoolkit/eqcatalog.py:127-170", "docs/source/user/catalogue.rst:20-21"]}
{"id": "C143", "title": "The processing jobs are a set", "statement": "The list of processing jobs (Recurrence, MaximumMagnitude) matters only as a set: if a run completes, then the run with the same jobs in another order, or listed any number of times, also completes and leaves the same files and the same sources.", "quantifier": "every configuration whose processing jobs are Recurrence and MaximumMagnitude, every set of input files, every list with the same members", "why_tests_cant": "tests run the jobs once, in one order", "anchors": ["mtoolkit/workflow.py:ProcessingBuilder.build", "mtoolkit/jobs.py:recurrence", "mtoolkit/jobs.py:maximum_magnitude"]}
{"id": "C144", "title": "Declustering jobs in one list", "statement": "When several declustering jobs are listed, an event removed by one of them is not in the catalogue that the rest of the run uses. REFUTED: Afteran starts from the whole catalogue, so it brings back the events that an earlier Gardner-Knopoff removed. What holds: the declustering jobs listed immediately before Afteran at the head of the list have no effect at all on the result, the files or the remaining catalogue of a completed run.", "quantifier": "every configuration, every catalogue", "why_tests_cant": "tests run one declustering job at a time", "anchors": ["mtoolkit/jobs.py:afteran", "mtoolkit/jobs.py:gardner_knopoff", "mtoolkit/workflow.py:PreprocessingBuilder.build"]}
{"id": "C145", "title": "Storing does not change the result", "statement": "What a run stores on the way has no influence on its result: two completed runs whose configurations differ only in pprocessing_result_file, completeness_table_file and the presence of jobs that select and store (Create_eq_vector, Store_eq_catalog, Store_completeness_table) among non-empty preprocessing jobs write the same result file.", "quantifier": "every configuration with preprocessing jobs (not Retrieve_completeness_table) and the two processing jobs, every set of input files, even when a stored file has the name of an input", "why_tests_cant": "all catalogues, file names and job lists", "anchors": ["mtoolkit/workflow.py:PreprocessingBuilder.build", "mtoolkit/jobs.py:store_preprocessed_catalog", "mtoolkit/jobs.py:store_completeness_table"]}
{"id": "C146", "title": "Weichert's activity rate of a catalogue", "statement": "Whenever recurrence_analysis with 'Weichert' returns for a reference magnitude other than 0, the rate is the yearly number of events above the smallest magnitude, carried to the reference magnitude by 10^(-b (reference - smallest)), and its error is the rate over the square root of the number of counted events. The yearly number lies between the counted events over the longest and over the shortest observation time, and with one completeness period it is exactly their number over its length.", "quantifier": "all catalogues, completeness tables with years not after the last event, bin widths and reference magnitudes other than 0; at least one counted event; real arithmetic", "why_tests_cant": "all catalogues; tests compare single numbers", "anchors": ["mtoolkit/scientific/recurrence.py:recurrence_analysis", "mtoolkit/scientific/recurrence.py:weichert_prep", "mtoolkit/scientific/recurrence.py:weichert"]}
{"id": "C147", "title": "Weichert's b-value of a catalogue and its mean magnitude", "statement": "When recurrence_analysis with Weichert's method returns a b-value, the sign of b follows from the catalogue: b is positive (up to the tolerance 1e-5 on b ln 10) when the counted events are on average smaller than the magnitude bins weighted by their observation times, and negative when they are larger; with one completeness period the comparison is with the middle of the magnitude range. Of two catalogues that fall on the same bins with the same observation times, the one with the larger mean magnitude has the smaller b-value, by at least four times the difference of the means over the squared range.", "quantifier": "all catalogues whose magnitudes span at most 10000, completeness tables with years not after the last event, bin widths up to 1000 and reference magnitudes; at least one counted event; real arithmetic", "why_tests_cant": "tests compare b on a few stored catalogues; that the b-value orders all catalogues as their mean magnitudes do is a statement about every pair", "anchors": ["mtoolkit/scientific/recurrence.py:recurrence_analysis", "mtoolkit/scientific/recurrence.py:weichert_prep", "mtoolkit/scientific/recurrence.py:weichert"]}
{"id": "C148", "title": "A run stopped by its input writes nothing", "statement": "When the configured catalogue file is missing or rejected, holds no event, or the configured source model file is missing, is not XML, holds a source that cannot be read or holds no source, the run stops with an exception and no file is written or changed, in particular no earlier result. If all configuration keys are there and all job names known, the exception is the one of the reader: IOError for a missing file, the catalogue reader's own exception, the XML error, the error of the first unreadable source, TypeError for a model without sources, IndexError for a catalogue without events. The same holds without preprocessing jobs for a configured completeness table that is missing or empty (IOError), has rows of different lengths or an odd number of values (ValueError).", "quantifier": "all configurations, files and worlds", "why_tests_cant": "all files and configurations; tests use existing well-formed files", "anchors": ["main.py", "mtoolkit/jobs.py:read_eq_catalog", "mtoolkit/jobs.py:read_source_model", "mtoolkit/jobs.py:create_default_values", "mtoolkit/workflow.py:PreprocessingBuilder"]}
{"id": "C149", "title": "The source of a run without source model", "statement": "A completed run without source_model_file writes exactly one source: every identifier, its name, region and types are MTK, its boundary is the single point 0, 0, its ruptures have strike 0, dip 90 and rake 0, and it has magnitude 6.5 at depth 5000 and hypocentral depth 5000. Only a, b and the magnitude limits come from the analyses; when no processing job runs they are 0.", "quantifier": "all configurations without source model, catalogues and worlds, for every completed run", "why_tests_cant": "all runs; the unit tests look at the default source alone, not at what a run writes", "anchors": ["mtoolkit/source_model.py:default_area_source", "mtoolkit/jobs.py:create_default_source_model", "main.py"]}
{"id": "C150", "title": "Equality of sources", "statement": "Sources that compare equal are interchangeable: exchanging one for the other in a source model does not change the file that is written. == is symmetric and transitive, != is its negation, and a source without NaN equals every copy of itself that differs only in the computed uncertainties.", "quantifier": "all sources in binary64, all surrounding sources and all text forms of numbers", "why_tests_cant": "all sources, including signed zeros and NaN; the unit tests compare a few sources", "anchors": ["mtoolkit/source_model.py:AreaSource.__eq__", "mtoolkit/source_model.py:AreaSource.__ne__", "nrml/writer.py:AreaSourceWriter"]}
{"id": "C151", "title": "Exactly which runs without jobs complete", "statement": "With a configuration whose keys are there, without preprocessing jobs and with processing switched off, a run completes exactly when the catalogue and the source model are not bad in one of the ways of C148, the configured completeness table (if any) is there, not empty, rectangular and in pairs, the directory of the result exists and the result can be written, and the sources can be put into an XML document. Nothing else in the contents of the files can stop such a run.", "quantifier": "all configurations, files and worlds whose dictionary order is a rearrangement", "why_tests_cant": "the absence of any further failure concerns all file contents", "anchors": ["main.py", "mtoolkit/workflow.py:PreprocessingBuilder", "mtoolkit/workflow.py:Workflow.start", "mtoolkit/jobs.py:create_catalog_matrix", "mtoolkit/jobs.py:retrieve_completeness_table", "nrml/writer.py"]}
{"id": "C152", "title": "The document written, name by name", "statement": "The document serialized for a list of sources is exactly: a root nrml in the namespace http://openquake.org/xmlns/nrml/0.3 with the gml:id of the first source, in it one sourceModel with its gml:id, in it an empty config and one areaSource per source in order, each with gml:id, gml:name, tectonicRegion, areaBoundary / gml:Polygon / gml:exterior / gml:LinearRing (srsName) / gml:posList, ruptureRateModel with truncatedGutenbergRichter (type; aValueCumulative, bValue, minMagnitude, maxMagnitude), strike, dip and rake, ruptureDepthDistribution with magnitude (type) and depth, and hypocentralDepth. It is written whenever all texts are acceptable in XML; the result file of every completed run is the print of such a document.", "quantifier": "all lists of sources, all number printers, all completed runs", "why_tests_cant": "other programs read the file by these names; a name misspelt in the shared constants passes every round trip", "anchors": ["nrml/nrml_xml.py", "nrml/writer.py:AreaSourceWriter.serialize", "nrml/writer.py:_write_header", "nrml/writer.py:_area_source_elem"]}
{"id": "C153", "title": "The lines of a stored completeness table", "statement": "A stored completeness table is a text of one line per row, in order: the year and the magnitude as decimal numbers with exactly five places, without superfluous zeros, right-aligned in ten columns (longer numbers take the room they need), separated by a comma and ended by a line feed. Each number differs from the value by at most half of the last place and has a minus sign only for negative values.", "quantifier": "all tables", "why_tests_cant": "the format for every value, and that every row is a line of its own; a symmetric change of writer and reader passes all round trips", "anchors": ["mtoolkit/jobs.py:store_completeness_table"]}
{"id": "C154", "title": "The text of a stored catalogue, character by character", "statement": "The catalogue file written by EqEntryWriter.write_rows, and so the file at pprocessing_result_file after preprocessing, is exactly: the heading with the 25 documented column names, CR LF, then one line per stored entry with its 25 values in the documented order, separated by commas and ended by CR LF; integers in decimal without superfluous zeros, floats as repr prints them, blanked values empty, and a field enclosed in quotes (quotes inside doubled) exactly if it contains a comma, a quote or a line end.", "quantifier": "for every catalogue file that is read, every selection of its entries and every preprocessing configuration without a repeated declustering before Gardner-Knopoff", "why_tests_cant": "The tests compare one written file with one expected file; they do not cover quoting, other values or other selections.", "anchors": ["mtoolkit/eqcatalog.py:331-350", "mtoolkit/eqcatalog.py:29-37", "mtoolkit/jobs.py:242-266"]}
{"id": "C155", "title": "Equality of pipelines", "statement": "The preprocessing pipelines built from two configurations compare equal exactly if both or neither name a source model and they ask for the same jobs in the same order, where storing files and reading a completeness table count as jobs asked for; != is the opposite; equal pipelines have the same effects in every surroundings. A pipeline is a queue: it is the same built from a list or job by job, and a job added runs last and only after the others succeeded.", "quantifier": "for all configurations for which pipelines are built, all pipelines, jobs and contexts", "why_tests_cant": "The tests compare a few pipelines; that no other pair of configurations gives equal pipelines, and that equal pipelines behave alike, is about all of them.", "anchors": ["mtoolkit/workflow.py:51-96", "mtoolkit/workflow.py:134-205"]}
