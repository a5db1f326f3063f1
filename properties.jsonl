{"id": "C01", "title": "Calendar date to MJD is correct", "statement": "For every valid Gregorian calendar date with year 1901..2099, date2mjd returns the number of days elapsed since 1858-11-17; for a year outside that range it aborts rather than return a wrong day number.", "quantifier": "all valid dates (year, month, day) in 1901..2099; all years outside the range", "why_tests_cant": "A test samples a few dates; leap-year and month-length errors hide between samples.", "anchors": ["src/oifitslib/datemjd.c: date2mjd"]}
{"id": "C02", "title": "MJD to calendar date is correct and inverts date2mjd", "statement": "For every MJD whose date is in the supported range, mjd2date yields the unique valid Gregorian date that many days after 1858-11-17, and date2mjd maps that date back to the same MJD (1901-2099). The calendar property holds for every MJD from 1 March of the proleptic Gregorian year -4900 on that does not overflow a long, not only for 1901-2099.", "quantifier": "all MJD values", "why_tests_cant": "There are unboundedly many day numbers; the formula uses truncating integer division whose errors occur on isolated days.", "anchors": ["src/oifitslib/datemjd.c: mjd2date, date2mjd"]}
{"id": "C03", "title": "Duplicating a table gives an equal table", "statement": "dup_oi_array, dup_oi_target, dup_oi_wavelength, dup_oi_corr, dup_oi_inspol, dup_oi_vis, dup_oi_vis2, dup_oi_t3 and dup_oi_flux return a table whose every scalar, string, row and per-channel value equals the original's.", "quantifier": "all well-formed tables of each of the nine kinds, any number of rows and channels, with and without optional content", "why_tests_cant": "A test checks particular columns of particular tables; one mis-copied optional column passes unnoticed.", "anchors": ["src/oifitslib/oifile.c: dup_oi_array, dup_oi_target, dup_oi_wavelength, dup_oi_corr, dup_oi_inspol, dup_oi_vis, dup_oi_vis2, dup_oi_t3, dup_oi_flux"]}
{"id": "C04", "title": "Upgrading only changes revision and TIME", "statement": "upgrade_oi_* on a revision-1 table sets the revision to 2 and, for OI_VIS/OI_VIS2/OI_T3, sets every TIME to zero; nothing else changes. On a table of any other revision it changes nothing. Upgrading twice is the same as upgrading once.", "quantifier": "all tables of the six upgradable kinds, all revisions", "why_tests_cant": "Needs a frame condition (every other field unchanged) over arbitrary tables.", "anchors": ["src/oifitslib/oifile.c: upgrade_oi_target, upgrade_oi_wavelength, upgrade_oi_array, upgrade_oi_vis, upgrade_oi_vis2, upgrade_oi_t3"]}
{"id": "C05", "title": "Target and element lookups return the first match", "statement": "oi_fits_lookup_target returns the first OI_TARGET row whose TARGET_ID equals the request, and nothing if and only if no row has it. oi_fits_lookup_element does the same for STA_INDEX in the OI_ARRAY selected by ARRNAME and returns nothing when there is no such OI_ARRAY.", "quantifier": "all datasets, all identifiers, rows in any order with any duplicates", "why_tests_cant": "Rows may be in any order with duplicates; 'nothing iff absent' is a universal statement.", "anchors": ["src/oifitslib/oifile.c: oi_fits_lookup_target, oi_fits_lookup_element, oi_fits_lookup_array"]}
{"id": "C06", "title": "Lookups by name after reading a file agree with the tables present", "statement": "After read_oi_fits succeeds, oi_fits_lookup_array/wavelength/corr for any name used by a data table returns the first table in the dataset with that name, or nothing if and only if no such table is present.", "quantifier": "all files, all names referenced by OI_VIS, OI_VIS2, OI_T3, OI_FLUX and OI_INSPOL tables", "why_tests_cant": "The index is filled lazily from whichever data tables exist; combinations of table kinds and names are unbounded.", "anchors": ["src/oifitslib/oifile.c: read_oi_fits, oi_fits_lookup_array, oi_fits_lookup_wavelength, oi_fits_lookup_corr"]}
{"id": "C07", "title": "Data counts are exact", "statement": "count_oi_fits_data returns exactly the number of complex visibilities, squared visibilities and triple products held: the sum over tables, records and channels of the unflagged points; skipped (NULL) outputs do not affect the others.", "quantifier": "all datasets, any numbers of tables, rows, channels and flag patterns", "why_tests_cant": "Counting is a sum over unbounded nested loops; off-by-one errors appear only on boundary shapes.", "anchors": ["src/oifitslib/oifile.c: count_oi_fits_data"]}
{"id": "C08", "title": "is_atomic decides single-configuration data sets", "statement": "is_atomic answers true exactly when the dataset has at most one OI_ARRAY, exactly one OI_WAVELENGTH, exactly one target, and its data do not span more than the given number of days.", "quantifier": "all datasets and all time tolerances", "why_tests_cant": "The MJD span is a fold over every record of four kinds of table.", "anchors": ["src/oifitslib/oifile.c: is_atomic, get_min_mjd, get_max_mjd"]}
{"id": "C09", "title": "Primary header synthesised for OIFITS v1 data is right", "statement": "set_oi_header sets TELESCOP, INSTRUME and OBJECT to the single array/instrument/target name, or MULTIPLE if there is more than one (UNKNOWN when there is no array), and DATE-OBS to the calendar date of the earliest observation.", "quantifier": "all datasets read from revision-1 files", "why_tests_cant": "Depends on the earliest MJD of arbitrarily many records and on calendar arithmetic.", "anchors": ["src/oifitslib/oifile.c: set_oi_header, get_min_mjd"]}
{"id": "C10", "title": "Version predicates are exact and mutually exclusive", "statement": "is_oi_fits_two is true exactly when the primary header CONTENT is OIFITS2; is_oi_fits_one is true exactly when CONTENT is not OIFITS2 and the OI_TARGET and every OI_ARRAY, OI_WAVELENGTH, OI_VIS, OI_VIS2 and OI_T3 table carry revision number 1. A dataset is never both.", "quantifier": "all datasets", "why_tests_cant": "Requires a statement over every table of every kind.", "anchors": ["src/oifitslib/oifile.c: is_oi_fits_one, is_oi_fits_two"]}
{"id": "C11", "title": "Filtering keeps exactly the accepted wavelengths", "statement": "apply_oi_filter keeps an OI_WAVELENGTH channel if and only if its INSNAME matches the instrument pattern and its effective wavelength is within the wavelength range (ends included), preserving order, values and bandwidths; a table with no accepted channel is dropped, as is one that no retained data table refers to.", "quantifier": "all datasets, all filter specifications", "why_tests_cant": "Unbounded numbers of tables and channels, floating-point boundary values and NaNs.", "anchors": ["src/oifitslib/oifilter.c: filter_all_oi_wavelength, filter_oi_wavelength"]}
{"id": "C12", "title": "Filtering keeps exactly the accepted data tables and records", "statement": "An OI_VIS/OI_VIS2/OI_T3/OI_FLUX record appears in the filtered dataset if and only if its table's names match the patterns, its kind is accepted, its instrument keeps at least one channel, its target, MJD and baseline(s) are accepted and (when flagged data are rejected) some channel is acceptable; accepted records keep their order and tables with no accepted record are dropped.", "quantifier": "all well-formed datasets, all filter specifications", "why_tests_cant": "The accepted set is defined by a conjunction of conditions over unbounded data; a test samples a few combinations.", "anchors": ["src/oifitslib/oifilter.c: filter_all_oi_vis, filter_oi_vis, filter_all_oi_vis2, filter_oi_vis2, filter_all_oi_t3, filter_oi_t3, filter_all_oi_flux, filter_oi_flux"]}
{"id": "C13", "title": "Filtering does not alter retained data", "statement": "In each retained record every scalar (apart from TARGET_ID renumbering) and every retained channel's value, error and reference-map entry equals that of the input record at the corresponding channel. Only the flag may change, from unset to set (OI_T3 amplitudes or phases that the caller rejected, and OI_FLUX data outside the SNR range, become NaN).", "quantifier": "all well-formed datasets, all filter specifications, every retained record and channel", "why_tests_cant": "Index remapping (channel k of output is channel j of input) must be right for every mask.", "anchors": ["src/oifitslib/oifilter.c: filter_oi_vis_record, filter_oi_vis2_record, filter_oi_t3_record, filter_oi_flux_record"]}
{"id": "C14", "title": "Filtering never clears a flag and flags exactly the out-of-range points", "statement": "A retained channel is flagged in the output if and only if it was flagged in the input or its uv radius or SNR lies outside the filter's range.", "quantifier": "all well-formed datasets, all filter specifications", "why_tests_cant": "Involves floating-point comparisons with NaN and infinities for arbitrary data.", "anchors": ["src/oifitslib/oifilter.c: filter_oi_vis_record, filter_oi_vis2_record, filter_oi_t3_record"]}
{"id": "C15", "title": "Filter output has no unreferenced or dangling tables", "statement": "In the filtered dataset every OI_ARRAY, OI_WAVELENGTH and OI_CORR is referenced by some retained data table, and every array, instrument or correlation name that was resolvable in the input and is used by a retained table still resolves in the output.", "quantifier": "all well-formed datasets, all filter specifications", "why_tests_cant": "Referential integrity is a global property after a sequence of removals.", "anchors": ["src/oifitslib/oifilter.c: prune_oi_array, prune_oi_wavelength, prune_oi_corr, prune_oi_inspol, apply_oi_filter"]}
{"id": "C16", "title": "Filtering on a target renumbers consistently", "statement": "With a non-negative target id, the output OI_TARGET holds just that target, with TARGET_ID 1, and every retained record (including OI_INSPOL) has TARGET_ID 1 and had the requested id; with a negative id OI_TARGET and all ids are unchanged.", "quantifier": "all datasets, all target ids", "why_tests_cant": "Must hold for every record of every table kind.", "anchors": ["src/oifitslib/oifilter.c: filter_oi_target, filter_oi_vis, filter_oi_inspol, filter_oi_flux"]}
{"id": "C17", "title": "The default filter keeps the whole data set when values are in the default ranges", "statement": "With the specification set by init_oi_filter, a well-formed dataset whose MJD, wavelength, baseline, uv radius and SNR values are within the documented default ranges is reproduced unchanged apart from removal of unreferenced tables.", "quantifier": "all well-formed datasets with in-range values", "why_tests_cant": "Identity over every field of arbitrary datasets.", "anchors": ["src/oifitslib/oifilter.c: init_oi_filter, apply_oi_filter"]}
{"id": "C18", "title": "The filter never crashes on a consistent data set", "statement": "On a dataset whose tables have rows and whose data tables have as many channels as the OI_WAVELENGTH they refer to, apply_oi_filter neither reads or writes outside an array nor trips an assertion nor requests zero-sized storage.", "quantifier": "all consistent datasets, all filter specifications", "why_tests_cant": "Memory-safety for all channel masks and record selections.", "anchors": ["src/oifitslib/oifilter.c: apply_oi_filter", "src/oifitslib/chkmalloc.c"]}
{"id": "C19", "title": "Filtering is idempotent", "statement": "Applying the same filter (without target selection) to its own output changes nothing.", "quantifier": "all consistent datasets, all filter specifications with negative target id", "why_tests_cant": "Requires that flagging, NaN replacement and pruning be stable for all inputs.", "anchors": ["src/oifitslib/oifilter.c: apply_oi_filter"]}
{"id": "C20", "title": "Table counters always match the table lists", "statement": "After apply_oi_filter and merge_oi_fits_list, each of the counters numArray, numWavelength, numCorr, numInspol, numVis, numVis2, numT3, numFlux equals the number of tables of that kind in the dataset.", "quantifier": "all input datasets and filters, any number of merged inputs", "why_tests_cant": "Counters are incremented and decremented in many separate loops.", "anchors": ["src/oifitslib/oifilter.c: apply_oi_filter, prune_oi_array, prune_oi_wavelength, prune_oi_corr, prune_oi_inspol", "src/oifitslib/oimerge.c: merge_oi_fits_list"]}
{"id": "C21", "title": "Iterators visit exactly the accepted data, once each, in order", "statement": "Repeated calls of oi_vis_iter_next / oi_vis2_iter_next / oi_t3_iter_next return each datum accepted by the filter exactly once, in table, record, channel order with the right EXTVER, record and channel numbers, and then return false on every further call.", "quantifier": "all well-formed datasets, all filters, all call histories", "why_tests_cant": "A property of the whole sequence of calls, of any length.", "anchors": ["src/oifitslib/oiiter.c: oi_vis_iter_init, oi_vis_iter_next, oi_vis2_iter_init, oi_vis2_iter_next, oi_t3_iter_init, oi_t3_iter_next"]}
{"id": "C22", "title": "Iterating with a filter agrees with filtering", "statement": "When flagged data are rejected, the OI_VIS and OI_VIS2 data an iterator visits with a filter are exactly the unflagged data of the dataset that apply_oi_filter produces with the same filter.", "quantifier": "all consistent datasets, all filters rejecting flagged data", "why_tests_cant": "Relates two independent implementations of the acceptance rules on all inputs.", "anchors": ["src/oifitslib/oiiter.c: oi_vis_iter_next, oi_vis2_iter_next", "src/oifitslib/oifilter.c: apply_oi_filter"]}
{"id": "C23", "title": "Iterator uv coordinates are those of the current datum", "statement": "After a successful next call, get_uv returns the wavelength of the current channel in the OI_WAVELENGTH the current table refers to, and the record's u and v coordinates divided by it.", "quantifier": "all datasets, all points of all iterations", "why_tests_cant": "Must hold at every step, including just after moving to a table with another instrument.", "anchors": ["src/oifitslib/oiiter.c: oi_vis_iter_get_uv, oi_vis2_iter_get_uv, oi_t3_iter_get_uv"]}
{"id": "C24", "title": "Merging keeps every data table and record in order", "statement": "merge_oi_fits_list outputs the OI_VIS, OI_VIS2, OI_T3, OI_FLUX, OI_INSPOL and OI_CORR tables of all inputs, in input order, with every record and every value unchanged except for cross-references (names and TARGET_ID), revision and TIME.", "quantifier": "any number of well-formed inputs", "why_tests_cant": "No record lost, duplicated or altered, for unbounded inputs.", "anchors": ["src/oifitslib/oimerge.c: merge_all_oi_vis, merge_all_oi_vis2, merge_all_oi_t3, merge_all_oi_flux, merge_all_oi_inspol, merge_all_oi_corr"]}
{"id": "C25", "title": "Merged cross-references resolve to equivalent tables", "statement": "If a data table of an input referred to a target, OI_ARRAY, OI_WAVELENGTH or OI_CORR present in that input, then the corresponding merged table's reference resolves in the output to a target of the same name, an array with matching station indices and coordinates, a wavelength table with matching wavebands, or an equal correlation table.", "quantifier": "any number of inputs satisfying the name-uniqueness condition, every data table and record", "why_tests_cant": "Relies on renaming on clashes across arbitrarily many inputs.", "anchors": ["src/oifitslib/oimerge.c: merge_oi_target, merge_all_oi_array, merge_all_oi_wavelength, merge_all_oi_corr"]}
{"id": "C26", "title": "Merged targets are unique and numbered from 1", "statement": "The merged OI_TARGET has one row per distinct target name in the inputs, in order of first appearance, with TARGET_ID 1, 2, 3, ... and otherwise the first row seen with that name.", "quantifier": "any inputs with fewer than 100 distinct targets", "why_tests_cant": "A property of every combination of overlapping target lists.", "anchors": ["src/oifitslib/oimerge.c: merge_oi_target"]}
{"id": "C27", "title": "Names in a merged data set are unique", "statement": "The OI_ARRAY, OI_WAVELENGTH and OI_CORR tables of a merged dataset have pairwise distinct names.", "quantifier": "any number of inputs", "why_tests_cant": "Name clashes can occur between generated and pre-existing names in ways a test does not anticipate.", "anchors": ["src/oifitslib/oimerge.c: merge_all_oi_array, merge_all_oi_wavelength, merge_all_oi_corr"]}
{"id": "C28", "title": "Merged header keywords follow the UNKNOWN/value/MULTIPLE rule", "statement": "Each merged header keyword is the common value if all non-empty input values agree, MULTIPLE if two differ, and if all are empty it is UNKNOWN for mandatory keywords and empty for optional ones; DATE-OBS is the earliest input DATE-OBS.", "quantifier": "any number of inputs", "why_tests_cant": "Must hold for every pattern of equal/empty/different values over any number of inputs.", "anchors": ["src/oifitslib/oimerge.c: merge_oi_header, files_min_mjd"]}
{"id": "C29", "title": "Merged data set is OIFITS v2", "statement": "If every input table has revision 1 or 2 as defined by the standard, every table in the merged dataset carries its v2 revision number and CONTENT is OIFITS2, so the merged dataset is recognised as version 2 and its TIME values from revision-1 tables are zero.", "quantifier": "all inputs with standard revision numbers", "why_tests_cant": "All tables of all kinds from arbitrarily many inputs.", "anchors": ["src/oifitslib/oimerge.c: merge_oi_fits_list", "src/oifitslib/oifile.c: upgrade_oi_array, upgrade_oi_wavelength, upgrade_oi_vis, upgrade_oi_vis2, upgrade_oi_t3"]}
{"id": "C30", "title": "Merging identical configurations adds no duplicates", "statement": "Merging copies of one dataset yields no more OI_ARRAY, OI_WAVELENGTH tables or targets than merging that dataset alone.", "quantifier": "all datasets with well-formed tables, any number of copies", "why_tests_cant": "Depends on floating-point self-comparison for all values including NaN and infinities.", "anchors": ["src/oifitslib/oimerge.c: match_oi_array, match_oi_wavelength, merge_oi_target"]}
{"id": "C31", "title": "Each conformance check reports exactly the violations of its rule", "statement": "check_header, check_keywords, check_visrefmap, check_unique_targets, check_targets_present, check_arrname, check_corr_present, check_flagging, check_t3amp, check_waveorder, check_time and check_flux return OI_BREACH_NONE if and only if the dataset has no violation of the rule the check documents, and otherwise the documented level.", "quantifier": "all well-formed datasets", "why_tests_cant": "'No violation' is universal over all tables, records and channels.", "anchors": ["src/oifitslib/oicheck.c: check_header, check_keywords, check_visrefmap, check_unique_targets, check_targets_present, check_arrname, check_corr_present, check_flagging, check_t3amp, check_waveorder, check_time, check_flux"]}
{"id": "C32", "title": "Breach counts and location lists are exact", "statement": "After a check, numBreach is the number of violations found; the location list holds, in order, a text per violation when there are fewer than 10, otherwise the first nine followed by [List truncated]; and no location slot beyond the array is written.", "quantifier": "all numbers of violations", "why_tests_cant": "The truncation boundary and array bound must hold for every count.", "anchors": ["src/oifitslib/oicheck.c: init_check_result, set_result, format_check_result"]}
{"id": "C33", "title": "Checks never abort", "statement": "check_tables and check_elements_present complete and report the most serious level for every well-formed dataset.", "quantifier": "all well-formed datasets", "why_tests_cant": "An abort may need a particular combination of two different violations.", "anchors": ["src/oifitslib/oicheck.c: check_tables, check_elements_present, set_result"]}
{"id": "C34", "title": "Checks after merging: targets are sound", "statement": "If every input passes check_targets_present then the merged dataset passes check_targets_present and check_unique_targets.", "quantifier": "any number of inputs", "why_tests_cant": "Composition of two modules on unbounded inputs.", "anchors": ["src/oifitslib/oimerge.c: merge_oi_fits_list", "src/oifitslib/oicheck.c: check_targets_present, check_unique_targets"]}
{"id": "C35", "title": "Writing then reading a table returns the same table", "statement": "Reading back a table written by write_oi_array/target/wavelength/corr/vis/vis2/t3/flux returns the same content (with the v2 revision and zero TIME), for every combination of the optional OI_VIS columns.", "quantifier": "all tables whose strings and integers fit their FITS representation", "why_tests_cant": "Column positions shift when optional columns are inserted; all combinations and all row counts must work.", "anchors": ["src/oifitslib/write_fits.c: write_oi_vis, write_oi_vis_opt, write_oi_vis2, write_oi_t3, write_oi_flux, write_oi_array, write_oi_target, write_oi_wavelength, write_oi_corr", "src/oifitslib/read_fits.c: read_next_oi_vis, read_next_oi_vis2, read_next_oi_t3, read_next_oi_flux, read_oi_array_chdu"]}
{"id": "C36", "title": "Writing then reading a whole dataset returns the same dataset", "statement": "read_oi_fits applied to a file produced by write_oi_fits returns the same tables of each kind in the same order, with the same counts.", "quantifier": "all datasets representable in FITS", "why_tests_cant": "Whole-file behaviour over arbitrary numbers of tables.", "anchors": ["src/oifitslib/oifile.c: write_oi_fits, read_oi_fits"]}
{"id": "C37", "title": "Written files always declare OIFITS v2", "statement": "Whatever revisions the in-memory tables have, write_oi_fits writes CONTENT = OIFITS2, v2 OI_REVN values, EXTVER 1, 2, 3, ... per table kind, and zero TIME columns.", "quantifier": "all datasets", "why_tests_cant": "All tables of all kinds.", "anchors": ["src/oifitslib/oifile.c: write_oi_fits", "src/oifitslib/write_fits.c: write_oi_header"]}
{"id": "C38", "title": "Unreadable data tables are skipped without losing the others", "statement": "read_oi_fits on a file in which some OI_VIS/OI_VIS2/OI_T3/OI_FLUX/OI_CORR/OI_INSPOL tables are malformed returns exactly the well-formed ones in file order.", "quantifier": "all files, all positions of malformed tables", "why_tests_cant": "Every pattern of good and bad tables.", "anchors": ["src/oifitslib/oifile.c: read_oi_fits"]}
{"id": "C39", "title": "Reading a table by name finds it", "statement": "read_oi_array, read_oi_wavelength and read_oi_corr given a name return the first table of that kind with that name, if one is in the file, whatever other HDUs the file contains.", "quantifier": "all files, all names", "why_tests_cant": "Any HDU sequence may precede the wanted table.", "anchors": ["src/oifitslib/read_fits.c: specific_named_hdu, read_oi_array, read_oi_wavelength, read_oi_corr"]}
{"id": "C40", "title": "I/O functions do nothing once an error status is set", "statement": "Every read and write function called with a non-zero status returns that status and leaves the file and its output argument unchanged.", "quantifier": "all functions, all states, all error codes", "why_tests_cant": "Crash/error point can be any call in a sequence.", "anchors": ["src/oifitslib/read_fits.c", "src/oifitslib/write_fits.c"]}
{"id": "C41", "title": "Copies are independent and storage is freed exactly once", "statement": "The storage reachable from a duplicated table is disjoint from the original's, so modifying or freeing one leaves the other intact; freeing a table releases each of its blocks exactly once.", "quantifier": "all tables of all kinds, all heaps", "why_tests_cant": "Aliasing depends on the whole heap; double frees show only in some histories.", "anchors": ["src/oifitslib/oifile.c: dup_oi_vis, dup_oi_vis2, dup_oi_t3, dup_oi_flux, dup_oi_inspol, dup_oi_corr, dup_oi_wavelength, dup_oi_array", "src/oifitslib/free_fits.c"]}
{"id": "C42", "title": "Filtering leaves its input unchanged and preserves the header", "statement": "apply_oi_filter copies the primary header verbatim, and accepted OI_ARRAY and OI_CORR tables verbatim.", "quantifier": "all datasets, all filters", "why_tests_cant": "Frame condition over every field.", "anchors": ["src/oifitslib/oifilter.c: filter_oi_header, filter_all_oi_array, filter_all_oi_corr"]}
{"id": "C43", "title": "Optional CATEGORY information survives filtering and merging", "statement": "If the input OI_TARGET uses the optional CATEGORY column, so does the output of apply_oi_filter and merge_oi_fits_list.", "quantifier": "all inputs", "why_tests_cant": "A flag to be carried through every path.", "anchors": ["src/oifitslib/oifilter.c: filter_oi_target", "src/oifitslib/oimerge.c: merge_oi_target"]}
{"id": "C44", "title": "Pattern filters accept exactly the glob matches", "statement": "A table passes the ARRNAME/INSNAME/CORRNAME filter if and only if its name matches the glob pattern, where * stands for any string and ? for any one character; the default pattern * accepts every name, including the empty one.", "quantifier": "all patterns and names", "why_tests_cant": "Pattern matching is recursive over unbounded strings.", "anchors": ["src/oifitslib/oifilter.c: filter_pre_parse, ACCEPT_ARRNAME, ACCEPT_INSNAME, ACCEPT_CORRNAME", "src/oifitslib/oiiter.c: ACCEPT_ARRNAME"]}
{"id": "C45", "title": "Allocation gives a table storage of its own", "statement": "After alloc_oi_x with positive sizes the struct describes a table of exactly that size: every array and every vector of every record is a newly allocated block of the right length, no two of them are the same, the optional vectors of OI_VIS are NULL with their flags off, and nothing else in storage changes; freeing the table then restores storage to what it was. A size of zero ends the program.", "quantifier": "all kinds of tables, all sizes, all heaps, all behaviours of malloc that return unused addresses", "why_tests_cant": "Whether blocks overlap or are missed depends on the heap and the size; leaks and stale pointers need not show in a run.", "anchors": ["src/oifitslib/alloc_fits.c", "src/oifitslib/free_fits.c", "src/oifitslib/chkmalloc.c: _chkmalloc"]}
{"id": "C46", "title": "Written tables have the layout of OIFITS version 2", "statement": "In every file that write_oi_fits writes with status 0, and for every table written by one of the write_oi_x functions, each HDU has exactly the keywords of its kind with the values of the dataset (as a FITS card can hold them), the optional ones exactly when they apply, none twice; exactly the columns of its kind with their types, repeat counts, units and dimensions, the optional ones exactly when they apply, with distinct names; one row per record; and a value for every element of every row. Tables appear in the order of the dataset with EXTVER 1, 2, ...; the dataset need not fit in FITS.", "quantifier": "all datasets, all combinations of optional parts, all numbers of rows and channels, all files, all behaviours of cfitsio's number formatting", "why_tests_cant": "Columns are inserted by position after other optional columns, so a wrong position or unit shows only for some combination of optional parts.", "anchors": ["src/oifitslib/write_fits.c", "src/oifitslib/oifile.c: write_oi_fits"]}
{"id": "C47", "title": "What is read is well formed", "statement": "Whenever read_oi_fits or one of the functions that read a table returns a dataset or table, its counts agree with its arrays, every record has as many elements as there are channels (the optional vectors exactly when their flag is set), no table is without rows or channels, and there is a target. A dataset is returned only with status 0.", "quantifier": "all files whatever their contents, all positions in them, all behaviours of cfitsio and contents of uninitialised storage", "why_tests_cant": "The code that filters, merges and checks relies on it for every file; the files that could break it are malformed in ways nobody has thought of.", "anchors": ["src/oifitslib/read_fits.c", "src/oifitslib/oifile.c: read_oi_fits"]}
{"id": "C48", "title": "oifits-merge writes the merged data, or nothing is lost", "statement": "Given an output name not in use and two or more readable files whose contents can be merged and stored, oifits-merge exits with 0, prints the summary of the merged dataset, and leaves a file that reads back as the merged dataset; no other file changes. Whatever the arguments and files: an existing file is never changed; exit status 0 means that the output was created with all tables of the merged inputs; an unreadable input gives exit status 1 and too few arguments 2, with all files unchanged. A run that fails leaves no output.", "quantifier": "all argument lists, all sets of files with any contents, all behaviours of cfitsio", "why_tests_cant": "What happens to other files, or when a step fails, depends on combinations of files and failures that tests do not set up.", "anchors": ["src/util/oifits-merge.c: main", "src/oifitslib/oimerge.c: merge_oi_fits_list", "src/oifitslib/oifile.c: write_oi_fits, print_oi_fits_summary"]}
{"id": "C49", "title": "oifits-upgrade changes the format only", "statement": "For a readable version 1 file with an OI_ARRAY table, oifits-upgrade writes a version 2 file that reads back as the same data, with ORIGIN, OBSERVER and INSMODE of the header from the command line; no other file changes. A version 2 file (in particular its own output), a file without OI_ARRAY and an unreadable file are refused with exit status 1 and nothing is written; an existing output is never changed. Fewer than five arguments are refused.", "quantifier": "all argument lists, all sets of files with any contents, all behaviours of cfitsio", "why_tests_cant": "Loss of data in conversion shows only for contents that use the part lost.", "anchors": ["src/util/oifits-upgrade.c: main", "src/oifitslib/oifile.c: write_oi_fits, is_oi_fits_two"]}
{"id": "C50", "title": "oifits-filter replaces its output only when allowed", "statement": "For a readable file with matching channels and storable contents, and a selected target that exists, oifits-filter exits with 0 and leaves a file that reads back as the result of the filter of the command line, also if input and output are the same file and --clobber is given; it prints the summaries of both. No file but the output changes; without --clobber no existing file does. If the output exists and cannot be removed, or --clobber is missing, or the input is unreadable, the exit status is 1 and nothing changes. When writing fails the old output is still there.", "quantifier": "all options, all file names, all sets of files with any contents, all behaviours of cfitsio", "why_tests_cant": "Loss of data needs a failure at a particular moment; aliasing of input and output needs the same file twice.", "anchors": ["src/util/oifits-filter.c: main", "src/oifitslib/oifilter.c: get_user_oi_filter, apply_user_oi_filter"]}
{"id": "C51", "title": "oifits-check reports every violation", "statement": "For every readable file oifits-check prints the summary, then for each of the 14 checks in order that finds a violation the report of exactly its violations, and \"All checks passed\" if and only if there is none. The exit status is 0 and no file changes. An unreadable file gives exit status 1.", "quantifier": "all files with any contents", "why_tests_cant": "The number of combinations of violations is unbounded; some combinations abort.", "anchors": ["src/util/oifits-check.c: main", "src/oifitslib/oicheck.c"]}
{"id": "C52", "title": "Options set the filter they name", "statement": "The filter made from the command line has for each criterion the value given last, wavelengths converted from nm to m and names cut to 70 characters, and for a criterion not given the default of init_oi_filter; no option affects another criterion.", "quantifier": "all sequences of options, all values", "why_tests_cant": "The defaults pass through a conversion to nm and back; options interact through shared variables only in some order.", "anchors": ["src/oifitslib/oifilter.c: filter_pre_parse, filter_post_parse, get_user_oi_filter, filterEntries"]}
{"id": "C53", "title": "The summary lists every table", "statement": "For every well-formed dataset the summary completes and states the version, nine header keywords, the number of tables of each kind, and every table by number with its names, sizes and (for OI_WAVELENGTH) the least and greatest wavelength.", "quantifier": "all well-formed datasets", "why_tests_cant": "The text is assembled in a shared static buffer by functions for each kind; an error shows for one kind or one number only.", "anchors": ["src/oifitslib/oifile.c: format_oi_fits_summary, format_array_summary, format_wavelength_summary, format_corr_summary, format_inspol_summary, get_min_wavelength, get_max_wavelength"]}
{"id": "C54", "title": "Filtering introduces no violation", "statement": "Every rule that oicheck.c checks (other than presence of the mandatory tables) and that holds of a consistent dataset holds of the result of apply_oi_filter. A dataset satisfying all rules satisfies them after filtering if and only if interferometric data or, in version 2, an uncalibrated OI_FLUX table are left; then, with distinct names, all fourteen checks run on the result and report nothing.", "quantifier": "all consistent datasets, all filters", "why_tests_cant": "The filter removes targets, records, channels, and then tables nobody refers to; a reference to something removed shows only for certain combinations of references and criteria.", "anchors": ["src/oifitslib/oifilter.c: apply_oi_filter", "src/oifitslib/oicheck.c"]}
{"id": "C55", "title": "Merging conforming data gives conforming data", "statement": "If every input satisfies all rules (inputs of version 1 also what version 2 requires in addition), names are distinct and short enough within inputs and no name looks like a generated one, the merged dataset satisfies all rules of version 2 and all fourteen checks run on it and report nothing.", "quantifier": "any number of inputs of both versions", "why_tests_cant": "References are renumbered and renamed across any number of inputs; equal names for different things, and different names for equal things, combine freely.", "anchors": ["src/oifitslib/oimerge.c: merge_oi_fits_list", "src/oifitslib/oicheck.c"]}
{"id": "C56", "title": "What the programs write passes oifits-check", "statement": "oifits-check prints \"All checks passed\" after the summary if and only if the dataset in the file satisfies all rules. A written file satisfies them if and only if the dataset written had what the library does not supply itself. Hence running oifits-filter, oifits-merge or oifits-upgrade on files that satisfy the rules and then oifits-check on the output prints \"All checks passed\".", "quantifier": "all files and arguments for which the programs succeed, any number of inputs to merge", "why_tests_cant": "It composes reading, filtering or merging, writing, reading and checking for unbounded contents; the library sets OI_REVN, DATE, CONTENT and TIME itself and leaves out columns.", "anchors": ["src/util/oifits-filter.c: main", "src/util/oifits-merge.c: main", "src/util/oifits-upgrade.c: main", "src/util/oifits-check.c: main"]}
{"id": "C57", "title": "The filter owns its output and loses no storage", "statement": "apply_oi_filter makes a dataset that uses exactly the storage allocated during the call: no block is shared with the input or lost, and the arrays of accepted channels and all tables that are removed again are freed. No block that was in use before changes, other than the target struct of the output. Freeing the output with free_oi_fits gives the storage before the call back, in either order with freeing the input.", "quantifier": "all datasets without empty tables whose channel counts agree with OI_WAVELENGTH, all decisions of the filter that select at most one target, all previous states of the heap and all malloc that return unused addresses", "why_tests_cant": "Leaks and sharing depend on which tables, records and channels are removed, in unbounded combinations, and on which addresses malloc returns.", "anchors": ["src/oifitslib/oifilter.c: apply_oi_filter", "src/oifitslib/oifilter.c: filter_all_oi_wavelength", "src/oifitslib/oifilter.c: filter_oi_inspol", "src/oifitslib/free_fits.c"]}
{"id": "C58", "title": "Merging owns its output and loses no storage", "statement": "merge_oi_fits_list makes a dataset that uses exactly the storage allocated during the call: no block is shared with an input or lost, and the numbers allocated for the hash table of targets are freed. No block that was in use before changes, other than the target struct of the output. Freeing the output with free_oi_fits gives the storage before the call back, also after all inputs have been freed. With 100 or more names of targets the call aborts and never writes past the block for targets.", "quantifier": "all lists of datasets without empty tables in which names and TARGET_IDs resolve (also lists with repeated or overlapping inputs), all outcomes of matching tables, all previous states of the heap and all malloc that return unused addresses", "why_tests_cant": "Leaks and sharing depend on which tables match and which names collide over any number of inputs, and on which addresses malloc returns.", "anchors": ["src/oifitslib/oimerge.c: merge_oi_fits_list", "src/oifitslib/oimerge.c: merge_oi_target", "src/oifitslib/oimerge.c: merge_all_oi_array", "src/oifitslib/free_fits.c"]}
{"id": "C59", "title": "Reading owns what it reads; what it loses is known", "statement": "read_oi_fits makes a dataset with one table for each table of the file that can be read, in order and with the sizes in the file; no block is shared between tables and no block in use before changes, other than the target struct. The blocks allocated during the call are those of the dataset and the arrays and vectors begun for tables that fail after their storage was allocated; exactly these stay when the dataset is freed. If there are none, freeing the dataset gives the storage before the call back. A file that fails before storage for targets is allocated leaves the storage as it is. A table without rows, or with rows without elements, aborts.", "quantifier": "all files (any numbers and sizes of tables, any point of failure of each, any options of OI_VIS), all previous states of the heap and all malloc that return unused addresses with any contents", "why_tests_cant": "Which blocks are lost or shared depends on which of any number of tables fails, where it fails, and on which addresses malloc returns.", "anchors": ["src/oifitslib/oifile.c: read_oi_fits", "src/oifitslib/read_fits.c: read_next_oi_vis", "src/oifitslib/read_fits.c: read_oi_vis_opt", "src/oifitslib/alloc_fits.c", "src/oifitslib/free_fits.c"]}
{"id": "C60", "title": "Two filters in turn do what one filter with both criteria does", "statement": "Applying a filter and then a second one gives the same header, targets, data tables, arrays, instruments, correlation tables and lookups as applying once the filter with the intersected ranges, the joint name patterns, the quantities both accept and the second one's treatment of flagged data. This needs that at most one of them selects a target (which exists) or the second selects target 1, as the first has renumbered its choice; that both or neither accept closure phases and the second accepts closure amplitudes if the first does (or one of them accepts neither quantity); and that the second drops records without good data if the first does. OI_INSPOL tables agree if the instruments they name still have data after the first filter. Such a filter exists whenever the name patterns do not conflict. Two filters that can be joined in both orders can be applied in either order. A filter that selected a target and is applied again for target 1 changes nothing more.", "quantifier": "all consistent datasets, all pairs of filters meeting the conditions (any ranges including NaN and infinite bounds, any patterns)", "why_tests_cant": "The number of pairs of filters and of combinations of flags, ranges and names in a dataset has no bound; a test compares a few.", "anchors": ["src/oifitslib/oifilter.c: apply_oi_filter", "src/oifitslib/oifilter.c: filter_all_oi_vis", "src/oifitslib/oifilter.c: filter_oi_target", "src/oifitslib/oifilter.h: oi_filter_spec"]}
{"id": "C61", "title": "Merging in steps gives what merging at once gives", "statement": "Merging some datasets, and then the result with further ones, gives the same targets, tables, names, lookups, counts and date of observation as merging all of them at once, provided that the names of the first result are distinct and one of the first datasets is dated. The keywords that a file may lack agree; the required ones agree unless only the later datasets have them: a value other than UNKNOWN then becomes MULTIPLE. In particular merging the result of a merge alone gives it back. The result of merging undated datasets cannot be merged again: the library aborts.", "quantifier": "all well-formed lists of datasets of any length and content whose names fit their buffers, split at any point", "why_tests_cant": "The number of datasets, of tables to be matched or renamed and the places to split them at have no bound.", "anchors": ["src/oifitslib/oimerge.c: merge_oi_fits_list", "src/oifitslib/oimerge.c: merge_oi_header", "src/oifitslib/oimerge.c: files_min_mjd", "src/oifitslib/oimerge.c: merge_oi_target", "src/oifitslib/datemjd.c: date2mjd"]}
{"id": "C62", "title": "The demonstration program reads what the library wrote", "statement": "Given the name of a file followed by a newline, demo_read succeeds exactly when the file has a readable header and OI_TARGET, every OI_VIS after the OI_TARGET and every OI_VIS2, OI_T3, OI_FLUX and OI_INSPOL is readable, the tables they name can be read by name, and there is an OI_VIS if there is an OI_VIS2. It then prints one line per table, by kind and in file order, with the names in that table. In particular it does so on a file written from a storable dataset whose names resolve. The CORRNAME shown for an OI_VIS2 should be its own; an OI_VIS should be shown wherever it is; a name without a newline should be used whole.", "quantifier": "all files, all file names shorter than the buffer, all datasets of any number and content of tables", "why_tests_cant": "The order, number and contents of tables, and which of them share names, have no bound.", "anchors": ["src/oifitslib/oitable-demo.c: demo_read", "src/oifitslib/read_fits.c: read_next_oi_vis", "src/oifitslib/read_fits.c: read_oi_array", "src/oifitslib/read_fits.c: read_oi_corr", "src/oifitslib/read_fits.c: read_oi_wavelength"]}
{"id": "C63", "title": "Which datasets can be written to a file", "statement": "For a dataset whose lists have the declared lengths, and a name not in use, write_oi_fits never has undefined behaviour. It aborts exactly when some table has more than 9999 channels and every table before it can be written. Otherwise it returns a zero status exactly when in every table each TARGET_ID and STA_INDEX fits in 16 bits, each correlation index in 32 bits, and each header number has a decimal form (CORRINDX_* only with CORRNAME, FOV only with FOVTYPE, STA_INDEX of OI_FLUX only with ARRNAME). In both cases of a return the only change to the files is the new one. If the name is in use, or the status is not zero beforehand, it returns a non-zero status and changes no file, whatever the dataset.", "quantifier": "all datasets with any number and content of tables, all names, all contents of the disk", "why_tests_cant": "The number of tables, rows and channels has no bound, and one bad value anywhere decides the outcome.", "anchors": ["src/oifitslib/write_fits.c: make_tform", "src/oifitslib/write_fits.c: write_oi_array", "src/oifitslib/write_fits.c: write_oi_target", "src/oifitslib/write_fits.c: write_oi_vis", "src/oifitslib/oifile.c: write_oi_fits"]}
{"id": "C64", "title": "What is read of any dataset that was written without an error", "statement": "If write_oi_fits returns zero for a dataset with non-empty tables, whose optional strings do not consist of blanks alone, then read_oi_fits of that file succeeds and gives every table with the values the file format keeps, each string being the longest beginning that fits (68 characters in a header, quotes counting twice; the column width in a table) without the blanks at its end, characters that a header cannot hold replaced by blanks. References between tables should survive this.", "quantifier": "all datasets, all lengths and characters of strings, all names, all contents of the disk", "why_tests_cant": "Strings have any length and characters; quotes change how many fit.", "anchors": ["src/oifitslib/write_fits.c: write_oi_header", "src/oifitslib/write_fits.c: write_oi_array", "src/oifitslib/read_fits.c: read_oi_array", "src/oifitslib/oifile.c: write_oi_fits", "src/oifitslib/oifile.c: read_oi_fits"]}
{"id": "C65", "title": "A file read and written again is the same file", "statement": "If a file was written without an error by write_oi_fits from a dataset with non-empty tables and optional strings not of blanks alone, then reading it and writing the result to another name succeeds, the two files have the same contents, reading the second gives the same dataset, and no other file is changed. Assumed: a number read from a header is written so that it is read as the same number. It should hold for files with OI_INSPOL too.", "quantifier": "all datasets, all names, all contents of the disk, all cfitsio with the stated property", "why_tests_cant": "Any number and content of tables; a loss may depend on one optional column or keyword.", "anchors": ["src/oifitslib/oifile.c: write_oi_fits", "src/oifitslib/oifile.c: read_oi_fits", "src/oifitslib/read_fits.c: read_oi_vis_opt", "src/oifitslib/write_fits.c: write_oi_vis_opt"]}
{"id": "C66", "title": "The demonstration program turns a text into the file it describes", "statement": "oitable-demo reads a text holding one table of each kind, words separated by any white space, exactly as the dataset it describes, to the end of the text. If the dataset can be stored and the output file does not exist, the file is written, read_oi_fits gives the tables of the text with the header the program makes, demo_read prints one line per data table, the exit status is 0 and no other file is changed. If the output file exists the exit status is 1 and no file is changed. Whatever text was read without undefined behaviour has tables of consistent sizes, and is written, refused without leaving a file, or (10000 channels or more) aborts, according to its contents. Any dataset that can be stored should have such a text.", "quantifier": "all datasets, all texts and white space, all inputs and contents of the disk, all ways to read floating point numbers", "why_tests_cant": "Any number of rows and any optional words; a word may be misread only in the presence or absence of another.", "anchors": ["src/oifitslib/oitable-demo.c: demo_write", "src/oifitslib/oitable-demo.c: scan_opt_string", "src/oifitslib/oitable-demo.c: scan_opt_int", "src/oifitslib/oitable-demo.c: main"]}
{"id": "C67", "title": "Check results can be held, shown and released without error or loss", "statement": "Any sequence of calls in which a check result is formatted and released only after a check filled it and before it is released, and a returned string is used only until the next text is formatted, runs without undefined behaviour, prints exactly the texts of the results and datasets concerned whichever of several results are in use at once, and leaves storage only for results not yet released. Every departure from this (releasing twice, formatting a released or uninitialised result with breaches, printing NULL, using an older string) is undefined, aborts, or shows the newest text; filling a result again without releasing it loses its storage for good. oifits-check keeps to these rules, prints what the checks found and releases everything. A string once returned should stay as it was.", "quantifier": "all sequences of calls on any number of results, all datasets and filters, all ways in which the string's memory moves", "why_tests_cant": "The sequences are unbounded and the failures (use after release, loss) need not be visible in a run.", "anchors": ["src/oifitslib/oicheck.c: init_check_result", "src/oifitslib/oicheck.c: set_result", "src/oifitslib/oicheck.c: free_check_result", "src/oifitslib/oicheck.c: format_check_result", "src/oifitslib/oifile.c: format_oi_fits_summary", "src/oifitslib/oifilter.c: format_oi_filter", "src/util/oifits-check.c: main"]}
{"id": "C68", "title": "Checksums are reported but do not change what is read", "statement": "Whether the checksums of a file are right, wrong or missing, every reading function gives the same result, status and position; the only effect is text on stdout. Reading a whole file prints, for the primary HDU, the first OI_TARGET and every table of the other kinds, in the order in which they are read and once each, one line for a wrong data checksum and one for a wrong HDU checksum, giving number, EXTNAME (empty if missing) and EXTVER (0 if missing); nothing is printed for right or missing checksums or for HDUs that are not part of the dataset. In a file just written the checksums are the last thing written to every HDU, so reading it prints nothing. (Needs that fits_verify_chksum works and EXTVER, if present, is a number: otherwise the behaviour is undefined, or a table is dropped.)", "quantifier": "all files, all outcomes of fits_verify_chksum, all datasets written", "why_tests_cant": "Damaged files are not in test suites, and neither the number of HDUs nor the combinations of wrong checksums are bounded.", "anchors": ["src/oifitslib/read_fits.c: verify_chksum", "src/oifitslib/read_fits.c: read_oi_header", "src/oifitslib/read_fits.c: read_oi_target", "src/oifitslib/read_fits.c: read_next_oi_vis2", "src/oifitslib/oifile.c: read_oi_fits", "src/oifitslib/write_fits.c: write_oi_vis2"]}
{"id": "C69", "title": "Date arithmetic stays within the range of long", "statement": "mjd2date is defined for exactly the days MJD with -2^61 <= MJD + 2468570 < 2^61 and then gives what exact arithmetic gives (C02); date2mjd is defined for every year (it stops outside 1901-2099) with any month and day that are not astronomically large. Merging is defined for all contents of DATE-OBS, and set_oi_header if every MJD in the data is in the range above. (set_oi_header does not test this: refuted for far MJDs.)", "quantifier": "all long arguments, all datasets, all lists of inputs to merge", "why_tests_cant": "Overflow of long is undefined and usually silent, and the arguments that reach it cannot be enumerated.", "anchors": ["src/oifitslib/datemjd.c: date2mjd", "src/oifitslib/datemjd.c: mjd2date", "src/oifitslib/oifile.c: set_oi_header", "src/oifitslib/oimerge.c: merge_oi_header"]}
{"id": "C70", "title": "Python scripts work on datasets as values", "statement": "A Python script that uses a table, record, target or station of a dataset only while a variable holds the dataset (or the dataset is a result of apply() or merge()), and assigns to no list of tables, shows, raises and writes exactly what it would if its variables held values; in particular it never reads released storage. At the end of any script a dataset has been destroyed exactly if OiFits() made it, it was not given to merge(), and no variable holds it. An attribute of a Filter accepts exactly the values of its kind, reads back what was assigned (rounded to single precision for wavelengths and SNRs), and leaves the others alone. For every command line of oifits-filter without uvrad options and --clobber, and of oifits-merge, there is a script that reads and writes the same and raises IOError exactly if the program fails. (Other scripts can read released storage, and apply() and merge() leak: refuted.)", "quantifier": "all straight-line scripts, all files, all attribute values, all command lines", "why_tests_cant": "Use of released storage often goes unnoticed, and the order of uses, deletions and temporaries in scripts is unbounded.", "anchors": ["src/python-oifits/oifits.i", "src/python-oifits/oifits_typemaps.i", "src/python-oifits/oifilter.i", "src/python-oifits/oicheck.i", "src/python-oifits/oimerge.i"]}
{"id": "C71", "title": "Filtering commutes with merging", "statement": "Merging datasets and filtering the result, or filtering each dataset and merging the results, gives the same header, the same targets with the same TARGET_IDs, and the same OI_VIS, OI_VIS2, OI_T3 and OI_FLUX tables in the same order with the same records, which refer to equal channels, arrays with the stations of the same input array, and equal correlations; only the names of OI_ARRAY, OI_WAVELENGTH and OI_CORR tables may differ. This needs datasets in which every table referred to is there, a filter without names and TARGET_ID, and wavelengths and bandwidths that are equal if merging takes them for equal. Neither order fails if the datasets can be merged and have no names of the form that merging generates. What merging returns can always be filtered. (Not for names, OI_INSPOL tables, other filters or wavelengths that nearly agree: refuted.)", "quantifier": "all lists of datasets, all filters by data", "why_tests_cant": "The two orders rename and drop tables differently; agreement must hold for every combination of matching tables in any number of inputs.", "anchors": ["src/oifitslib/oifilter.c", "src/oifitslib/oimerge.c"]}
{"id": "C72", "title": "oifits-filter can be run in steps", "statement": "Running oifits-filter with some options, and again on its output with others, leaves the same file, HDU for HDU, as one run on the first input with a filter that asks for what both ask for; in particular as one run with all the options, if the two commands set different members of the filter, no option widens a range beyond its default, the first command does not drop flagged data and they agree on closure quantities. Running it again with the same options (and TARGET_ID 1, if a target was chosen) leaves an identical file. Run without options on a file that the library wrote, it copies the file if all data are within the default ranges and no table is unused. All runs succeed. (Not if the intermediate file has OI_INSPOL tables, or if an option is given twice: refuted.)", "quantifier": "all readable input files with matching channel counts, all option lists, all file names of at most 1024 characters", "why_tests_cant": "Equality of the files must hold for every dataset and option list; it depends on every field that is written being independent of what reading changes.", "anchors": ["src/util/oifits-filter.c", "src/oifitslib/oifilter.c", "src/oifitslib/read_fits.c", "src/oifitslib/write_fits.c"]}
{"id": "C73", "title": "oifits-merge can be run in steps", "statement": "Merging two or more files into one, and that with further files, leaves the same file, HDU for HDU, as merging all the files at once; all three runs succeed. It is required that the first files have no OI_INSPOL table, a date of observation, table names that do not look generated, standard revision numbers and array coordinates that are kept when written (as those in files that the library wrote are), and that no required keyword is found in the later files only. (Not with OI_INSPOL tables or such a keyword: refuted.)", "quantifier": "all readable input files whose data can be stored, any number of them, all file names", "why_tests_cant": "Equality of the files must hold for every dataset; it depends on every field that merging looks at or copies being independent of what writing and reading change.", "anchors": ["src/util/oifits-merge.c", "src/oifitslib/oimerge.c", "src/oifitslib/read_fits.c", "src/oifitslib/write_fits.c"]}
{"id": "C74", "title": "Storage of the column formats", "statement": "make_tform returns an array of strings in storage that was not in use, one for each template, in which an initial '?' is replaced by the decimal value; it writes only within the blocks it allocated and changes no other storage. If a '?' has to be replaced by a value of more than four characters, it stops the program and overruns no block. So at most 9999 channels can be written, and the product nwave * nwave for VISREFMAP does not overflow. free_tform frees each string and the array exactly once, and after both calls the storage in use is what it was. The formats so made for OI_INSPOL, the complex visibility columns, OI_VIS, OI_VIS2, OI_T3 and OI_FLUX are those with which the columns of these tables are created.", "quantifier": "all templates, all values, all states of the heap, all allocators", "why_tests_cant": "The size of each block depends on the template and the number of characters of the value; absence of an overrun or a leak must hold for all of them.", "anchors": ["src/oifitslib/write_fits.c"]}
