{
 "claims": [
  {
   "property": "C01",
   "status": "proved",
   "theorems": [
    "C01_date2mjd_correct",
    "C01_date2mjd_aborts_outside_range"
   ],
   "note": "All valid dates 1901-2099 against an independent calendar; any other year aborts."
  },
  {
   "property": "C02",
   "status": "proved",
   "theorems": [
    "C02_mjd2date_correct",
    "C02_date_of_mjd_unique",
    "C02_date2mjd_inverts",
    "C02_mjd2date_inverts"
   ],
   "note": "All MJD from -2468570 (1 March of proleptic year -4900) on, both inverse directions. Overflow of C long is not modelled."
  },
  {
   "property": "C03",
   "status": "partial",
   "theorems": [
    "C03_dup_target",
    "C03_dup_array",
    "C03_dup_wavelength",
    "C03_dup_corr",
    "C03_dup_inspol",
    "C03_dup_vis2",
    "C03_dup_t3",
    "C03_dup_flux",
    "C03_dup_vis_without_complex",
    "C03_dup_vis_refuted",
    "C03_dup_vis_partial",
    "C03_dup_empty_aborts"
   ],
   "note": "Eight of nine copies are proved equal. dup_oi_vis with complex data is refuted: IVISERR of the copy is RVISERR (oifile.c:1338). Tables with zero rows abort."
  },
  {
   "property": "C04",
   "status": "proved",
   "theorems": [
    "C04_upgrade_vis",
    "C04_upgrade_vis2",
    "C04_upgrade_t3",
    "C04_upgrade_target",
    "C04_upgrade_array",
    "C04_upgrade_wavelength",
    "C04_upgrade_idempotent"
   ],
   "note": "Frame stated field by field; idempotence."
  },
  {
   "property": "C05",
   "status": "proved",
   "theorems": [
    "C05_lookup_target",
    "C05_lookup_target_by_name",
    "C05_lookup_element",
    "C05_lookup_element_no_array"
   ],
   "note": "First match or none, for every table content."
  },
  {
   "property": "C06",
   "status": "partial",
   "theorems": [
    "C06_lookup_sound",
    "C06_lookup_complete_partial",
    "C06_flux_corrname_refuted",
    "C06_inspol_arrname_refuted"
   ],
   "note": "Sound for every name; complete for references from OI_VIS/VIS2/T3/FLUX ARRNAME and INSNAME and OI_VIS/VIS2/T3 CORRNAME. Refuted for OI_FLUX CORRNAME and OI_INSPOL ARRNAME/INSNAME, which read_oi_fits does not index."
  },
  {
   "property": "C07",
   "status": "proved",
   "theorems": [
    "C07_counts"
   ],
   "note": "Sum specification over all tables, records and channels."
  },
  {
   "property": "C08",
   "status": "partial",
   "theorems": [
    "C08_is_atomic_partial",
    "C08_is_atomic_refuted"
   ],
   "note": "Exact when every MJD lies strictly between 0 and 100000; refuted outside that range."
  },
  {
   "property": "C09",
   "status": "proved",
   "theorems": [
    "C09_set_oi_header"
   ],
   "note": "For datasets with data, MJD in (0,100000) and names that fit the buffers."
  },
  {
   "property": "C10",
   "status": "proved",
   "theorems": [
    "C10_is_oi_fits_one",
    "C10_is_oi_fits_two",
    "C10_exclusive",
    "C10_new_dataset_neither"
   ],
   "note": "Iff characterisations, mutual exclusion, new dataset is neither."
  },
  {
   "property": "C11",
   "status": "proved",
   "theorems": [
    "C11_channels",
    "C11_channel_counts"
   ],
   "note": "For every consistent dataset and fresh filter; an OI_WAVELENGTH is also dropped when no retained data table refers to it."
  },
  {
   "property": "C12",
   "status": "proved",
   "theorems": [
    "C12_vis",
    "C12_vis2",
    "C12_t3",
    "C12_flux",
    "C12_inspol"
   ],
   "note": "Tables and records kept, in order, exactly by an independent predicate (patterns, target, MJD, baselines, a good channel); all four data kinds and OI_INSPOL."
  },
  {
   "property": "C13",
   "status": "proved",
   "theorems": [
    "C13_vis",
    "C13_vis2",
    "C13_t3",
    "C13_flux"
   ],
   "note": "Every column is the accepted channels of the original; VISREFMAP as a submatrix; rejected T3AMP/T3PHI and out-of-range OI_FLUX data become NaN."
  },
  {
   "property": "C14",
   "status": "proved",
   "theorems": [
    "C14_vis",
    "C14_vis2",
    "C14_t3",
    "C14_flux"
   ],
   "note": "Flag set iff it was set or the channel is out of range; OI_FLUX flags unchanged."
  },
  {
   "property": "C15",
   "status": "partial",
   "theorems": [
    "C15_no_unreferenced",
    "C15_insname_resolves",
    "C15_arrname_resolves",
    "C15_corrname_resolves",
    "C15_inspol_arrname_resolves",
    "C15_inspol_insname_refuted"
   ],
   "note": "Proved for OI_ARRAY, OI_WAVELENGTH, OI_CORR and all data table references. Refuted for INSNAME of OI_INSPOL records: their OI_WAVELENGTH can be pruned."
  },
  {
   "property": "C16",
   "status": "proved",
   "theorems": [
    "C16_one_target",
    "C16_target_revision",
    "C16_no_target",
    "C16_records_renumbered",
    "C16_records_selected",
    "C16_all_targets"
   ],
   "note": "Unique id, absent id, no selection; ids in all five kinds of record."
  },
  {
   "property": "C17",
   "status": "proved",
   "theorems": [
    "C17_open_filter",
    "C17_default_filter"
   ],
   "note": "Any filter without selections whose ranges contain the data keeps all data tables unchanged; unreferenced tables go. Default filter shown to be such."
  },
  {
   "property": "C18",
   "status": "partial",
   "theorems": [
    "C18_no_crash",
    "C18_output_consistent",
    "C18_inspol_refuted"
   ],
   "note": "No abort or undefined behaviour on consistent data and output consistent again. Refuted if an OI_INSPOL has records for two instruments (heap overflow)."
  },
  {
   "property": "C19",
   "status": "partial",
   "theorems": [
    "C19_again",
    "C19_third",
    "C19_idempotent_partial",
    "C19_idempotent_refuted"
   ],
   "note": "Data, arrays, wavelengths, correlations and lookups are a fixed point for filters without target selection (selection renumbers ids; C60_again is the statement for those); refuted for OI_INSPOL. What the second application does to OI_INSPOL tables is given exactly by C19_again; a third changes nothing (C19_third)."
  },
  {
   "property": "C20",
   "status": "proved",
   "theorems": [
    "C20_filter_counters",
    "C20_merge"
   ],
   "note": "All eight counters (and NTARGET) after filtering and after merging."
  },
  {
   "property": "C21",
   "status": "proved",
   "theorems": [
    "C21_vis",
    "C21_vis2",
    "C21_t3",
    "C21_missing_wavelength_undefined"
   ],
   "note": "For every consistent dataset whose data tables have their OI_WAVELENGTH; a dataset lacking one makes the first call undefined (proved)."
  },
  {
   "property": "C22",
   "status": "proved",
   "theorems": [
    "C22_vis",
    "C22_vis2",
    "C22_t3"
   ],
   "note": "Visited list and unflagged data of the filtered dataset correspond one to one, with equal keywords, coordinates, wavelength and values; all three kinds."
  },
  {
   "property": "C23",
   "status": "proved",
   "theorems": [
    "C23_vis",
    "C23_vis2",
    "C23_t3"
   ],
   "note": "After any successful call of a row of calls."
  },
  {
   "property": "C24",
   "status": "partial",
   "theorems": [
    "C24_vis2",
    "C24_t3",
    "C24_flux",
    "C24_inspol",
    "C24_corr",
    "C24_vis_plain",
    "C24_vis_partial",
    "C24_vis_refuted",
    "C24_defined",
    "C24_requires",
    "C24_unlisted_target",
    "C24_well_formed"
   ],
   "note": "Every table of every input in order with all values, for any number of well-formed inputs. Refuted for IVISERR of complex OI_VIS (partial theorem covers everything else). Sufficient and necessary conditions for the merge to succeed."
  },
  {
   "property": "C25",
   "status": "partial",
   "theorems": [
    "C25_one_name",
    "C25_nan_refuted",
    "C25_vis",
    "C25_vis2",
    "C25_t3",
    "C25_flux",
    "C25_inspol",
    "C25_arrays",
    "C25_wavelengths",
    "C25_refuted",
    "C25_array_nan_refuted",
    "C25_frame_refuted",
    "C25_no_stations_refuted"
   ],
   "note": "Targets, arrays, wavelengths, correlations; for names that fit and stay distinct in the output (C27 gives that). Refuted without: a reference can move to another input's table. Also refuted for NaN wavelengths (C25_nan_refuted). Arrays at a place that is not a number, of another FRAME or without stations match too (refuted)."
  },
  {
   "property": "C26",
   "status": "proved",
   "theorems": [
    "C26_targets",
    "C26_order"
   ],
   "note": "Ids 1..n, distinct names, exactly the input names, first row of each name, order of first appearance."
  },
  {
   "property": "C27",
   "status": "partial",
   "theorems": [
    "C27_distinct",
    "C27_fit",
    "C27_refuted"
   ],
   "note": "For inputs whose names do not look generated and at most 9999 tables of a kind; refuted otherwise (A, A_003 and another A)."
  },
  {
   "property": "C28",
   "status": "proved",
   "theorems": [
    "C28_header",
    "C28_earliest",
    "C28_undated",
    "C28_old_date"
   ],
   "note": "Eleven keywords, DATE-OBS earliest of the dated inputs. Without a dated input it is 2132-09-01; before 1901 aborts."
  },
  {
   "property": "C29",
   "status": "proved",
   "theorems": [
    "C29_version2",
    "C29_times"
   ],
   "note": "Revisions of every kind, CONTENT, TIME zero."
  },
  {
   "property": "C30",
   "status": "partial",
   "theorems": [
    "C30_copies",
    "C30_arrays",
    "C30_wavelengths",
    "C30_refuted"
   ],
   "note": "Any number of copies for arrays with distinct STA_INDEX; also no two equivalent tables in any merge. Refuted for repeated STA_INDEX."
  },
  {
   "property": "C31",
   "status": "partial",
   "theorems": [
    "C31_header",
    "C31_keywords",
    "C31_visrefmap",
    "C31_unique_targets",
    "C31_targets_present",
    "C31_arrname",
    "C31_flagging",
    "C31_t3amp",
    "C31_waveorder",
    "C31_time",
    "C31_corr_present_partial",
    "C31_corr_present_refuted",
    "C31_flux_partial",
    "C31_flux_refuted",
    "C31_flux_empty_refuted"
   ],
   "note": "Twelve checks against independently stated rules, for all well-formed datasets. check_corr_present needs the index to agree with the OI_CORR list (refuted after reading when only OI_FLUX names it); check_flux needs nonempty tables with STA_INDEX uniformly present (refuted otherwise)."
  },
  {
   "property": "C32",
   "status": "partial",
   "theorems": [
    "C32_header",
    "C32_keywords",
    "C32_visrefmap",
    "C32_unique_targets",
    "C32_targets_present",
    "C32_arrname",
    "C32_corr_present",
    "C32_flagging",
    "C32_t3amp",
    "C32_waveorder",
    "C32_time",
    "C32_flux",
    "C32_tables",
    "C32_elements_present",
    "C32_format",
    "C32_format_none",
    "C32_inspol_location_refuted"
   ],
   "note": "Exact count, worst level, description and ordered location list with truncation, for every check; text of the formatted report. Refuted: location of an OI_INSPOL table without ARRNAME is always #0."
  },
  {
   "property": "C33",
   "status": "partial",
   "theorems": [
    "C33_tables_partial",
    "C33_tables_aborts",
    "C33_tables_refuted",
    "C33_elements_partial",
    "C33_elements_aborts",
    "C33_elements_refuted",
    "C33_inspol_refuted"
   ],
   "note": "Refuted: both checks abort exactly when two kinds of violation occur together; decided in all other cases."
  },
  {
   "property": "C34",
   "status": "proved",
   "theorems": [
    "C34_merged"
   ],
   "note": "For every successful merge of any number of well-formed inputs; success already implies listed targets."
  },
  {
   "property": "C35",
   "status": "proved",
   "theorems": [
    "C35_header",
    "C35_target",
    "C35_array",
    "C35_wavelength",
    "C35_corr",
    "C35_vis",
    "C35_vis2",
    "C35_t3",
    "C35_flux",
    "C35_inspol",
    "C35_array_same",
    "C35_target_same",
    "C35_wavelength_same",
    "C35_corr_same",
    "C35_vis_same",
    "C35_vis2_same",
    "C35_t3_same",
    "C35_flux_same"
   ],
   "note": "Every table that fits in FITS (storable_x), any number of rows and channels, all combinations of optional OI_VIS columns, appended to any file; field-by-field result stored_x, equal to the table itself when it is of version 2 with zero TIME and all optional parts."
  },
  {
   "property": "C36",
   "status": "partial",
   "theorems": [
    "C36_round_trip",
    "C36_inspol_refuted"
   ],
   "note": "Any number of tables of each kind, same order and counts, other files untouched. Refuted for the Jones matrices of OI_INSPOL (read as doubles)."
  },
  {
   "property": "C37",
   "status": "proved",
   "theorems": [
    "C37_version2"
   ],
   "note": "Any dataset whose write succeeds, without assumptions on its contents."
  },
  {
   "property": "C38",
   "status": "partial",
   "theorems": [
    "C38_corrindx_refuted",
    "C38_exactly",
    "C38_succeeds",
    "C38_vis_malformed",
    "C38_vis2_malformed",
    "C38_t3_malformed",
    "C38_inspol_malformed",
    "C38_corr_malformed",
    "C38_flux_malformed",
    "C38_empty_refuted",
    "C38_flux_refuted",
    "C38_revision_refuted",
    "C38_twice_refuted"
   ],
   "note": "The result is, in file order, what each HDU alone gives; tables with a missing or repeated column or a missing keyword give nothing. Refuted: a table without rows aborts; an OI_FLUX table without TARGET_ID, MJD, INT_TIME, FLUXERR or FLAG is returned. So is a correlated OI_VIS without CORRINDX_VISAMP and CORRINDX_VISPHI. A text column that occurs twice is undefined behaviour, and revision 0 is treated differently by OI_VIS (refuted)."
  },
  {
   "property": "C39",
   "status": "partial",
   "theorems": [
    "C39_written_array",
    "C39_written_wavelength",
    "C39_written_corr",
    "C39_array_stops",
    "C39_wavelength_stops",
    "C39_corr_stops",
    "C39_array_hidden",
    "C39_wavelength_hidden",
    "C39_corr_hidden",
    "C39_other_refuted",
    "C39_array_partial",
    "C39_wavelength_partial",
    "C39_corr_partial",
    "C39_array_absent",
    "C39_wavelength_absent",
    "C39_corr_absent",
    "C39_image_refuted"
   ],
   "note": "First table of the name when only binary tables precede it, and BAD_HDU_NUM when there is none; refuted when an image or an ASCII table precedes it; what is read then is characterised for every file."
  },
  {
   "property": "C40",
   "status": "proved",
   "theorems": [
    "C40_call",
    "C40_calls",
    "C40_files"
   ],
   "note": "All 23 public functions, any sequence of calls, and read_oi_fits/write_oi_fits."
  },
  {
   "property": "C41",
   "status": "proved",
   "theorems": [
    "C41_dup",
    "C41_free",
    "C41_discard_copy",
    "C41_discard_original",
    "C41_use_one",
    "C41_free_dataset"
   ],
   "note": "All nine kinds of tables, any heap, any malloc that returns unused addresses; later use of storage is any sequence of writes, frees and allocations. Copying needs at least one row (a copy of an empty table aborts). Contents of the copy are equal except IVISERR (C03). For the filter see C57, for merging C58, for reading C59."
  },
  {
   "property": "C42",
   "status": "proved",
   "theorems": [
    "C42_header",
    "C42_arrays",
    "C42_corrs"
   ],
   "note": "Header verbatim; arrays and correlations kept verbatim when accepted and in use."
  },
  {
   "property": "C43",
   "status": "partial",
   "theorems": [
    "C43_filter_category_partial",
    "C43_filter_category_refuted",
    "C43_merge_refuted"
   ],
   "note": "Kept by a filter without target selection; refuted for a filter with a selected target and for every merge."
  },
  {
   "property": "C44",
   "status": "proved",
   "theorems": [
    "C44_glob",
    "C44_star_accepts_all",
    "C44_literal"
   ],
   "note": "glob model equals the inductive relation; '*' accepts every name; literal patterns accept only themselves. Byte semantics, not UTF-8."
  },
  {
   "property": "C45",
   "status": "proved",
   "theorems": [
    "C45_alloc",
    "C45_no_rows",
    "C45_no_channels",
    "C45_alloc_free"
   ],
   "note": "All nine alloc_oi_x, any previous contents of the struct and of new storage."
  },
  {
   "property": "C46",
   "status": "proved",
   "theorems": [
    "C46_layout",
    "C46_target",
    "C46_array",
    "C46_wavelength",
    "C46_corr",
    "C46_inspol",
    "C46_vis",
    "C46_vis2",
    "C46_t3",
    "C46_flux",
    "C46_order_refuted"
   ],
   "note": "Any dataset whose write succeeds. Columns up to their order. The lists in LayoutSpec.v were compared with write_fits.c, no copy of the standard being available. The order differs from that of the standard for OI_VIS with optional columns (C46_order_refuted)."
  },
  {
   "property": "C47",
   "status": "proved",
   "theorems": [
    "C47_fits",
    "C47_tables",
    "C47_status"
   ],
   "note": "read_oi_fits and the twelve functions that read a table; any file, any status before."
  },
  {
   "property": "C48",
   "status": "partial",
   "theorems": [
    "C48_names_refuted",
    "C48_output",
    "C48_files",
    "C48_existing",
    "C48_unreadable",
    "C48_usage",
    "C48_incomplete_refuted"
   ],
   "note": "Success under targets_match, storable_fits and roomy_names; all other clauses for all files and arguments. Refuted: a failed run leaves part of the output (C48_incomplete_refuted). Without roomy_names data can get another instrument's wavelengths (C48_names_refuted)."
  },
  {
   "property": "C49",
   "status": "partial",
   "theorems": [
    "C49_output",
    "C49_files",
    "C49_existing",
    "C49_refused",
    "C49_twice",
    "C49_usage_partial",
    "C49_usage_refuted"
   ],
   "note": "Refuted for four arguments (INSMODE missing): the program runs with NULL for it. All other clauses hold."
  },
  {
   "property": "C50",
   "status": "partial",
   "theorems": [
    "C50_output",
    "C50_files",
    "C50_refused",
    "C50_unremovable",
    "C50_unreadable",
    "C50_usage",
    "C50_clobber_refuted",
    "C50_target_refuted",
    "C50_long_name_refuted"
   ],
   "note": "Refuted in three ways: failed writing after --clobber loses the old file; an absent target gives an unreadable output; names over 1024 characters are cut."
  },
  {
   "property": "C51",
   "status": "partial",
   "theorems": [
    "C51_output_partial",
    "C51_aborts",
    "C51_output_refuted",
    "C51_unreadable",
    "C51_usage"
   ],
   "note": "Exact output for files whose names are indexed (named_elsewhere, see C06) and whose violations do not make a check abort; C51_aborts shows that it aborts on those."
  },
  {
   "property": "C52",
   "status": "proved",
   "theorems": [
    "C52_filter",
    "C52_default",
    "C52_text"
   ],
   "note": "All options of the program."
  },
  {
   "property": "C53",
   "status": "proved",
   "theorems": [
    "C53_summary"
   ],
   "note": "Number of blanks used for padding is left open; printing of floating point numbers is an arbitrary function."
  },
  {
   "property": "C54",
   "status": "proved",
   "theorems": [
    "C54_rules",
    "C54_conforms",
    "C54_passes",
    "C54_spectrum_refuted"
   ],
   "note": "Refuted for what is left being only calibrated OI_FLUX tables (no OI_ARRAY); C54_conforms gives the exact condition."
  },
  {
   "property": "C55",
   "status": "proved",
   "theorems": [
    "C55_conforms",
    "C55_passes",
    "C55_version1_refuted"
   ],
   "note": "Any number of inputs of both versions. Refuted for version 1 input without OI_ARRAY."
  },
  {
   "property": "C56",
   "status": "proved",
   "theorems": [
    "C56_check",
    "C56_written",
    "C56_written_check",
    "C56_version2",
    "C56_version1",
    "C56_filter",
    "C56_merge",
    "C56_upgrade"
   ],
   "note": "Files whose names are indexed (named_elsewhere, see C06), as in C51; success conditions of C48-C50. For oifits-filter the condition on what is left is has_stations."
  },
  {
   "property": "C57",
   "status": "partial",
   "theorems": [
    "C57_apply",
    "C57_free_output",
    "C57_free_input",
    "C57_freeable",
    "C57_two_targets_refuted"
   ],
   "note": "Any heap, malloc, decisions and written numbers, for datasets without empty tables whose channel counts agree with OI_WAVELENGTH. Refuted if two rows of OI_TARGET have the TARGET_ID selected: a block is lost."
  },
  {
   "property": "C58",
   "status": "proved",
   "theorems": [
    "C58_merge",
    "C58_free_output",
    "C58_free_inputs",
    "C58_too_many"
   ],
   "note": "Any heap, malloc, outcome of the matching and text of new names, for datasets without empty tables whose names and TARGET_IDs resolve. The keys of hash tables are strings, not pointers."
  },
  {
   "property": "C59",
   "status": "proved",
   "theorems": [
    "C59_read",
    "C59_free",
    "C59_all_returned",
    "C59_lost_refuted",
    "C59_nothing",
    "C59_free_after_failure_refuted",
    "C59_empty"
   ],
   "note": "Any heap, malloc and contents of new storage, any file. Refuted: a skipped table whose reading fails after allocation loses its arrays although reading succeeds, and freeing the dataset of a file that failed before targets were allocated is undefined."
  },
  {
   "property": "C60",
   "status": "proved",
   "theorems": [
    "C60_inspols",
    "C60_order_inspols",
    "C60_again_inspols",
    "C60_then",
    "C60_exists",
    "C60_order",
    "C60_again",
    "C60_drop_first",
    "C60_phases_later",
    "C60_amps_later",
    "C60_inspol_later"
   ],
   "note": "Any pow. Four further theorems show by cases that the conditions on flagged data, closure phases, closure amplitudes and OI_INSPOL are needed. C60_again covers what C19 leaves out, filters that select a target. Which OI_INSPOL tables remain is given exactly by C60_inspols, C60_order_inspols and C60_again_inspols."
  },
  {
   "property": "C61",
   "status": "proved",
   "theorems": [
    "C61_steps",
    "C61_defined",
    "C61_header",
    "C61_header_unknown",
    "C61_again",
    "C61_undated",
    "C61_names_needed",
    "C61_later_first"
   ],
   "note": "Distinct names in the first result follow from plain_names (C27). Two further theorems show by cases that distinct names are needed and that merging the later inputs first gives other names."
  },
  {
   "property": "C62",
   "status": "partial",
   "theorems": [
    "C62_success",
    "C62_written",
    "C62_own_names",
    "C62_corrname_refuted",
    "C62_undefined",
    "C62_order_refuted",
    "C62_newline_refuted"
   ],
   "note": "Refuted: an OI_VIS2 is shown with the CORRNAME of the last OI_VIS (undefined without one); an OI_VIS before the OI_TARGET is not read; a name without newline loses its last character."
  },
  {
   "property": "C63",
   "status": "proved",
   "theorems": [
    "C63_defined",
    "C63_aborts",
    "C63_succeeds",
    "C63_one_file",
    "C63_existing"
   ],
   "note": "Outcome of the whole call decided by the contents of the tables in file order; cases for 10000 channels, a NaN ARRAYX and a TARGET_ID of 40000."
  },
  {
   "property": "C64",
   "status": "partial",
   "theorems": [
    "C64_read_back",
    "C64_header_text",
    "C64_column_text",
    "C64_reference_refuted"
   ],
   "note": "Refuted: references. Two OI_ARRAY names that differ after their 68th character become one, and a table that named the second is read as naming the first."
  },
  {
   "property": "C65",
   "status": "partial",
   "theorems": [
    "C65_copy",
    "C65_inspol_refuted"
   ],
   "note": "Refuted for OI_INSPOL, whose Jones matrices are misread (C36_inspol_refuted). The date of writing is the same for both files in the model."
  },
  {
   "property": "C66",
   "status": "partial",
   "theorems": [
    "C66_scan",
    "C66_orders_refuted",
    "C66_fovtype_refuted",
    "C66_written",
    "C66_main",
    "C66_exists",
    "C66_files",
    "C66_shape",
    "C66_ends",
    "C66_no_unit",
    "C66_no_text"
   ],
   "note": "Refuted: AMPORDER without AMPTYP and PHITYP, PHIORDER without PHITYP and AMPORDER, and a station's fovtype of more than 6 characters lead to undefined behaviour. How floating point numbers are read is an arbitrary function."
  },
  {
   "property": "C67",
   "status": "partial",
   "theorems": [
    "C67_safe",
    "C67_agrees",
    "C67_free",
    "C67_format",
    "C67_set",
    "C67_set_other",
    "C67_print_null",
    "C67_print_stale",
    "C67_shared_refuted",
    "C67_leaks",
    "C67_program"
   ],
   "note": "Refuted: a returned string is replaced by the next text formatted, of whatever kind. Whether GLib moves the memory of the string is an arbitrary function."
  },
  {
   "property": "C68",
   "status": "partial",
   "theorems": [
    "C68_same",
    "C68_readers",
    "C68_warnings",
    "C68_once",
    "C68_about",
    "C68_silent",
    "C68_written",
    "C68_error_undefined",
    "C68_extver_refuted"
   ],
   "note": "Refuted without the condition on EXTVER: a wrong checksum makes a table with a malformed EXTVER unreadable. Undefined if fits_verify_chksum fails and leaves -1."
  },
  {
   "property": "C69",
   "status": "partial",
   "theorems": [
    "C69_mjd2date",
    "C69_date2mjd",
    "C69_merge",
    "C69_header_partial",
    "C69_header_refuted"
   ],
   "note": "Proved for both functions of datemjd.c and for merging. For set_oi_header proved for MJDs in the range and refuted otherwise."
  },
  {
   "property": "C70",
   "status": "partial",
   "theorems": [
    "C70_script",
    "C70_temporary_refuted",
    "C70_deleted_refuted",
    "C70_list_refuted",
    "C70_position_refuted",
    "C70_name_refuted",
    "C70_destroyed",
    "C70_no_leak",
    "C70_leak_refuted",
    "C70_accepted",
    "C70_stored",
    "C70_long_name_refuted",
    "C70_filter",
    "C70_merge",
    "C70_table",
    "C70_index_error",
    "C70_len",
    "C70_row"
   ],
   "note": "Proved for scripts that keep their datasets. Refuted for others (use after free), for positions and names out of range, for storage left by apply() and merge(), and for patterns of 71 characters. What is shown of a dataset is stated separately from the interpreter by C70_table, C70_row, C70_len and C70_index_error."
  },
  {
   "property": "C71",
   "status": "partial",
   "theorems": [
    "C71_given",
    "C71_defined",
    "C71_consistent",
    "C71_equal_refuted",
    "C71_inspol_refuted",
    "C71_inexact_refuted",
    "C71_by_name_refuted",
    "C71_by_target_refuted"
   ],
   "note": "Proved up to names. Refuted for equality with names, OI_INSPOL, filters by name or TARGET_ID, and wavelengths that are close but not equal."
  },
  {
   "property": "C72",
   "status": "partial",
   "theorems": [
    "C72_pipeline",
    "C72_options",
    "C72_again",
    "C72_copy",
    "C72_inspol_refuted",
    "C72_repeated_refuted"
   ],
   "note": "Proved if the intermediate file has no OI_INSPOL table. Refuted with such tables, and for options given twice."
  },
  {
   "property": "C73",
   "status": "partial",
   "theorems": [
    "C73_steps",
    "C73_exact",
    "C73_keyword_refuted",
    "C73_inspol_refuted"
   ],
   "note": "Proved if the first inputs have no OI_INSPOL table and no required keyword is found in later inputs only. Refuted otherwise."
  },
  {
   "property": "C74",
   "status": "proved",
   "theorems": [
    "C74_make",
    "C74_abort",
    "C74_range",
    "C74_square",
    "C74_free",
    "C74_returned",
    "C74_inspol",
    "C74_complex",
    "C74_vis",
    "C74_vis2",
    "C74_t3",
    "C74_flux"
   ],
   "note": "Proved. That storage is not exhausted (chkmalloc) is assumed."
  }
 ]
}