# Formal model of OIFITSlib in Coq 8.16.1

Source: `/repo/src/oifitslib` (C). The model is in `rocq/theories`, logical
name `Verif`. Properties are listed in `properties.jsonl`, their status in
`MANIFEST.json`, bug-seeding experiments in `seeded/LOG.jsonl`.

## How the code is modelled

* Each C function becomes a total computable Gallina function in a `*Model.v`
  file, with a comment citing file and lines.
* `res A := Ok a | Abort | UB`. `Abort` stands for a failed `assert`/`g_assert`
  or a `chkmalloc` abort (zero size). `UB` stands for an out-of-bounds access or
  a NULL dereference. Arrays are lists read by `nth_error` (missing = `UB`);
  the C counts (`nwave`, `numrec`, ...) are separate integer fields, so that a
  count that disagrees with the storage is expressible.
* `char buf[N]` holding a C string is a Coq `string`. Truncation by
  `g_strlcpy`/`g_snprintf` is modelled.
* `double`/`float` are `SpecFloat.spec_float` values with the IEEE-754
  operations of the standard library for binary64 and binary32 (round to
  nearest even, `FLT_EVAL_METHOD == 0`).
* `pow(x, 0.5)` is a parameter of the functions (universally quantified
  in the theorems).
* `GHashTable` is a finite map (association list), `GList` a list.
* `GPatternSpec` matching is a recursive glob matcher over `*` and `?`.
* Arithmetic on `int`/`long` is in `Z`; where overflow could matter a range
  hypothesis is stated.
* FITS files are lists of HDUs with keywords and named, typed columns.
  The cfitsio calls used are modelled on that structure.

## Plan per property

| id | what is modelled | how it will be proved |
|---|---|---|
| C01 | `date2mjd` | day count of an independent Gregorian calendar; per-month case analysis and `lia` |
| C02 | `mjd2date` | closed-form day number, shown to advance by one per calendar day and to be injective, matched stage by stage against the algorithm |
| C03 | nine `dup_*` | loop lemmas; `dup_oi_vis` refuted for `iviserr`, partial otherwise |
| C04 | six `upgrade_*` | induction over records; frame stated field by field |
| C05 | lookups | induction over rows |
| C06 | hash filling in `read_oi_fits` | invariant "every entry is the result of the list search"; refuted for OI_FLUX CORRNAME and OI_INSPOL ARRNAME |
| C07 | `count_oi_fits_data` | nested-loop lemma against a sum specification |
| C08 | `is_atomic`, min/max MJD | fold invariant; bounded MJD range precondition |
| C09 | `set_oi_header` | case analysis, C02 |
| C10 | version predicates | induction over lists |
| C11-C14, C16, C42 | all of `oifilter.c` | refinement of the C loops to `filter`/`map` on lists |
| C15 | pruning | invariants of removal loops |
| C17 | default filter | corollary of refinement |
| C18 | whole filter | absence of `UB`/`Abort` under a boolean well-formedness predicate |
| C19 | whole filter | via refinement |
| C20 | filter, merge | invariant |
| C21-C23 | `oiiter.c` | step function; trace induction over the call history |
| C24-C30 | `oimerge.c` | refinement of loops, invariants over the accumulated output |
| C31-C33 | `oicheck.c` | loops refined to a list of violations; counterexamples for aborts |
| C34 | merge + check | composition |
| C35 | `write_fits.c`, `read_fits.c` on an abstract FITS file | each writer shown to append one explicit HDU (sequence of cfitsio calls as a state transformer, loops over rows by induction), each reader run on that HDU |
| C36 | `write_oi_fits`, `read_oi_fits` | composition of C35 over the lists; the reading loop is shown equal to collecting over the HDUs of that name; refuted for the Jones matrices of OI_INSPOL |
| C37 | same | Hoare-style invariant over the calls of a writer, with no assumption on the dataset; only success of the call is assumed |
| C38 | reading loops | reading a file = reading each HDU alone, in order; a missing column or keyword makes the status stick; refuted for tables without rows and for OI_FLUX |
| C39 | `specific_named_hdu` | induction over the HDUs; partial: only binary tables before the wanted one; refuted otherwise, and what is read instead is given for every file (HiddenProps) |
| C40 | all 23 public I/O functions | case analysis, then induction over sequences of calls |
| C41 | `dup_oi_x`, `free_oi_x`, `free_list`, `free_oi_fits` on a heap of blocks (HeapModel.v) | loop invariants for the two forms of table (arrays, records with vectors), instantiated for the nine kinds; frame argument for later use of storage |
| C43 | `usecategory` | refuted by computation |
| C44 | glob matcher | inductive specification of matching |
| C45 | `alloc_oi_x` on the same heap | as C41; new arrays have arbitrary contents |
| C46 | as C37 | LayoutSpec.v lists keywords and columns of each kind; invariant over the calls of a writer (keywords so far, headings, number of rows, rectangular data), case analysis over the optional columns |
| C47 | readers of C38 | post-condition of each reader, propagated through the reading monad and the reading loops |
| C48-C50 | `main` of the programs as functions of arguments and files (ToolModel.v) | C36, C37, C47 with the theorems on merging and filtering; `storable_x` shown to be preserved by both |
| C51 | same | C32, C33 for datasets that were read; C47 supplies well-formedness |
| C52 | option handling of `oifilter.c` | induction over the options |
| C53 | `format_oi_fits_summary` | the whole text as its parts in order, up to padding; fold invariant for the extreme wavelengths |
| C54 | as C11-C20, C31 | each rule of ConformSpec.v separately, from what C11-C20 say of the result |
| C55 | as C24-C30, C31 | each rule separately; references from C25, stations and targets from the matching rules of C26, C30 |
| C56 | as C47-C51 | C54 and C55 with C36 (what is read of a written file), C51 |
| C57 | `apply_oi_filter` and all it calls, on the heap of C41 (HeapFilterModel.v) | what each loop has allocated so far (`grows`, `building`, `held`); frame argument for the input; partial: at most one row of OI_TARGET selected, no empty tables, as many channels as in OI_WAVELENGTH; refuted for two rows |
| C58 | `merge_oi_fits_list` and all it calls, on the heap of C41 (HeapMergeModel.v) | as C57: what each loop has allocated so far; the numbers of the targets are allocated before and freed after all tables; needs: no empty tables, every name and TARGET_ID resolves; 100 target names or more shown to abort |
| C59 | `read_oi_fits` and the readers it calls, on the heap of C41 (HeapReadModel.v); a file is given by the sizes of its tables and where reading them fails | as C57; each reader has allocated the table or counted blocks of it; refuted for tables that fail after their storage is allocated |
| C60 | `apply_oi_filter` as C11-C20 | the description of one filtered table (FilterTables) composed with itself: channels and records selected twice are those selected by both; flags set twice are the union; conditions shown to be needed by cases |
| C61 | `merge_oi_fits_list` as C24-C30 | the run on the first inputs replayed on its own output: every named table is copied unchanged and keeps its name, every TARGET_ID is given again, and the run continues from the same state; header keywords from their description (C28) |
| C62 | `demo_read` of oitable-demo.c (DemoModel), over the readers of C34-C39 | each loop against the list of readable tables from a position on (induction on the file); a file written by the library has the tables of its dataset, found by name (ByName) |
| C63 | `write_oi_fits` and the writers as C35-C37 | each table either aborts, is written, or leaves a non-zero status, according to its contents alone (`verdicts`); composed in file order |
| C64 | same, and `read_oi_fits` | writing a dataset and writing it with its strings cut give the same calls; the latter is `storable_fits`, hence C36 |
| C65 | same | each HDU made from `stored_x t` is the HDU made from `t`; `stored_x t` is storable; assumes that a number read from a header is written unchanged (`settled`); refuted for OI_INSPOL |
| C66 | `demo_write`, `scan_opt_*` and `main` of oitable-demo.c, with `fscanf` as a function of format and text (ScanModel) | the text of a dataset is a list of words with any white space between (`text_of`); each call of `fscanf` takes the words it should (`reads`), composed over rows and tables; the HDUs as C36 in another order; the outcome of writing from the lemmas of C63; refuted for AMPORDER or PHIORDER without the types, and for a long fovtype |
| C67 | `init_check_result`, `set_result`, `free_check_result`, `format_check_result` with the chunk that holds the strings, and the GString shared by the three `format_*` functions (ReportModel) | rules for sequences of calls told from the calls alone (`may_call`); an invariant between the calls made and the memory, preserved by every call that keeps to the rules; each rule shown to be needed; the storage refines CheckModel; the calls of oifits-check keep to the rules |
| C68 | `verify_chksum` and its calls by every function of read_fits.c and by `read_oi_fits`, with the warnings printed (ChksumModel) | a simulation between the reading that prints and the silent one of ReadModel, carried through the loops; the warnings of a whole reading computed from the HDUs alone; each relevant HDU shown to be verified exactly once; every writer shown to end with `fits_write_chksum` |
| C69 | datemjd.c with `long` of 64 bits, each operation that leaves the range being undefined, and its calls by `set_oi_header` and `merge_oi_header` (LongModel); compared with the unbounded integers of DateModel | interval reasoning on the quotients; the range of days for which `mjd2date` is defined is exact; for merging, that every number passed to `date2mjd` and back comes from a scanned date within 1901-2099 |
| C70 | the classes and functions of python-oifits with their typemaps, as an interpreter for straight-line Python scripts over datasets in memory (PyModel); compared with an evaluator in which variables hold values (PySpec) | simulation between the two for scripts that keep their datasets, by induction on expressions and on the script; an account of objects with temporaries for what is destroyed; refutations by scripts that use freed storage |
| C71 | apply_oi_filter and merge_oi_fits_list in both orders (FilterModel, MergeModel); results compared up to the names of OI_ARRAY, OI_WAVELENGTH and OI_CORR tables (CommuteSpec) | both orders reduced to the same function of each input's tables by the laws of C11–C23 and C30–C35; channels agree because close wavelengths are equal; concrete cases and counterexamples by computation |
| C72 | oifits-filter run on its own output (ToolModel, with the reading, filtering and writing models); the files compared HDU for HDU | filtering commutes with storing and reading back, table by table (PipeProofs); then C60 for the datasets; the options of two commands are shown to make a joint filter member by member (PipeOptions); counterexamples by computation |
| C73 | oifits-merge run on its own output and further files (ToolModel, with the reading, merging and writing models); the files compared HDU for HDU | merging commutes with storing and reading back its first part, table by table (StepsStored, StepsWhole); then C61 for the datasets, and equal datasets give equal files (StepsFiles); counterexamples by computation |
| C74 | make_tform and free_tform on a heap of blocks of cells (TformModel); malloc is any function that returns unused storage; overrunning a block, reading an unwritten cell or freeing what is not in use is undefined behaviour | loop invariants over the two loops (TformProofs); the formats of WriteModel are related to the templates text by text (TformMain) |

## Findings

Each is a theorem unless marked (text).

* `dup_oi_vis` fills IVISERR of the copy from RVISERR (oifile.c:1338)
  (C03_dup_vis_refuted); merging therefore loses IVISERR (C24_vis_refuted).
* Duplicating a table without rows aborts (`chkmalloc(0)`), so filtering and
  merging need non-empty tables.
* `read_oi_fits` does not index CORRNAME of OI_FLUX nor ARRNAME/INSNAME of
  OI_INSPOL (C06_flux_corrname_refuted, C06_inspol_arrname_refuted).
* `is_atomic` is wrong for MJD outside (0, 100000) (C08_is_atomic_refuted).
* `apply_oi_filter`: OI_WAVELENGTH used only by OI_INSPOL records is pruned
  (C15_inspol_insname_refuted); OI_INSPOL records for two instruments overflow
  a buffer (C18_inspol_refuted); filtering twice can change OI_INSPOL
  (C19_idempotent_refuted); selecting a target drops CATEGORY
  (C43_filter_category_refuted); if two targets have the TARGET_ID selected, the
  first allocated block is lost (C57_two_targets_refuted).
* `demo_read` prints, for an OI_VIS2, the CORRNAME of the last OI_VIS
  (C62_corrname_refuted), or one that was never set (C62_undefined); an OI_VIS
  before the OI_TARGET is skipped (C62_order_refuted); a file name ended by the
  end of the input loses its last character (C62_newline_refuted); the OI_ARRAY
  of an OI_INSPOL is always looked up, unlike that of the other tables
  (`all_resolved`).
* Iterators: a data table without its OI_WAVELENGTH is undefined behaviour
  (C21_missing_wavelength_undefined).
* `merge_oi_fits_list`: a generated name may be the name of another input table
  (C27_refuted), and references then move to the wrong table (C25_refuted);
  a record whose TARGET_ID is not listed dereferences NULL
  (C24_unlisted_target); 100 distinct targets abort (C24_requires); DATE-OBS
  before 1901 aborts (C28_old_date); without any DATE-OBS the output has
  2132-09-01 (C28_undated), and a further merge of that file aborts, because
  `date2mjd` asserts a year up to 2099 (C61_undated); a required keyword that
  only a later input has becomes UNKNOWN and then MULTIPLE when merging in
  steps (C61_header_unknown); CATEGORY is always lost (C43_merge_refuted); an
  array with a repeated STA_INDEX is not recognised as equal to itself
  (C30_refuted).
* `check_tables` aborts (failed assert in `set_result`) exactly when a mandatory
  table is missing and an OI_REVN is wrong (C33_tables_aborts);
  `check_elements_present` aborts exactly when an OI_INSPOL lacks ARRNAME and a
  station is missing (C33_elements_aborts).
* After reading, an OI_CORR named only by OI_FLUX and the stations of an OI_ARRAY
  named only by OI_INSPOL are reported missing (C31_corr_present_refuted,
  C33_inspol_refuted).
* `check_flux` looks at the first record only (C31_flux_refuted) and reads it
  even if there is none (C31_flux_empty_refuted).
* An OI_INSPOL without ARRNAME is always located at `#0`
  (C32_inspol_location_refuted). `print_check_result` of a passing check passes
  NULL to printf (C32_format_none).
* `read_oi_inspol` reads complex columns as doubles, one per channel: Jones
  matrices do not survive writing and reading (C36_inspol_refuted).
* Reading a file with a table that has no rows or no channels aborts
  (C38_empty_refuted).
* An OI_FLUX table without TARGET_ID, MJD, INT_TIME, FLUXERR or FLAG is accepted
  with uninitialised contents: the test for the optional STA_INDEX column clears
  the error (C38_flux_refuted).
* `read_oi_array`, `read_oi_wavelength`, `read_oi_corr` stop at the first extension
  that is not a binary table and try to read that (C39_image_refuted): no table after an image is
  found (C39_*_hidden), and an ASCII table may be taken for the one asked for (C39_other_refuted).
* What C35 shows not to be written or read (`stored_x` in IOSpec.v): AMPUNIT unless
  AMPTYP is "correlated flux", COMPLEXUNIT without complex data, FOV of OI_FLUX
  without FOVTYPE, STA_INDEX of OI_FLUX without ARRNAME, CORRINDX_* without CORRNAME
  (left uninitialised), CATEGORY when not in use (left uninitialised), TIME.
* `make_tform` asserts that the repeat count has at most four digits: writing
  a table with 10000 channels aborts (C63_aborts), unless an earlier table has failed.
  A NaN ARRAYX, or a TARGET_ID outside 16 bits, cannot be written (C63_succeeds); the
  incomplete file is left behind (C63_one_file). Names that differ only after their
  68th character are written alike, so that a reference to one table becomes a
  reference to another (C64_reference_refuted). A file with OI_INSPOL is not the same
  after being read and written (C65_inspol_refuted).
* oitable-demo: `fovtype` of a station is read by `%s` into 7 characters
  (C66_fovtype_refuted). AMPORDER without AMPTYP and PHITYP, or PHIORDER without PHITYP
  and AMPORDER, is not understood, as the first letters of the keyword are consumed by
  the failed match for the one before (C66_orders_refuted). A text that cannot be opened
  is read through a null pointer (C66_no_text). AMPTYP "correlated flux" cannot be read by
  `%s`, as the code notes, so AMPUNIT is never written (C66_no_unit).
  A string returned by `format_oi_fits_summary`, `format_oi_filter` or `format_check_result` is
  replaced, or its memory released, by the next call of any of them (C67_shared_refuted).
  If `fits_verify_chksum` fails and leaves a result at -1, `verify_chksum` prints a name it
  never read (C68_error_undefined). With a wrong checksum, a table whose EXTVER is not a number
  is dropped, though it is read if the checksum is right (C68_extver_refuted).
* A correlated OI_VIS without CORRINDX_VISAMP is accepted: the error is
  cleared by the test for VISREFMAP (C38_corrindx_refuted). `read_oi_vis_opt` tests `revision == 1` where
  all other functions test `>= 2` (C38_revision_refuted). `read_col_string` uses an
  uninitialised type code if a column name occurs twice (C38_twice_refuted).
* The positions at which optional columns of OI_VIS are inserted assume that no
  other optional column is there: with CORRNAME, RVIS to IVISERR are put between VISPHI
  and VISPHIERR (C46_order_refuted). Readers look columns up by name, so this is
  harmless; C46 states the columns up to their order.
* `read_oi_fits` releases a table it skips with `free` of the struct only, so arrays
  already allocated for it are lost (oifile.c:736-941; C59_lost_refuted). If the file
  cannot be opened, or reading fails before the targets are allocated, the pointer to the
  targets is left uninitialised, and `free_oi_fits` must not be called
  (C59_free_after_failure_refuted). The four programs do not.
* (text) When the filter keeps no channel or no record it calls `realloc` with
  size zero (oifilter.c:770-773, 918-930, 1170, 1361, 1621, 1755).
* A NaN wavelength is close to everything in the matching of wavelengths, so that data of
  one instrument come to refer to another (C25_nan_refuted). So is a NaN coordinate in
  the matching of arrays (C25_array_nan_refuted). FRAME is not compared (C25_frame_refuted).
  An OI_ARRAY without elements matches any array at the same position, and is an abort
  if there is none (C25_no_stations_refuted).
* The programs leave a partial output file when writing fails (C48_incomplete_refuted).
  `oifits-filter --clobber` removes the old file before it writes, so that it is lost
  then, even if it was the input (C50_clobber_refuted). Such a failure happens for
  every file with an integer outside 16 bits in a column that is written as 16 bits.
* `oifits-filter` given an absent TARGET_ID writes a file with no targets, exits with 0,
  and no program can read that file (C50_target_refuted). File names are silently cut to
  1024 characters; with --clobber another file is overwritten (C50_long_name_refuted).
* `oifits-upgrade` tests `argc < 5` but uses `argv[5]`: without INSMODE it passes NULL to
  `g_strlcpy` (taken to return with a warning) and writes a file (C49_usage_refuted).
* `oifits-check` exits with 0 when checks fail (C51_output_partial), and aborts where a
  check does (C51_aborts).
* A filter that leaves only calibrated OI_FLUX tables prunes every OI_ARRAY, and the result
  breaks the rule that version 2 files have one (C54_spectrum_refuted).
* Merging version 1 data without OI_ARRAY gives data labelled version 2 without one
  (C55_version1_refuted); `oifits-upgrade` refuses such input.
* A merged table gets a name of up to 5 characters more than its own; if that
  exceeds 68 characters it is cut in the file, and data get the wavelengths of another
  instrument (C48_names_refuted; hence `roomy_names` in C48_output).
* `set_oi_header` converts the least MJD to a date whatever it is: one about 2^61 days away
  overflows `long` (C69_header_refuted).
* Python: a table, record, target or station does not keep its dataset alive, so that
  `OiFits('a').visList[0].numrec` reads freed storage (C70_temporary_refuted), as does a part
  of a dataset that was deleted (C70_deleted_refuted). Assigning to a list of tables releases
  the new list (C70_list_refuted). `record[i]` is not checked and does not count from the end
  (C70_position_refuted). `get_nwave`, `get_nelement` and `get_eff_wave` follow a null pointer
  if the name is absent (C70_name_refuted). Results of `apply` and `merge`, and arguments of
  `merge`, are never destroyed (C70_leak_refuted). A pattern of 71 characters has no null
  (C70_long_name_refuted). A range of ints is refused (C70_accepted), and there is none for
  UV radii.
* Filtering and merging commute only up to names (C71_equal_refuted), and not for filters by
  name or TARGET_ID, which merging changes (C71_by_name_refuted, C71_by_target_refuted).
  Merging first keeps OI_INSPOL tables that filtering first drops (C71_inspol_refuted).
  Merging puts wavelengths within 1e-10 m together and keeps the first, so that a limit
  between them selects differently (C71_inexact_refuted).
* Two runs of oifits-filter differ from one run with all options if polarisation data pass
  through the intermediate file, whose Jones matrices are misread (C72_inspol_refuted), or if an
  option is given twice, when the last one counts (C72_repeated_refuted).
* Two runs of oifits-merge differ from one run on all the files if a required keyword is found in
  the later files only: it is "UNKNOWN" in the intermediate file and "MULTIPLE" in the result
  (C73_keyword_refuted). They also differ if polarisation data pass through the intermediate file
  (C73_inspol_refuted).

## Trusted base

* The kernel of Coq 8.16.1, with its `vm_compute` for concrete cases, and coqchk.
* Axioms: `Print Assumptions` under each theorem in the `*Props.v` files prints
  "Closed under the global context" (440 theorems). The standard library file
  `ssrunder.v` is loaded by `List`, `ZArith` and others; coqchk lists seven
  constants of it as axioms, and no theorem depends on them:
  `Coq.ssr.ssrunder.Under_rel.` followed by `Over_rel`, `Under_rel_from_rel`,
  `over_rel`, `over_rel_done`, `Under_rel`, `Under_relE`, `under_rel_done`.
* That the Gallina definitions in `*Model.v` describe the C code. Each cites the
  lines it follows, and says where it simplifies.
* The statements: `*Spec.v`, `IOClaims.v`, `KeySpec.v`, `Types.v` (well-formedness)
  and the theorems in `*Props.v`.

### Modelled code

| file | modelled | not modelled |
|---|---|---|
| datemjd.c | all (DateModel.v; with the range of `long`, LongModel.v) | |
| oifile.c | all (the string shared by `format_*`: ReportModel.v) | |
| oifilter.c | `init_oi_filter`, `apply_oi_filter` and all it calls (`filter_oi_header` as a copy of the header); the options, `filter_pre_parse`, `filter_post_parse`, `get_user_oi_filter`, `format_oi_filter`, `print_oi_filter` (ToolModel.v) | `get_oi_filter_option_group` |
| oiiter.c | all | |
| oimerge.c | all | |
| oicheck.c | all (storage and the shared string: ReportModel.v) | overflow of numBreach |
| write_fits.c | all (storage of the column formats: TformModel.v) | messages |
| read_fits.c | all (`verify_chksum`: ChksumModel.v) | messages other than those of `verify_chksum` |
| alloc_fits.c | all (HeapModel.v); within the readers only array lengths and the abort on zero size | |
| free_fits.c | all (HeapModel.v) | |
| chkmalloc.c | `chkmalloc`: abort on zero size | `chkrealloc` (used only by a unit test) |
| util/*.c | `main` of the four programs (ToolModel.v) | messages on stderr |
| oitable-demo.c | `demo_read` (DemoModel.v), `demo_write`, `scan_opt_*`, `main` (ScanModel.v) | the prompts; storage, but for the abort on zero size |
| python-oifits | oifits.i, oifits_typemaps.i, oifilter.i, oicheck.i, oimerge.i (PyModel.v) | assignments to members of tables and records; attributes other than those listed in PyModel; storage of the structs themselves and of stored results of checks |

### Simplifications

* `malloc` never fails.
* Storage blocks are modelled for dup, alloc, free (HeapModel.v), the filter
  (HeapFilterModel.v), merging (HeapMergeModel.v), reading (HeapReadModel.v) and the column
  formats (TformModel.v) only. The other models work on values, and neither kind of model refers to the other.
  In the storage model of reading, where a reader fails and the sizes are arbitrary
  (IOModel.v has them), and members read from the file are left as `malloc` gave them.
  In the storage model of the filter, what is accepted and the numbers written into new
  arrays are arbitrary functions (FilterModel.v has them; the overflow C18_inspol_refuted
  is found there), plain members set after copying a struct keep the copied value, and
  `realloc` to size 0 frees the block, as in glibc. In the heap models a
  struct is a list of named fields, a pointer is the start of a block, members other
  than counts, flags and pointers are uninterpreted, `pOi->targets` is a block of its
  own, and list nodes and hash tables (GLib's) are left out. `malloc` is any function
  of the heap that returns an address not in use.
* `verify_chksum` is left out of the readers of ReadModel; ChksumModel has them with it, and
  C68 says when the two agree. What `fits_verify_chksum` finds, leaves unset or reports as an
  error is an arbitrary function of the HDU. That checksums just written verify is a
  hypothesis of C68_written (`sound`).
* `int` and `long` are unbounded integers unless a theorem states a range. For datemjd.c C69
  says when this is right.
* Floating point: `SpecFloat` binary64/binary32, default rounding, no traps, one NaN.
* `pow(x, 0.5)` is a parameter.
* `fscanf`: how the C library reads a floating point number at the start of a string is an
  arbitrary function (`numbers`); integers, words, characters and literals are modelled. A
  destination without an initial value that no conversion set is undefined, and so is an
  integer out of range.
* SWIG and CPython (C70): what they do with the .i files is listed at the head of PyModel.v. A
  script is a list of statements without loops or functions and ends at the first exception.
* GLib's GString: whether a text makes it move its memory is an arbitrary function (`moves`).
* GLib: hash tables, lists, `GString`, `GPatternSpec` behave as documented; patterns
  match bytes.
* Messages to stderr are left out.
* The programs: files are a finite map from names to lists of HDUs, and two names are
  never the same file. Option parsing by GLib is taken as given: the model starts from
  the list of options with their values and the remaining arguments. Whether `g_remove`
  succeeds is an arbitrary function of the name (`can_remove`), what printf makes of a
  number an arbitrary function of conversion and number (`fmt`).

### cfitsio (FitsModel.v)

cfitsio is not in /repo, and neither its source nor its documentation was available.
The following is what its routines are recalled to do. None of it was checked, so
C35-C40 hold for the library only as far as it is right:

* A file is a list of HDUs; keywords are an ordered list per HDU, columns are named
  and typed and hold the elements of all rows. `fits_read_key` finds the first keyword
  of the name. `fits_get_colnum(CASEINSEN)` gives COL_NOT_FOUND or COL_NOT_UNIQUE.
* A call with a non-zero status does nothing.
* `fits_write_key(TSTRING)` keeps at most 68 characters (quotes count twice), replaces
  non-printing characters and drops trailing blanks; string columns are cut to their
  width and lose trailing blanks. `fits_write_key(TDOUBLE)` is an arbitrary partial
  function (`cf_key_double`).
* `fits_write_col` extends the table with zeros and reports NUM_OVERFLOW for integers
  out of range; `fits_insert_col(s)` shifts the later columns.
* Reading past the data gives BAD_ROW_NUM and never END_OF_FILE; END_OF_FILE comes only
  from moving past the last HDU. Conversion between numbers and text in columns is an
  error. Scaling, null values, variable-length and bit columns are left out.
* DATE, CHECKSUM, DATASUM and conversions of keyword values are arbitrary
  (`cf_today`, `cf_sums`, `cf_conv_*`).
* Uninitialised storage has arbitrary contents, the same everywhere (`cf_junk_*`);
  theorems hold for all values of them.
* `fits_create_file` fails if the file exists and `fits_open_file` if it does not;
  file names have no extended syntax. `fits_close_file` succeeds.
