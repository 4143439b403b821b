# Formal model of tec-suite: design

## What is modelled and how

`rocq/theories` contains a shallow executable Gallina model of the code in /repo/tecs, written
function by function, with Python exceptions as values (`res A := Ok a | Err e`).  Files:

* `Base, PyStr, PyFloat, PyDate, PyPath, PyRegex` : the small part of the Python runtime the code relies on
  (str slicing, strip, int(), float(), "%.nf", datetime, os.path, the fragment of re in use), also as executable definitions.
* `M_*.v` : models of the repository's modules.  Every definition cites file:lines.  No proofs.
* `S_*.v` : independent specifications (relational where possible: "this text denotes this number").
* `P_*.v` : proofs.  `E_*.v`, `W_*.v` : worked examples and witnesses, used for non-vacuity and for refutations.
* `T_*.v` : the property theorems only, each `exact lemma`, followed by `Print Assumptions`.

Conventions

* text = `list ascii`; a text file = list of lines, each line non-empty and ended by "\n" except
  perhaps the last (exactly what iterating over a Python text file delivers).
* generators = finite traces: the list of yielded records, each with the reader state visible at
  that moment, and the way the generator ended (exhausted / raised e).
* unbounded loops take fuel; running out of fuel is the distinguished error `OutOfFuel` (it stands
  for non-termination) and theorems exclude or exhibit it explicitly.
* floats: binary64 as `spec_float` of Coq's standard library (pure Gallina, no primitive floats).
  Numeric formulas (TEC, orbits, geodesy) are written once over an abstract arithmetic and
  instantiated with exact reals (for the algebraic theorems) and with binary64.

## Plan per property

| id | modelled | proof |
|----|----------|-------|
| C01 | v2 reader: `_get_val`, `_get_prn`, `read_epoch`, `read_records` | relational spec of file text; induction over blocks; float text lemma via Flocq |
| C02 | `set_obs_num_types`, `_det_lines_per_rec` | induction over lines of 9 / 5 |
| C03 | preceding-epoch logic | corollary of the block theorem |
| C04 | event branch, `_parse_header` | corollary of the block theorem |
| C05 | `__init__`, `get_interval` | refuted by witness; true variant without early events |
| C06 | `get_interval` | characterisation of mode by induction |
| C07 | `Interval`, `get_interval`, `_det_interval` | refuted by witness; true variants |
| C08 | v3 reader | as C01 |
| C09 | `SysNObsTypes.value` | split lemma, induction |
| C10 | v3 `read_records` events | first update true; second refuted |
| C11 | `_next_epoch`, `_det_interval` | v2 terminates for all inputs; v3 refuted + exact condition |
| C12 | both generators | composition theorem: prefix delivered then RinexError; refuted for other exceptions |
| C13 | `validate_epoch`, datetime | arithmetic over calendar spec |
| C14 | pivots | finite sweep 0..99 ; refuted for 69..88 |
| C15 | `sec2sec_ms`, v2 twin | Flocq error analysis |
| C16 | `get_rinex_date`, regexes | matcher for the two regexes vs. positional spec |
| C17-C20 | Nav2/Nav3 `_read_message`, `_read_orbits` | invariants over the state machine; round trip by induction |
| C21-C23 | nmutils | list induction |
| C24 | validity | bit lemma by induction over the set of bits |
| C25 | label tables | finite sweep lifted to all strings |
| C26 | parse_rec | sorted-order induction |
| C27-C29 | tec formulas over R | field |
| C30 | on-demand decorators | case analysis; refuted for l8c8 |
| C31-C35 | sat/* over R | real analysis |
| C36-C37 | rec.py, compose_rec_format | tables + induction over field list |
| C38 | tsn | arithmetic over Q/R |
| C39-C40 | dio/text.py | file system as map; invariant over writes |
| C41-C44,C51 | main loop | invariants over record sequence |
| C45,C46 | config readers | induction over lines |
| C47-C49 | file name regexes, reader tables | regex AST semantics |
| C50 | load_xyz_file | induction |
| C52 | write_ascii_lines | filter lemma |
| C53 | v3 `_det_interval` | reduction to differences of epochs; Flocq for the seconds |
| C54 | header.py | text specification of each header line; parse of what is written |
| C55, C56 | tec.py constants and formulas in binary64 | Flocq error analysis |
| C57-C61 | `main` over whole runs | invariant of the caches (`good`), refinement to a program without caches |
| C62 | `logger_error_count`, `run` | invariant: the caches hold no failed computation while the count is 0 |
| C63 | `--save-coordinates` | induction over the files |
| C64 | command line, `read_cfg`, chdir | composition of the reader theorems with `main` |
| C65 | `main` on two file systems | simulation: same calls, agreement on the paths written |
| C66 | `find_files` | sorted permutations are equal; congruence through the run |
| C67, C68 | `main` | corollaries; missing directories as explicit branches of the model |
| C69, C70 | `M_Disk`: the run as a sequence of open/write/close, buffers that reach the disk at any time in any pieces | invariant linking disk + buffers to the operations done; prefix closure; refinement to `main` |
| C71, C72 | `M_Expand`: the text of a file from its bytes, with gzip, crx2rnx and the locale's decoding as functions on bytes that may be missing or fail | `expand_obs`/`expand_nav` give equal texts; simulation of two runs of `main` step by step (dictionaries equal up to the names of the navigation files); refutations by runs over concrete bytes |
| C73 | the comment's sampling interval (`M_Text.sampling_text`) beside the thinning in `M_Main.sampling_of` | both comparisons of doubles are reduced to the comparison of microseconds below 2^52; equality refuted by a run |
| C74 | `PyRepr` (repr of floats: shortest text that reads back), the comments, coordinates.txt | `repr_reads`: the digits kept are those that parse to the same binary64; invariants: every position, interval and channel of a run is a binary64 number |
| C75 | `PyStrftime` (the documented codes in the C locale), the datetime column | codes whose texts are not beginnings of each other split equal texts into equal codes, by induction on the format; the limit of the default format shown by a run with two records in a second |
| C76 | the width measured at configuration time (`M_Cfg.now_len`), the Fortran line | every fixed code has the same width for all dates; refuted for the names of days |
| C77 | the whole way from the lines of an observation file to the rows of the result files | composition of C01 and C08 (delivery), C25 and C26 (labels), C27-C30, C55, C56 (TEC and its rounding), C36 (cells) and C58, C59 (runs) |
| C78 | as C77, with the facts of the file as a list | the account of C58 aligned with the list of facts delivered (C01, C08), row by row |
| C79 | `M_Fault`: any open, write or close refused by the system, with any part of the buffer written | every such run leaves the files of a stopped run (simulation), then C69 and C70 |
| C80 | `M_Fault`: --save-coordinates as a sequence of open/write/close | as C69, C70 and C79 |
| C81 | `M_Log`: the messages of a run, record by record, with level and what they name | induction over records and files: the cache holds only positions of records processed before; witnesses for the two silent cases |
| C82 | `M_Log` and the error counter of `M_Run` | induction: each message of the five kinds adds one to the counter |
| C83 | `main` over two listings of the directories | both runs are runs of the program without dictionaries (as C44), whose files do not depend on each other; the last writer of a path decides its content |
| C84 | `full_main` over two listings of the directories | every name that a pattern accepts has a RINEX extension (languages of the patterns), so the files found are the same |
| C85 | `main` under two configurations | simulation of two writers that differ in the names of their files; contents by the simulation of one observation file; errors by the same simulation on the function that counts them |
| C86 | `main` under two configurations | simulation record by record: what is remembered does not depend on the format; a requested TEC column is always computed (but tec.l8c8: counterexample) |
| C87 | `main` under two configurations | the same simulation with a relation on the writers' calls that admits rows of zeros |
| C88 | `main` over two worlds whose observation files differ in records of other systems | over the reference program without dictionaries (C44): simulation of two loops that agree on the systems seen so far and have a determined site after each record; what is written by what C59 says of the files |
| C89 | `main` with two configurations that differ in the sampling interval | over the reference program without dictionaries: simulation of two loops of which the second leaves records out; the systems it has seen are among those the first has seen, and the site is determined after each record in both; what is written by what C59 says of the files |
| C90 | the readers and `main` over observation files whose last lines are missing | each function of the readers delivers on a longer text what it delivered, or more (induction on the text); the loop over the records likewise; the files one by one by the independence of C83; what is written by what C59 says of the files |

All of them are expressible; none is marked not_applicable.  Where the code violates a property, the violation is proved
(`_refuted`, with a concrete run, or for all inputs of a class) and the largest true part is proved beside it (`_partial`).

## What of the code is modelled

| file | model | not modelled |
|------|-------|--------------|
| tecs/__main__.py | `M_Main`, `M_Run`: module-level start, `main` with all branches, the error count, `--save-coordinates`, `run`; `M_Log`: the messages logged in the loop over the files, with level and what they name | printing, progress output, the wording of messages, the DEBUG messages with file lists, the messages of readers and writer, total time |
| tecs/config.py, tecs/gtb/config.py | `M_Cfg`: reader, defaults, every conversion | eval of a quoted string with quotes or backslashes inside (an oracle), warnings on stderr |
| tecs/rec.py, tecs/label.py, tecs/validity.py, tecs/rinex/label.py | `M_Rec`, `M_Label` | - |
| tecs/gtb/tec.py | `M_Tec` over an abstract arithmetic | - |
| tecs/gtb/tools.py | `M_Tec`/`M_Rec` (tsn) | unused helpers |
| tecs/dio/text.py | `M_Text`: files as a map from paths to contents; `M_Disk`: file objects with buffers, stops at any moment; `M_Fault`: refused operations, coordinates.txt | reordering of writes by the operating system at a power failure; errors a device reports after it has accepted the data |
| tecs/rinex/basic.py, common.py, header.py | `M_Common`, `M_Header` | messages of exceptions |
| tecs/rinex/v2, v3 | `M_Obs2`, `M_Obs3`, `M_Nav` | messages of exceptions |
| tecs/rinex/nmsg.py, nmutils.py | `M_NmUtils`, `M_Nav` | priorities that are regular expressions (plain text, any case, is modelled) |
| tecs/rinex/futils.py, rinex/__init__.py | `M_Names`, `M_Xyz`, `PyRegex`, `M_Expand` | gzip and crx2rnx themselves: functions from bytes to bytes (None: not installed); their exit status, which the code never asks for; temporary files that cannot be created; the decoding of a plain navigation or coordinate file is done at once, not block by block |
| tecs/sat/* | `M_Sat`, `M_Num` over an abstract arithmetic | the C library's sin, cos, atan2 ... in binary64 (an arbitrary record of functions) |

Simplifications are named in the comment of each definition.  The main ones: files are ASCII; the repr of floats and strftime are
modelled (`PyRepr`, `PyStrftime`, C locale; strftime codes that docs/usage.rst does not list and the creation time stay oracles); NaN coordinates compare equal to themselves (Python compares identical objects first); loops take fuel.

## Trusted base

* Coq 8.16.1 kernel (and its VM, used by `vm_compute`).
* The reading of the Python source: nothing is extracted from or run against the code.
* The model of the Python runtime in Base/PyStr/PyFloat/PyDate/PyRepr/PyStrftime/PyPath/PyRegex (CPython >= 3.6).
* Axioms.  No axiom is added here.  `Print Assumptions` stands behind every theorem in `T_*.v`; it lists nothing, or axioms of
  Coq's standard library that come with its real numbers (Flocq and Coquelicot add none):
  `ClassicalDedekindReals.sig_not_dec`, `ClassicalDedekindReals.sig_forall_dec`,
  `FunctionalExtensionality.functional_extensionality_dep`, `Classical_Prop.classic`.

All four: C01_rinex2_round_trip, C03_repeated_epochs_partial, C04_event_as_if_absent, C04_event_position,
C05_first_position_partial, C06_interval, C08_rinex3_round_trip, C10_event_position_partial,
C10_event_position_refuted, C11_rinex3_terminates_partial, C12_rinex2_errors, C12_rinex2_malformed_partial,
C12_rinex3_errors, C12_rinex3_malformed_partial, C15_seconds_exact, C17_round_trip, C21_seconds, C21_selection,
C22_beidou, C22_galileo_partial, C22_galileo_refuted, C22_gps, C27_slant_tec, C28_slant_tec, C29_slant_tec,
C31_azimuth, C31_azimuth_binary64_partial, C31_azimuth_defined, C31_longitude_binary64_partial, C32_elevation_partial,
C32_refuted, C33_axis, C33_geodetic, C33_radians, C34_circular, C34_kepler_binary64, C34_orbit_partial, C34_refuted,
C35_at_zero, C35_second_order, C36_columns, C38_tsn, C38_tsn_exact, C41_complete, C41_rows, C41_spaced, C41_used,
C43_kept_partial, C43_refuted, C46_defaults_partial, C47_nav, C47_obs, C50_positions, C51_file, C53_rinex3_interval,
C54_header_values, C54_opened_rinex2, C54_opened_rinex3, C55_carriers, C56_carriers, C56_code_phase, C56_phase,
C56_pseudorange, C58_account, C62_errors_partial, C62_refuted, C64_bare_refuted, C64_place_partial, C64_start_partial,
C68_visible_partial, C72_program_partial, C73_mark_partial, C73_refuted, C74_channel, C74_comments, C74_coordinates,
C74_numbers, C77_rows, C78_account, C78_none, C78_used, C81_files, C88_files_partial, C88_rows_partial,
C89_files_partial, C89_intervals_refuted, C89_rows_partial.

Only `sig_forall_dec` and `functional_extensionality_dep`: C07_rinex3_positive_interval_refuted,
C12_rinex2_early_refuted.

The other 184 theorems are closed under the global context.
