{
 "claims": [
  {
   "property": "C01",
   "status": "proved",
   "theorems": [
    "C01_rinex2_round_trip",
    "C01_every_content_has_a_text"
   ],
   "note": ""
  },
  {
   "property": "C02",
   "status": "proved",
   "theorems": [
    "C02_declared_types",
    "C02_lines_per_record"
   ],
   "note": ""
  },
  {
   "property": "C03",
   "status": "partial",
   "theorems": [
    "C03_repeated_epochs_partial",
    "C03_repeated_epochs_refuted"
   ],
   "note": "REFUTED by the code for files in which the epoch of the first block is the last epoch the opening pass looked at (epochs A,B,A); proved for all other well-formed files (first_epoch_once)."
  },
  {
   "property": "C04",
   "status": "proved",
   "theorems": [
    "C04_event_as_if_absent",
    "C04_event_position"
   ],
   "note": ""
  },
  {
   "property": "C05",
   "status": "partial",
   "theorems": [
    "C05_first_position_partial",
    "C05_first_position_refuted",
    "C05_rinex3_first_position"
   ],
   "note": "REFUTED by the code: a position change in an event record read during opening replaces the header position for the first records. Proved for files without position changes, and for RINEX 3."
  },
  {
   "property": "C06",
   "status": "proved",
   "theorems": [
    "C06_interval"
   ],
   "note": ""
  },
  {
   "property": "C07",
   "status": "partial",
   "theorems": [
    "C07_positive_interval_refuted",
    "C07_negative_interval_refuted",
    "C07_rinex3_positive_interval_refuted"
   ],
   "note": "REFUTED by the code: version 2.0 files with sub-second steps report 0, descending epochs report a negative interval. C06_interval proves positivity in the remaining cases. RINEX 3: steps below 0.5 ms report 0.0; otherwise C53_rinex3_interval."
  },
  {
   "property": "C08",
   "status": "proved",
   "theorems": [
    "C08_rinex3_round_trip"
   ],
   "note": "Blank values (0, 0, 0): the integer 0 is modelled as the float 0.0."
  },
  {
   "property": "C09",
   "status": "proved",
   "theorems": [
    "C09_declared_types"
   ],
   "note": ""
  },
  {
   "property": "C10",
   "status": "partial",
   "theorems": [
    "C10_event_position_partial",
    "C10_event_position_refuted",
    "C10_repeated_types_refuted"
   ],
   "note": "Proved for the first announced position; REFUTED by the code for later ones (lines of earlier events are kept and win) and for events that repeat the types of observation (HeaderError)."
  },
  {
   "property": "C11",
   "status": "partial",
   "theorems": [
    "C11_rinex2_terminates",
    "C11_rinex3_terminates_partial",
    "C11_rinex3_records_terminate",
    "C11_rinex3_terminates_refuted"
   ],
   "note": "RINEX 2: proved. RINEX 3: proved for files whose first epoch line is readable; REFUTED by the code for a file without epochs, whose opening loops forever."
  },
  {
   "property": "C12",
   "status": "partial",
   "theorems": [
    "C12_rinex2_malformed_partial",
    "C12_rinex2_errors",
    "C12_rinex2_malformed_refuted",
    "C12_rinex2_early_refuted",
    "C12_rinex3_malformed_partial",
    "C12_rinex3_errors",
    "C12_rinex3_junk_value_refuted",
    "C12_rinex3_junk_date_refuted",
    "C12_rinex3_overflow_refuted"
   ],
   "note": "REFUTED by the code in two ways (OverflowError for huge seconds; malformed records in the first epochs make opening fail). Proved: everything before a later malformed record is delivered, and the exact set of exceptions. RINEX 3: likewise; REFUTED further: values that are no numbers are delivered as 0.0, records with an invalid date without a date."
  },
  {
   "property": "C13",
   "status": "proved",
   "theorems": [
    "C13_epoch_value",
    "C13_out_of_range",
    "C13_overflow"
   ],
   "note": ""
  },
  {
   "property": "C14",
   "status": "partial",
   "theorems": [
    "C14_centuries_agree_partial",
    "C14_refuted"
   ],
   "note": "REFUTED by the code for yy = 69..88 (file name: 19yy, epochs: 20yy); proved for every other two-digit year."
  },
  {
   "property": "C15",
   "status": "proved",
   "theorems": [
    "C15_seconds_exact"
   ],
   "note": ""
  },
  {
   "property": "C16",
   "status": "proved",
   "theorems": [
    "C16_classic",
    "C16_modern",
    "C16_bad_day",
    "C16_other_name",
    "C16_day_366"
   ],
   "note": ""
  },
  {
   "property": "C17",
   "status": "proved",
   "theorems": [
    "C17_round_trip"
   ],
   "note": "For epochs whose fields are in range (in RINEX 3 files a minute of 60 would add one second instead of one minute: validate_epoch6, epoch_says)."
  },
  {
   "property": "C18",
   "status": "proved",
   "theorems": [
    "C18_day",
    "C18_no_date"
   ],
   "note": ""
  },
  {
   "property": "C19",
   "status": "proved",
   "theorems": [
    "C19_count"
   ],
   "note": ""
  },
  {
   "property": "C20",
   "status": "partial",
   "theorems": [
    "C20_never_mix",
    "C20_rejected_partial",
    "C20_rejected_refuted",
    "C20_rejected_other_day_refuted"
   ],
   "note": "Never mixing: proved for every content. Rejection: proved when at least one orbit line was read and the next message is of the same day and complete; REFUTED by the code when the cut comes before the first orbit line or the next message is of another day (the message is dropped silently)."
  },
  {
   "property": "C21",
   "status": "proved",
   "theorems": [
    "C21_selection",
    "C21_missing",
    "C21_seconds"
   ],
   "note": "Times are compared in whole seconds, as the statement says."
  },
  {
   "property": "C22",
   "status": "partial",
   "theorems": [
    "C22_gps",
    "C22_beidou",
    "C22_galileo_partial",
    "C22_galileo_refuted"
   ],
   "note": "Proved for GPS and BeiDou (error below 2e-5 s up to the year 9999); REFUTED by the code for Galileo, whose weeks are taken to start 13 s late."
  },
  {
   "property": "C23",
   "status": "partial",
   "theorems": [
    "C23_choice",
    "C23_empty",
    "C23_given",
    "C23_site_partial",
    "C23_site_refuted",
    "C23_loaded",
    "C23_not_found"
   ],
   "note": "Proved for \"occurs in the path\"; REFUTED by the code for \"site code\": the code is looked for in the whole path, directories included; proved when codes occur in the paths as site codes only. Priority entries are plain text (no regular expression characters)."
  },
  {
   "property": "C24",
   "status": "proved",
   "theorems": [
    "C24_class_bits",
    "C24_lock_bits",
    "C24_no_other_bits",
    "C24_defined"
   ],
   "note": ""
  },
  {
   "property": "C25",
   "status": "partial",
   "theorems": [
    "C25_one_class",
    "C25_search_order",
    "C25_unknown",
    "C25_phase_codes_partial",
    "C25_phase_codes_refuted"
   ],
   "note": "REFUTED in one clause: L6I and L6Q have no Doppler code in the table (D6 lacks I and Q). The other clauses are proved in full."
  },
  {
   "property": "C26",
   "status": "proved",
   "theorems": [
    "C26_first_code",
    "C26_first_exists",
    "C26_no_code"
   ],
   "note": ""
  },
  {
   "property": "C27",
   "status": "proved",
   "theorems": [
    "C27_slant_tec",
    "C27_none"
   ],
   "note": "Exact real arithmetic; rounding in C56. The None condition is for binary64."
  },
  {
   "property": "C28",
   "status": "proved",
   "theorems": [
    "C28_slant_tec",
    "C28_none"
   ],
   "note": "Exact real arithmetic; rounding in C56. The None condition is for binary64."
  },
  {
   "property": "C29",
   "status": "proved",
   "theorems": [
    "C29_slant_tec",
    "C29_none"
   ],
   "note": "Exact real arithmetic; rounding in C56. The None condition is for binary64."
  },
  {
   "property": "C30",
   "status": "partial",
   "theorems": [
    "C30_requested_partial",
    "C30_refuted"
   ],
   "note": "REFUTED for tec.l8c8: it is only computed when tec.l1c1 or tec.l2c2 is requested too. Proved for all other columns and all field lists."
  },
  {
   "property": "C31",
   "status": "partial",
   "theorems": [
    "C31_azimuth",
    "C31_azimuth_defined",
    "C31_azimuth_binary64_partial",
    "C31_longitude_binary64_partial",
    "C31_refuted"
   ],
   "note": "Proved over the reals for all positions. In binary64 the closed range [0, 360] is proved for any C library; 360 itself is reached (C31_refuted): adding 360 to a tiny negative angle rounds up."
  },
  {
   "property": "C32",
   "status": "partial",
   "theorems": [
    "C32_elevation_partial",
    "C32_refuted"
   ],
   "note": "REFUTED: sigma = atan(s / c) is taken into (-90, 90) degrees, so a satellite between 90 and 104 degrees of central angle away (GPS height) gets a positive elevation up to 13 degrees although it is thousands of km below the horizon plane. Proved for satellites closer than 90 degrees; the exact (wrong) criterion is proved for the others."
  },
  {
   "property": "C33",
   "status": "proved",
   "theorems": [
    "C33_geodetic",
    "C33_axis",
    "C33_radians"
   ],
   "note": "Over the reals; the loop ends within 11 turns. C33_axis: on the polar axis zeros are returned."
  },
  {
   "property": "C34",
   "status": "partial",
   "theorems": [
    "C34_orbit_partial",
    "C34_circular",
    "C34_kepler_binary64",
    "C34_refuted"
   ],
   "note": "REFUTED: gps.py line 113 computes the radius A (1 + e cos E); IS-GPS-200 has A (1 - e cos E) (531 km off for e = 0.01 at perigee). Everything else agrees (C34_orbit_partial) and for e = 0 the position is the right one. The code uses the PZ-90 value of mu. Over the reals the Newton loop ends only when two steps are equal, so C34_kepler_binary64 proves separately that the eccentric anomaly the binary64 loop returns solves the equation to 1e-13."
  },
  {
   "property": "C35",
   "status": "proved",
   "theorems": [
    "C35_at_zero",
    "C35_second_order",
    "C35_sbas"
   ],
   "note": "Over the reals. The constant of the third-order term depends on the ephemeris."
  },
  {
   "property": "C36",
   "status": "proved",
   "theorems": [
    "C36_columns",
    "C36_fields",
    "C36_all"
   ],
   "note": ""
  },
  {
   "property": "C37",
   "status": "partial",
   "theorems": [
    "C37_fortran_partial",
    "C37_fortran_refuted"
   ],
   "note": "REFUTED by the code for site.l, site.b, site.h (rows 17/16/18 wide, header says F23.12); proved for every list without these three."
  },
  {
   "property": "C38",
   "status": "proved",
   "theorems": [
    "C38_tsn",
    "C38_tsn_exact"
   ],
   "note": ""
  },
  {
   "property": "C39",
   "status": "partial",
   "theorems": [
    "C39_separate",
    "C39_no_loss_partial",
    "C39_no_loss_refuted"
   ],
   "note": "REFUTED by the code when two observation files of a run are of the same site and day (e.g. hourly files): the later one truncates the files of the earlier one. Proved for all other runs; separation of paths proved in full."
  },
  {
   "property": "C40",
   "status": "proved",
   "theorems": [
    "C40_rows_in_order",
    "C40_written",
    "C40_comments"
   ],
   "note": ""
  },
  {
   "property": "C41",
   "status": "proved",
   "theorems": [
    "C41_rows",
    "C41_complete",
    "C41_used",
    "C41_spaced"
   ],
   "note": "Intervals below 2^52 microseconds (142 years); the comparison of the two intervals in binary64 is proved exact there."
  },
  {
   "property": "C42",
   "status": "proved",
   "theorems": [
    "C42_day",
    "C42_no_day"
   ],
   "note": ""
  },
  {
   "property": "C43",
   "status": "partial",
   "theorems": [
    "C43_absent",
    "C43_kept_partial",
    "C43_refuted"
   ],
   "note": "REFUTED for the first record of a system in a file when no navigation file is found: it is dropped even if navIgnoreAbsence is true (C43_refuted). Everything else proved."
  },
  {
   "property": "C44",
   "status": "partial",
   "theorems": [
    "C44_rows",
    "C44_transparent_partial",
    "C44_refuted"
   ],
   "note": "Every row of every run is proved to be computed afresh. REFUTED in one case: an ephemeris whose position cannot be computed (ZeroDivisionError, OverflowError) is remembered as no position, so the record is dropped the first time and written with zeros when the same satellite and time come again (C44_refuted). Without such ephemerides the whole run equals that of a program without dictionaries."
  },
  {
   "property": "C45",
   "status": "partial",
   "theorems": [
    "C45_settings_partial",
    "C45_indented_comment_refuted",
    "C45_equals_in_value_refuted"
   ],
   "note": "REFUTED by the code: a comment after blanks at the start of a line, and a value containing '=', raise ValueError and the program ends. Proved for every file of blank lines, comment lines and assignments otherwise."
  },
  {
   "property": "C46",
   "status": "partial",
   "theorems": [
    "C46_defaults_partial",
    "C46_omitted_refuted"
   ],
   "note": "REFUTED by the code: every file that omits navIgnoreAbsence ends in TypeError (the default False is passed to a regular expression). Proved for every acceptable file that assigns it."
  },
  {
   "property": "C47",
   "status": "proved",
   "theorems": [
    "C47_obs",
    "C47_obs_no_version",
    "C47_obs_total",
    "C47_nav",
    "C47_nav_no_version",
    "C47_nav_total"
   ],
   "note": ""
  },
  {
   "property": "C48",
   "status": "partial",
   "theorems": [
    "C48_names",
    "C48_steps_partial",
    "C48_other_name",
    "C48_refuted"
   ],
   "note": "REFUTED by the code when a directory on the path has a RINEX extension (x.12d/abcd0010.17o is passed to the Hatanaka program); proved for every other path. The name test is proved in full."
  },
  {
   "property": "C49",
   "status": "proved",
   "theorems": [
    "C49_nav_files",
    "C49_day_of_year"
   ],
   "note": ""
  },
  {
   "property": "C50",
   "status": "proved",
   "theorems": [
    "C50_positions",
    "C50_found_here",
    "C50_found_in_dir"
   ],
   "note": ""
  },
  {
   "property": "C51",
   "status": "proved",
   "theorems": [
    "C51_site",
    "C51_file"
   ],
   "note": "C51_file: end to end with the lines of the coordinates file, for a file in a directory (obsDir with directory part)."
  },
  {
   "property": "C52",
   "status": "proved",
   "theorems": [
    "C52_ascii_only",
    "C52_same_text"
   ],
   "note": ""
  },
  {
   "property": "C53",
   "status": "proved",
   "theorems": [
    "C53_rinex3_interval"
   ],
   "note": "Intervals above 0.0005 s; the loop bound is any number above the repetitions of the first epoch."
  },
  {
   "property": "C54",
   "status": "proved",
   "theorems": [
    "C54_header_values",
    "C54_opened_rinex2",
    "C54_opened_rinex3"
   ],
   "note": "The interval of an opened file is measured (C06, C53), not taken from the header."
  },
  {
   "property": "C55",
   "status": "proved",
   "theorems": [
    "C55_carriers",
    "C55_no_others"
   ],
   "note": ""
  },
  {
   "property": "C56",
   "status": "proved",
   "theorems": [
    "C56_pseudorange",
    "C56_phase",
    "C56_code_phase",
    "C56_carriers"
   ],
   "note": "Hypothesis on the C library: x**2 accurate to one ulp. C56_carriers shows that the carriers of all columns satisfy the other hypotheses."
  },
  {
   "property": "C57",
   "status": "partial",
   "theorems": [
    "C57_skipped",
    "C57_only",
    "C57_refuted"
   ],
   "note": "Proved for files that cannot be opened: the run is that over the directory without the file. REFUTED for files that fail later: a RINEX 3 epoch line with an invalid date yields epoch None, and epoch.date() stops the whole run with AttributeError."
  },
  {
   "property": "C58",
   "status": "proved",
   "theorems": [
    "C58_account"
   ],
   "note": "For files with a first writer call (the header was accepted)."
  },
  {
   "property": "C59",
   "status": "proved",
   "theorems": [
    "C59_files"
   ],
   "note": "Runs that end without an exception."
  },
  {
   "property": "C60",
   "status": "partial",
   "theorems": [
    "C60_announced",
    "C60_comment_partial",
    "C60_refuted"
   ],
   "note": "Proved end to end for files whose usable records are in the order of time and not before TIME OF FIRST OBS. REFUTED otherwise (C60_refuted): the position is taken from the greatest time, so with a TIME OF FIRST OBS after the records the comment lines keep the header position although the site has moved."
  },
  {
   "property": "C61",
   "status": "proved",
   "theorems": [
    "C61_none",
    "C61_order",
    "C61_suitable"
   ],
   "note": "The second part of C61_suitable is for runs that are not stopped by an exception; the names are those of C48_find."
  },
  {
   "property": "C62",
   "status": "partial",
   "theorems": [
    "C62_errors_partial",
    "C62_refuted"
   ],
   "note": "Both directions proved except navigation files. REFUTED for these (C62_refuted): a navigation file that is no RINEX file is logged as an error but not counted, so the run ends without the announcement. The two directions use may_fail and must_fail, which differ only for sites known up to the sign of a zero."
  },
  {
   "property": "C63",
   "status": "proved",
   "theorems": [
    "C63_saved",
    "C63_nothing"
   ],
   "note": ""
  },
  {
   "property": "C64",
   "status": "partial",
   "theorems": [
    "C64_start_partial",
    "C64_place_partial",
    "C64_invalid",
    "C64_bare_refuted"
   ],
   "note": "Proved for paths with a directory part and configuration files of the form of C45/C46 (navIgnoreAbsence assigned). REFUTED for -c my.cfg: the empty directory name makes os.chdir stop every such run with OSError (C64_bare_refuted)."
  },
  {
   "property": "C65",
   "status": "proved",
   "theorems": [
    "C65_again"
   ],
   "note": "The creation time printed in the comments is part of the world, so equality is up to it."
  },
  {
   "property": "C66",
   "status": "partial",
   "theorems": [
    "C66_order_partial",
    "C66_refuted"
   ],
   "note": "Proved when at most one navigation file matches for a day and system, or the navigation directories keep their order. REFUTED otherwise (C66_refuted): of several matching navigation files the first listed by os.listdir is used."
  },
  {
   "property": "C67",
   "status": "partial",
   "theorems": [
    "C67_obs",
    "C67_nav",
    "C67_refuted"
   ],
   "note": "REFUTED for navIgnoreAbsence: os.listdir of the missing directory stops the run with OSError (C67_refuted). The rest is proved."
  },
  {
   "property": "C68",
   "status": "partial",
   "theorems": [
    "C68_visible_partial",
    "C68_irnss_refuted"
   ],
   "note": "Proved for the five systems. REFUTED for IRNSS: no run ever writes a row for it (C68_irnss_refuted)."
  },
  {
   "property": "C69",
   "status": "partial",
   "theorems": [
    "C69_beginning_partial",
    "C69_finished",
    "C69_exception",
    "C69_normal",
    "C69_refuted",
    "C69_row_refuted",
    "C69_old_refuted"
   ],
   "note": "Proved: every file is as before or the beginning of a result; finished observation files have complete results; an exception loses no row. REFUTED: a result that is there need not be complete and can look exactly like the complete result of another observation file (C69_refuted), can end inside a row (C69_row_refuted), and the result of an earlier run is emptied first (C69_old_refuted)."
  },
  {
   "property": "C70",
   "status": "proved",
   "theorems": [
    "C70_again",
    "C70_history"
   ],
   "note": "For runs that end by themselves; any number of stopped runs (C70_history)."
  },
  {
   "property": "C71",
   "status": "partial",
   "theorems": [
    "C71_obs",
    "C71_nav",
    "C71_nav_found",
    "C71_date",
    "C71_coordinates",
    "C71_run_partial",
    "C71_listing",
    "C71_files_partial",
    "C71_refuted",
    "C71_coordinates_refuted"
   ],
   "note": "Proved for ASCII navigation files and coordinates that agree. REFUTED: one byte that is not ASCII in a plain navigation file stops the run, packed it is dropped (C71_refuted); coordinates beside SITE.12o are not found for SITE.12d (C71_coordinates_refuted)."
  },
  {
   "property": "C72",
   "status": "partial",
   "theorems": [
    "C72_program_partial",
    "C72_nav_refuted",
    "C72_damaged_refuted",
    "C72_unreadable_refuted"
   ],
   "note": "Proved for observation files that need a program which is not installed. REFUTED: a packed navigation file without gzip stops the run (C72_nav_refuted); a damaged archive loses rows silently, as the exit status is never asked for (C72_damaged_refuted); a plain observation file that cannot be opened stops the run (C72_unreadable_refuted)."
  },
  {
   "property": "C73",
   "status": "partial",
   "theorems": [
    "C73_mark_partial",
    "C73_refuted"
   ],
   "note": "Proved when the sampling interval differs from the interval of the file. REFUTED when they are equal: nothing is left out and the comment does not say so (C73_refuted)."
  },
  {
   "property": "C74",
   "status": "proved",
   "theorems": [
    "C74_numbers",
    "C74_comments",
    "C74_channel",
    "C74_coordinates"
   ],
   "note": "The C library is assumed to return binary64 numbers (libm_b64), which every implementation does."
  },
  {
   "property": "C75",
   "status": "proved",
   "theorems": [
    "C75_codes",
    "C75_time",
    "C75_subsecond_refuted"
   ],
   "note": "Years 1000 to 9999. A limit of the default format, which has no %f: rows of one second are not told apart (C75_subsecond_refuted)."
  },
  {
   "property": "C76",
   "status": "partial",
   "theorems": [
    "C76_width_partial",
    "C76_names_refuted"
   ],
   "note": "Proved for formats of the documented codes without %A and %B and for years from 1000. REFUTED with %A: a run on Monday announces 6 characters, a row of Wednesday has 9 (C76_names_refuted)."
  },
  {
   "property": "C77",
   "status": "proved",
   "theorems": [
    "C77_rows"
   ],
   "note": "pow() of the C library is assumed accurate to 2^-52 relative for squares of carrier frequencies (squares). The columns of positions and angles are those of C51, C58 and C60."
  },
  {
   "property": "C78",
   "status": "proved",
   "theorems": [
    "C78_account",
    "C78_none",
    "C78_used"
   ],
   "note": "A second block with the epoch of the block before is left out, as in C03."
  },
  {
   "property": "C79",
   "status": "proved",
   "theorems": [
    "C79_noticed",
    "C79_stops",
    "C79_beginning",
    "C79_where",
    "C79_finished",
    "C79_again"
   ],
   "note": "The operations refused are those on result files (make the directory, open, write, close); errors in reading the inputs and errors a device reports after it has accepted the data are not modelled."
  },
  {
   "property": "C80",
   "status": "proved",
   "theorems": [
    "C80_beginning",
    "C80_again",
    "C80_exit",
    "C80_noticed",
    "C80_refused"
   ],
   "note": "As C69, C70 and C79 for coordinates.txt. That its beginning can look like a complete file is C69_refuted."
  },
  {
   "property": "C81",
   "status": "partial",
   "theorems": [
    "C81_run",
    "C81_files",
    "C81_other_days",
    "C81_all_files",
    "C81_reported_partial",
    "C81_far_refuted",
    "C81_again_refuted"
   ],
   "note": "REFUTED in two cases, in which a record without row has no message at all: all navigation messages of the satellite are too far in time (C81_far_refuted); an observation file before had the same satellite at the same time, so that its missing position is taken from the cache silently (C81_again_refuted). C81_reported_partial shows there are no others. Proved for whole files (C81_files) and for records of another day (C81_other_days)."
  },
  {
   "property": "C82",
   "status": "partial",
   "theorems": [
    "C82_count",
    "C82_found_partial",
    "C82_critical_refuted",
    "C82_rest",
    "C82_silent_refuted"
   ],
   "note": "REFUTED: with logLevel CRITICAL the user is sent to an empty log (C82_critical_refuted); a damaged navigation file is logged as an error but not counted (C82_silent_refuted). Proved: the count is that of the five kinds of failure (C82_count), announced failures are in the log for all other levels (C82_found_partial), and only errors of navigation files and geodetic coordinates go unannounced (C82_rest)."
  },
  {
   "property": "C83",
   "status": "partial",
   "theorems": [
    "C83_rows_partial",
    "C83_files_partial",
    "C83_refuted"
   ],
   "note": "REFUTED: where the position of a satellite cannot be computed, the failure leaves an entry in the dictionary of satellites, so that a second file with the same record gets a row of zeros which it does not get alone (C83_refuted). Proved for runs without such records (C83_rows_partial, C83_files_partial)."
  },
  {
   "property": "C84",
   "status": "proved",
   "theorems": [
    "C84_others"
   ],
   "note": "Names with a RINEX extension that are yet no RINEX names (a copy of ...) are the subject of C48 and C49."
  },
  {
   "property": "C85",
   "status": "proved",
   "theorems": [
    "C85_run",
    "C85_files",
    "C85_end",
    "C85_save"
   ],
   "note": "logLevel and logFileName are free too; that the log itself goes elsewhere is not part of the model."
  },
  {
   "property": "C86",
   "status": "partial",
   "theorems": [
    "C86_columns_partial",
    "C86_errors",
    "C86_refuted"
   ],
   "note": "Missing: tec.l8c8, which is only computed when tec.l1c1 or tec.l2c2 is among the columns (refuted: an empty value that is there when another column is asked for). Both runs are to end normally."
  },
  {
   "property": "C87",
   "status": "proved",
   "theorems": [
    "C87_ignore",
    "C87_errors"
   ],
   "note": "Both runs end normally; values of TEC columns are compared as in C86."
  },
  {
   "property": "C88",
   "status": "partial",
   "theorems": [
    "C88_rows_partial",
    "C88_files_partial",
    "C88_sampling_refuted"
   ],
   "note": "REFUTED with a sampling interval: the first record of any system begins the first sample, so that a record of GLONASS decides which records of GPS are used (C88_sampling_refuted). Proved without sampling, for positions of the site without -0.0 and satellites whose positions can be computed. The files without the other records are given by what the reader delivers for them (taken_out): the same header and the remaining records."
  },
  {
   "property": "C89",
   "status": "partial",
   "theorems": [
    "C89_rows_partial",
    "C89_files_partial",
    "C89_intervals_refuted"
   ],
   "note": "Proved for positions of the site without -0.0 and satellites whose positions can be computed (C44). REFUTED for two intervals: each record is compared with the last one used, so that with 60 s a record can be used that is left out with 30 s (C89_intervals_refuted)."
  },
  {
   "property": "C90",
   "status": "partial",
   "theorems": [
    "C90_rows_partial",
    "C90_files_partial",
    "C90_text2",
    "C90_text3"
   ],
   "note": "Proved for satellites whose positions can be computed (C44: otherwise a later file sees what an earlier one left in memory) and files cut between lines. The texts are read at the places C90_text2 and C90_text3 say: a RINEX 2 text with fewer times left may have another interval, or cannot be opened, which C90_rows_partial covers as a file without rows."
  }
 ]
}