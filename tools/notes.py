NOTES = {
 'C03': ('partial', 'REFUTED by the code for files in which the epoch of the first block is the last epoch the opening pass looked at (epochs A,B,A); proved for all other well-formed files (first_epoch_once).'),
 'C05': ('partial', 'REFUTED by the code: a position change in an event record read during opening replaces the header position for the first records. Proved for files without position changes, and for RINEX 3.'),
 'C07': ('partial', 'REFUTED by the code: version 2.0 files with sub-second steps report 0, descending epochs report a negative interval. C06_interval proves positivity in the remaining cases. RINEX 3: steps below 0.5 ms report 0.0; otherwise C53_rinex3_interval.'),
 'C11': ('partial', 'RINEX 2: proved. RINEX 3: proved for files whose first epoch line is readable; REFUTED by the code for a file without epochs, whose opening loops forever.'),
 'C12': ('partial', 'REFUTED by the code in two ways (OverflowError for huge seconds; malformed records in the first epochs make opening fail). Proved: everything before a later malformed record is delivered, and the exact set of exceptions. RINEX 3: likewise; REFUTED further: values that are no numbers are delivered as 0.0, records with an invalid date without a date.'),
 'C25': ('partial', 'REFUTED in one clause: L6I and L6Q have no Doppler code in the table (D6 lacks I and Q). The other clauses are proved in full.'),
 'C37': ('partial', 'REFUTED by the code for site.l, site.b, site.h (rows 17/16/18 wide, header says F23.12); proved for every list without these three.'),

 'C39': ('partial', 'REFUTED by the code when two observation files of a run are of the same site and day (e.g. hourly files): the later one truncates the files of the earlier one. Proved for all other runs; separation of paths proved in full.'),
 'C45': ('partial', "REFUTED by the code: a comment after blanks at the start of a line, and a value containing '=', raise ValueError and the program ends. Proved for every file of blank lines, comment lines and assignments otherwise."),
 'C46': ('partial', 'REFUTED by the code: every file that omits navIgnoreAbsence ends in TypeError (the default False is passed to a regular expression). Proved for every acceptable file that assigns it.'),
 'C14': ('partial', 'REFUTED by the code for yy = 69..88 (file name: 19yy, epochs: 20yy); proved for every other two-digit year.'),
 'C48': ('partial', 'REFUTED by the code when a directory on the path has a RINEX extension (x.12d/abcd0010.17o is passed to the Hatanaka program); proved for every other path. The name test is proved in full.'),
 'C17': ('proved', "For epochs whose fields are in range (in RINEX 3 files a minute of 60 would add one second instead of one minute: validate_epoch6, epoch_says)."),
 'C20': ('partial', 'Never mixing: proved for every content. Rejection: proved when at least one orbit line was read and the next message is of the same day and complete; REFUTED by the code when the cut comes before the first orbit line or the next message is of another day (the message is dropped silently).'),
 'C21': ('proved', 'Times are compared in whole seconds, as the statement says.'),
 'C22': ('partial', 'Proved for GPS and BeiDou (error below 2e-5 s up to the year 9999); REFUTED by the code for Galileo, whose weeks are taken to start 13 s late.'),
 'C23': ('partial', 'Proved for "occurs in the path"; REFUTED by the code for "site code": the code is looked for in the whole path, directories included; proved when codes occur in the paths as site codes only. Priority entries are plain text (no regular expression characters).'),
 'C08': ('proved', 'Blank values (0, 0, 0): the integer 0 is modelled as the float 0.0.'),
 'C09': ('proved', ''),
 'C10': ('partial', 'Proved for the first announced position; REFUTED by the code for later ones (lines of earlier events are kept and win) and for events that repeat the types of observation (HeaderError).'),
 'C53': ('proved', 'Intervals above 0.0005 s; the loop bound is any number above the repetitions of the first epoch.'),
 'C54': ('proved', 'The interval of an opened file is measured (C06, C53), not taken from the header.'),
 'C27': ('proved', 'Exact real arithmetic; rounding in C56. The None condition is for binary64.'),
 'C28': ('proved', 'Exact real arithmetic; rounding in C56. The None condition is for binary64.'),
 'C29': ('proved', 'Exact real arithmetic; rounding in C56. The None condition is for binary64.'),
 'C30': ('partial', 'REFUTED for tec.l8c8: it is only computed when tec.l1c1 or tec.l2c2 is requested too. Proved for all other columns and all field lists.'),
 'C55': ('proved', ''),
 'C56': ('proved', 'Hypothesis on the C library: x**2 accurate to one ulp. C56_carriers shows that the carriers of all columns satisfy the other hypotheses.'),
 'C31': ('partial', 'Proved over the reals for all positions. In binary64 the closed range [0, 360] is proved for any C library; 360 itself is reached (C31_refuted): adding 360 to a tiny negative angle rounds up.'),
 'C32': ('partial', 'REFUTED: sigma = atan(s / c) is taken into (-90, 90) degrees, so a satellite between 90 and 104 degrees of central angle away (GPS height) gets a positive elevation up to 13 degrees although it is thousands of km below the horizon plane. Proved for satellites closer than 90 degrees; the exact (wrong) criterion is proved for the others.'),
 'C33': ('proved', 'Over the reals; the loop ends within 11 turns. C33_axis: on the polar axis zeros are returned.'),
 'C34': ('partial', 'REFUTED: gps.py line 113 computes the radius A (1 + e cos E); IS-GPS-200 has A (1 - e cos E) (531 km off for e = 0.01 at perigee). Everything else agrees (C34_orbit_partial) and for e = 0 the position is the right one. The code uses the PZ-90 value of mu. Over the reals the Newton loop ends only when two steps are equal, so C34_kepler_binary64 proves separately that the eccentric anomaly the binary64 loop returns solves the equation to 1e-13.'),
 'C35': ('proved', 'Over the reals. The constant of the third-order term depends on the ephemeris.'),
 'C41': ('proved', 'Intervals below 2^52 microseconds (142 years); the comparison of the two intervals in binary64 is proved exact there.'),
 'C42': ('proved', ''),
 'C43': ('partial', 'REFUTED for the first record of a system in a file when no navigation file is found: it is dropped even if navIgnoreAbsence is true (C43_refuted). Everything else proved.'),
 'C44': ('partial', 'Every row of every run is proved to be computed afresh. REFUTED in one case: an ephemeris whose position cannot be computed (ZeroDivisionError, OverflowError) is remembered as no position, so the record is dropped the first time and written with zeros when the same satellite and time come again (C44_refuted). Without such ephemerides the whole run equals that of a program without dictionaries.'),
 'C51': ('proved', 'C51_file: end to end with the lines of the coordinates file, for a file in a directory (obsDir with directory part).'),
 'C57': ('partial', 'Proved for files that cannot be opened: the run is that over the directory without the file. REFUTED for files that fail later: a RINEX 3 epoch line with an invalid date yields epoch None, and epoch.date() stops the whole run with AttributeError.'),
 'C58': ('proved', 'For files with a first writer call (the header was accepted).'),
 'C59': ('proved', 'Runs that end without an exception.'),
 'C60': ('partial', 'Proved end to end for files whose usable records are in the order of time and not before TIME OF FIRST OBS. REFUTED otherwise (C60_refuted): the position is taken from the greatest time, so with a TIME OF FIRST OBS after the records the comment lines keep the header position although the site has moved.'),
 'C61': ('proved', 'The second part of C61_suitable is for runs that are not stopped by an exception; the names are those of C48_find.'),
 'C62': ('partial', 'Both directions proved except navigation files. REFUTED for these (C62_refuted): a navigation file that is no RINEX file is logged as an error but not counted, so the run ends without the announcement. The two directions use may_fail and must_fail, which differ only for sites known up to the sign of a zero.'),
 'C63': ('proved', ''),
 'C64': ('partial', 'Proved for paths with a directory part and configuration files of the form of C45/C46 (navIgnoreAbsence assigned). REFUTED for -c my.cfg: the empty directory name makes os.chdir stop every such run with OSError (C64_bare_refuted).'),
 'C65': ('proved', 'The creation time printed in the comments is part of the world, so equality is up to it.'),
 'C66': ('partial', 'Proved when at most one navigation file matches for a day and system, or the navigation directories keep their order. REFUTED otherwise (C66_refuted): of several matching navigation files the first listed by os.listdir is used.'),
 'C67': ('partial', 'REFUTED for navIgnoreAbsence: os.listdir of the missing directory stops the run with OSError (C67_refuted). The rest is proved.'),
 'C68': ('partial', 'Proved for the five systems. REFUTED for IRNSS: no run ever writes a row for it (C68_irnss_refuted).'),
 'C69': ('partial', 'Proved: every file is as before or the beginning of a result; finished observation files have complete results; an exception loses no row. REFUTED: a result that is there need not be complete and can look exactly like the complete result of another observation file (C69_refuted), can end inside a row (C69_row_refuted), and the result of an earlier run is emptied first (C69_old_refuted).'),
 'C70': ('proved', 'For runs that end by themselves; any number of stopped runs (C70_history).'),
 'C71': ('partial', 'Proved for ASCII navigation files and coordinates that agree. REFUTED: one byte that is not ASCII in a plain navigation file stops the run, packed it is dropped (C71_refuted); coordinates beside SITE.12o are not found for SITE.12d (C71_coordinates_refuted).'),
 'C72': ('partial', 'Proved for observation files that need a program which is not installed. REFUTED: a packed navigation file without gzip stops the run (C72_nav_refuted); a damaged archive loses rows silently, as the exit status is never asked for (C72_damaged_refuted); a plain observation file that cannot be opened stops the run (C72_unreadable_refuted).'),
 'C73': ('partial', 'Proved when the sampling interval differs from the interval of the file. REFUTED when they are equal: nothing is left out and the comment does not say so (C73_refuted).'),
 'C74': ('proved', 'The C library is assumed to return binary64 numbers (libm_b64), which every implementation does.'),
 'C75': ('proved', 'Years 1000 to 9999. A limit of the default format, which has no %f: rows of one second are not told apart (C75_subsecond_refuted).'),
 'C76': ('partial', 'Proved for formats of the documented codes without %A and %B and for years from 1000. REFUTED with %A: a run on Monday announces 6 characters, a row of Wednesday has 9 (C76_names_refuted).'),
 'C77': ('proved', 'pow() of the C library is assumed accurate to 2^-52 relative for squares of carrier frequencies (squares). The columns of positions and angles are those of C51, C58 and C60.'),
 'C78': ('proved', 'A second block with the epoch of the block before is left out, as in C03.'),
 'C79': ('proved', 'The operations refused are those on result files (make the directory, open, write, close); errors in reading the inputs and errors a device reports after it has accepted the data are not modelled.'),
 'C80': ('proved', 'As C69, C70 and C79 for coordinates.txt. That its beginning can look like a complete file is C69_refuted.'),
 'C81': ('partial', 'REFUTED in two cases, in which a record without row has no message at all: all navigation messages of the satellite are too far in time (C81_far_refuted); an observation file before had the same satellite at the same time, so that its missing position is taken from the cache silently (C81_again_refuted). C81_reported_partial shows there are no others. Proved for whole files (C81_files) and for records of another day (C81_other_days).'),
 'C82': ('partial', 'REFUTED: with logLevel CRITICAL the user is sent to an empty log (C82_critical_refuted); a damaged navigation file is logged as an error but not counted (C82_silent_refuted). Proved: the count is that of the five kinds of failure (C82_count), announced failures are in the log for all other levels (C82_found_partial), and only errors of navigation files and geodetic coordinates go unannounced (C82_rest).'),
 'C83': ('partial', 'REFUTED: where the position of a satellite cannot be computed, the failure leaves an entry in the dictionary of satellites, so that a second file with the same record gets a row of zeros which it does not get alone (C83_refuted). Proved for runs without such records (C83_rows_partial, C83_files_partial).'),
 'C84': ('proved', 'Names with a RINEX extension that are yet no RINEX names (a copy of ...) are the subject of C48 and C49.'),
 'C85': ('proved', 'logLevel and logFileName are free too; that the log itself goes elsewhere is not part of the model.'),
 'C86': ('partial', 'Missing: tec.l8c8, which is only computed when tec.l1c1 or tec.l2c2 is among the columns (refuted: an empty value that is there when another column is asked for). Both runs are to end normally.'),
 'C87': ('proved', 'Both runs end normally; values of TEC columns are compared as in C86.'),
 'C88': ('partial', 'REFUTED with a sampling interval: the first record of any system begins the first sample, so that a record of GLONASS decides which records of GPS are used (C88_sampling_refuted). Proved without sampling, for positions of the site without -0.0 and satellites whose positions can be computed. The files without the other records are given by what the reader delivers for them (taken_out): the same header and the remaining records.'),
 'C89': ('partial', 'Proved for positions of the site without -0.0 and satellites whose positions can be computed (C44). REFUTED for two intervals: each record is compared with the last one used, so that with 60 s a record can be used that is left out with 30 s (C89_intervals_refuted).'),
 'C90': ('partial', 'Proved for satellites whose positions can be computed (C44: otherwise a later file sees what an earlier one left in memory) and files cut between lines. The texts are read at the places C90_text2 and C90_text3 say: a RINEX 2 text with fewer times left may have another interval, or cannot be opened, which C90_rows_partial covers as a file without rows.'),
}
