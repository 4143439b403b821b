{"id": "C01", "title": "RINEX 2 observations are read back exactly", "statement": "Iterating obs_file(f).read_records() over the body of a well-formed RINEX 2 file yields, for every epoch in file order and every satellite in the order of the epoch's satellite list, exactly the epoch's date/time, that satellite's identifier and, for every declared observation type, the binary64 number nearest to the written F14.3 value together with the written LLI and signal-strength digits (0 when blank), and None for a blank field.", "quantifier": "every list of epochs, every satellite count (including continuation lines), every number of observation types (including several lines per satellite), every field content, every amount of trailing white space", "why_tests_cant": "Column arithmetic (12 satellites per line, 5 values per line, 16 columns per value) fails only at particular counts; a finite set of files cannot cover all satellite/type counts and all field contents.", "anchors": ["tecs/rinex/v2/o.py: Obs2.read_records, read_epoch, _get_val, _get_prn, _det_lines_per_rec"]}
{"id": "C02", "title": "RINEX 2 observation type list is read for any length", "statement": "For a RINEX 2 header declaring n observation types over ceil(n/9) '# / TYPES OF OBSERV' lines, the reader's declared type list is exactly those n two-character types in order, and a satellite record then occupies ceil(n/5) lines that together hold n values.", "quantifier": "every n >= 1 and every sequence of type codes", "why_tests_cant": "Boundary counts (9, 10, 18, 5, 10 ...) are where off-by-one errors hide; the claim ranges over all n.", "anchors": ["tecs/rinex/v2/o.py: Obs2.set_obs_num_types, _det_lines_per_rec"]}
{"id": "C03", "title": "RINEX 2 repeated epochs are delivered once", "statement": "While reading a RINEX 2 file no record is delivered whose epoch equals the epoch of the immediately preceding epoch block, and every record of every other block is delivered in file order.", "quantifier": "every sequence of well-formed epoch blocks", "why_tests_cant": "Depends on the whole history of epochs read, including state left over from earlier passes over the file.", "anchors": ["tecs/rinex/v2/o.py: Obs2.read_records (preceding_epoch), get_interval"]}
{"id": "C04", "title": "RINEX 2 event records are consumed and produce no data", "statement": "An event record (flag > 1) announcing k following records consumes exactly those k lines, delivers no observation, and the observations after it are read as if the event were absent, except that 'APPROX POSITION XYZ' given in a flag 3/4 event becomes the site position of all later records.", "quantifier": "every event flag, every k, every position in the file", "why_tests_cant": "Needs all interleavings of events and epochs.", "anchors": ["tecs/rinex/v2/o.py: Obs2.read_records", "tecs/rinex/basic.py: ObservationData._parse_header"]}
{"id": "C05", "title": "Site position seen with the first record is the header's", "statement": "After opening a RINEX 2 file, the site position reported before the first record is read is the one of the file header, whatever position-changing events occur later in the file.", "quantifier": "every header and every later sequence of events", "why_tests_cant": "The interval look-ahead reads an unknown part of the file first; only some histories expose the leak.", "anchors": ["tecs/rinex/v2/o.py: Obs2.__init__, get_interval"]}
{"id": "C06", "title": "Observation interval of a RINEX 2 file", "statement": "The interval reported for a RINEX 2 file is the most frequent non-zero difference between consecutive distinct delivered epochs among the first ten such differences (the earliest such difference on a tie), and opening fails with RinexError when the file has fewer than two distinct epochs.", "quantifier": "every sequence of epochs", "why_tests_cant": "Statement about arbitrary histories of time steps and ties.", "anchors": ["tecs/rinex/v2/o.py: Obs2.get_interval"]}
{"id": "C07", "title": "Reported interval is positive and usable as a divisor", "statement": "For every successfully opened observation file the reported interval is positive, so the time-serial-number of every record can be computed.", "quantifier": "every openable observation file of every supported version", "why_tests_cant": "Sub-second and decreasing epoch sequences and the version 2.00 integer field are corner histories.", "anchors": ["tecs/rinex/v2/o.py: Obs2.__init__, get_interval", "tecs/rinex/header.py: Interval", "tecs/rinex/v3/o.py: Obs3._det_interval", "tecs/dio/text.py: Text.write_data"]}
{"id": "C08", "title": "RINEX 3 observations are read back exactly", "statement": "read_records() over the body of a well-formed RINEX 3 file yields for every epoch and satellite line exactly the epoch, the satellite (blank in the number replaced by 0) and for each observation type declared for that satellite's system the nearest binary64 to the written value with its LLI and strength digits; blank fields give (0, 0, 0); missing trailing columns count as blank.", "quantifier": "every list of epochs, satellites, declared systems and types, every line truncation", "why_tests_cant": "Field positions depend on the declared type counts of all systems.", "anchors": ["tecs/rinex/v3/o.py: Obs3.read_records, _parse_obs_record, _parse_epoch_record, _det_data_chunks"]}
{"id": "C09", "title": "RINEX 3 observation type table is read for any length", "statement": "For a header with 'SYS / # / OBS TYPES' lines (13 codes per line, continuation lines) the declared types per system are exactly the listed codes in order; for BeiDou in version >= 3.02 band 1 codes are read as band 2; all other codes are unchanged.", "quantifier": "every set of distinct systems, every number of codes, every version", "why_tests_cant": "Continuation handling and the BeiDou renaming range over all code lists.", "anchors": ["tecs/rinex/header.py: SysNObsTypes.value", "tecs/rinex/v3/o.py: Obs3._parse_header"]}
{"id": "C10", "title": "RINEX 3 position updates take effect", "statement": "After an event record (flag 4) containing an 'APPROX POSITION XYZ' line, the site position is the one of that event until the next such event.", "quantifier": "every sequence of events in a RINEX 3 file", "why_tests_cant": "Needs files with several events; history dependent.", "anchors": ["tecs/rinex/v3/o.py: Obs3.read_records, _handle_event, _parse_header"]}
{"id": "C11", "title": "Opening an observation file terminates", "statement": "Opening any observation file terminates, either with a reader object or with an exception.", "quantifier": "every file content", "why_tests_cant": "Non-termination cannot be observed by a test.", "anchors": ["tecs/rinex/v3/o.py: Obs3._det_interval, _next_epoch", "tecs/rinex/v2/o.py: Obs2.get_interval"]}
{"id": "C12", "title": "A malformed record ends that file only", "statement": "When a data record of an observation file is malformed, all records before it have been delivered, nothing after it is delivered, the error is reported as RinexError, and the processing of other files is unaffected.", "quantifier": "every prefix of well-formed records followed by any malformed data line", "why_tests_cant": "Quantifies over crash points.", "anchors": ["tecs/__main__.py: main", "tecs/rinex/v2/o.py: Obs2.read_records", "tecs/rinex/v3/o.py: Obs3.read_records"]}
{"id": "C13", "title": "Calendar time of an epoch", "statement": "validate_epoch([year, month, day, hour, min, sec, usec]) denotes the instant midnight(year,month,day) + hour h + min m + sec s + usec, for minutes and seconds up to 120, with two-digit years >= 89 read as 19yy and below 89 as 20yy; it raises ValueError exactly when the remaining fields are out of range.", "quantifier": "every integer 7-tuple", "why_tests_cant": "Carry over day/month/year boundaries (leap years) for all dates.", "anchors": ["tecs/rinex/common.py: validate_epoch"]}
{"id": "C14", "title": "Two-digit years agree between file names and epochs", "statement": "For every two-digit year the century chosen for a classic RINEX file name equals the one chosen for the epochs inside the file, so records of the named day are not rejected.", "quantifier": "every two-digit year", "why_tests_cant": "Two independent pivots; agreement is a statement about all years.", "anchors": ["tecs/rinex/common.py: validate_epoch", "tecs/rinex/futils.py: get_rinex_date"]}
{"id": "C15", "title": "Epoch seconds are accurate to the microsecond", "statement": "For every decimal seconds field with at most seven fractional digits the reader's (second, microsecond) pair is exactly the field's value truncated to microseconds, in spite of binary floating point.", "quantifier": "every value 0 <= s < 100 with 7 decimals, for RINEX 2 and 3 readers", "why_tests_cant": "10^9 inputs; rounding errors show up only on some of them.", "anchors": ["tecs/rinex/common.py: sec2sec_ms", "tecs/rinex/v2/o.py: Obs2.read_epoch"]}
{"id": "C16", "title": "File date from the file name", "statement": "get_rinex_date of a classic (ssssdddf.yyt, ssssdddfmm.yyt) or modern (XXXXMRCCC_R_YYYYDDDHHMM...) RINEX name is day ddd of the year, for every valid day of year, and None when the name has neither form or the day is 000 or above 366.", "quantifier": "every file name", "why_tests_cant": "All years/leap years/days; pattern language.", "anchors": ["tecs/rinex/futils.py: get_rinex_date, RE_CLASSIC_RINEX, RE_MODERN_RINEX"]}
{"id": "C17", "title": "Broadcast ephemerides are read back exactly", "statement": "For a well-formed RINEX 2 or 3 navigation file, nav_file(f).message maps system, satellite number and time of day to exactly the tuple of broadcast-orbit numbers written for that satellite at that time (blank fields as 0, D or E exponents), the last one winning among equal keys, and contains nothing else.", "quantifier": "every sequence of messages of every supported system, every field content", "why_tests_cant": "Record lengths differ by system (7 or 3 orbit lines); interleavings are unbounded.", "anchors": ["tecs/rinex/v2/n.py: Nav2._read_message, _read_orbits, _parse_epoch_record", "tecs/rinex/v3/n.py: Nav3._parse_epoch_record", "tecs/rinex/nmsg.py"]}
{"id": "C18", "title": "Only ephemerides of the file's day are kept", "statement": "Every message kept from a navigation file has an epoch on the date given by the file's name; in particular a file without a recognisable date contributes nothing.", "quantifier": "every navigation file content and name", "why_tests_cant": "Invariant over all histories of the reader's state machine.", "anchors": ["tecs/rinex/v2/n.py: Nav2._read_message"]}
{"id": "C19", "title": "Every kept ephemeris has the full number of values", "statement": "Every tuple kept in a navigation message has exactly 26 numbers for GPS-like systems and 12 for GLONASS/SBAS, so computing a satellite position from it never fails for lack of values.", "quantifier": "every file content (well-formed or not)", "why_tests_cant": "Invariant for arbitrary (also truncated or garbled) input.", "anchors": ["tecs/rinex/v2/n.py: Nav2._read_message, _read_orbits", "tecs/rinex/nmsg.py"]}
{"id": "C20", "title": "Truncated ephemerides never mix", "statement": "The orbit numbers kept for a satellite all come from consecutive lines directly following that satellite's own epoch line; if a message is cut short by the next epoch line the file is rejected with RinexError instead of combining lines of two messages.", "quantifier": "every file content", "why_tests_cant": "Any truncation point in any history.", "anchors": ["tecs/rinex/v2/n.py: Nav2._read_message, _read_orbits"]}
{"id": "C21", "title": "Selection of the ephemeris for an observation", "statement": "select_navigation_message returns the message of exactly the observation's time of day if there is one; otherwise, with first_msg, the day's earliest message for GPS and BeiDou, and for Galileo/GLONASS/SBAS the earliest message at most 3 h / 15 min / 256 s away (in whole seconds), or None when there is none.", "quantifier": "every set of message times and every observation time", "why_tests_cant": "All time sets and orders.", "anchors": ["tecs/rinex/nmutils.py: select_navigation_message"]}
{"id": "C22", "title": "Seconds of week", "statement": "The time passed to the GPS orbit computation is the number of seconds elapsed since the start of the GPS week of the observation epoch (to the whole second), within floating-point error; Galileo and GPS weeks being aligned, the same holds for Galileo.", "quantifier": "every epoch from 1980 to 9999", "why_tests_cant": "All dates; floating point division by 7.", "anchors": ["tecs/rinex/nmutils.py: get_week_sec, select_navigation_message"]}
{"id": "C23", "title": "Navigation file choice follows the priority list", "statement": "Among the matching navigation files the one chosen is the first (in listing order) of the first listed site code that has a file; with no match the first file; None for an empty list; the chosen file is always one of the given files.", "quantifier": "every file list and every priority list", "why_tests_cant": "All lists and orders.", "anchors": ["tecs/rinex/nmutils.py: get_prior_file, load_navigation_message"]}
{"id": "C24", "title": "Validity word", "statement": "Bit k of the validity value written with a record is 1 exactly when the observation class of bit k is declared for the satellite but has no (or zero) value in the record, or has a value without being declared; the three LLI bits are 1 exactly when the phase's loss-of-lock bit is set.", "quantifier": "every declared type list and every record", "why_tests_cant": "All subsets of observation types, order independence.", "anchors": ["tecs/validity.py: set_bits, eval_validity", "tecs/__main__.py: main (validity)"]}
{"id": "C25", "title": "Observation classes are a partition", "statement": "Every observation code belongs to at most one observation class, so classification does not depend on search order; unknown codes raise LabelError; every code accepted as phase (L) is accepted with the same band and attribute as Doppler (D) and signal strength (S).", "quantifier": "every code string", "why_tests_cant": "All strings.", "anchors": ["tecs/rinex/label.py: get_label, OBS_TYPE_LABELS"]}
{"id": "C26", "title": "Choice of the observable per class", "statement": "parse_rec(rec) gives for each observation class the value of the alphabetically first code of that class present in the record and (None, None, None) when there is none.", "quantifier": "every record", "why_tests_cant": "All subsets of codes.", "anchors": ["tecs/gtb/tools.py: parse_rec"]}
{"id": "C27", "title": "Pseudorange TEC recovers the slant TEC", "statement": "If the two pseudoranges are a common geometric range plus the first-order ionospheric delay 40.308*TEC*1e16/f^2, compute_via_p returns TEC (in TECU); it returns None exactly when an observable or frequency is missing or zero.", "quantifier": "all ranges, TEC values and distinct positive frequencies (exact real arithmetic)", "why_tests_cant": "Algebraic identity over the reals.", "anchors": ["tecs/gtb/tec.py: compute_via_p, tec_factor"]}
{"id": "C28", "title": "Phase TEC recovers slant TEC up to a constant", "statement": "If the two phases are a common range minus the first-order ionospheric advance plus constant ambiguities, compute_via_l differs from TEC by a constant that does not depend on range or TEC; differences between epochs are exact.", "quantifier": "all ranges, TEC, ambiguities, distinct positive frequencies (exact real arithmetic)", "why_tests_cant": "Algebraic identity over the reals.", "anchors": ["tecs/gtb/tec.py: compute_via_l"]}
{"id": "C29", "title": "Code-phase TEC recovers slant TEC", "statement": "If code and phase on one frequency are delayed/advanced by the first-order term, compute_via_l1_c1 returns TEC plus a constant proportional to the ambiguity.", "quantifier": "all ranges, TEC, ambiguities, positive frequency (exact real arithmetic)", "why_tests_cant": "Algebraic identity over the reals.", "anchors": ["tecs/gtb/tec.py: compute_via_l1_c1"]}
{"id": "C30", "title": "Requested TEC columns are computed", "statement": "Every TEC field listed in recFields is computed from its two observables for every record (not silently replaced by 0), whatever other fields are listed.", "quantifier": "every recFields list", "why_tests_cant": "All subsets of fields.", "anchors": ["tecs/gtb/tec.py: compute_on_demand_p, compute_on_demand_l, compute_on_demand_l1_c1", "tecs/__main__.py: main"]}
{"id": "C31", "title": "Azimuth and longitude ranges", "statement": "The azimuth is the satellite's bearing at the site, clockwise from the north; azimuth and longitude returned to the user are in [0, 360).", "quantifier": "all positions", "why_tests_cant": "All reals; in floating point the upper bound can be attained.", "anchors": ["tecs/sat/common.py: compute_el_az, xyz2lbh_deg"]}
{"id": "C32", "title": "Satellites below the horizon get a negative elevation", "statement": "The elevation computed for a satellite is negative exactly when the satellite is below the horizon plane of the spherical Earth at the site, so that no record of such a satellite is written.", "quantifier": "all site and satellite positions", "why_tests_cant": "All geometries; branch of the arctangent.", "anchors": ["tecs/sat/common.py: compute_el_az", "tecs/__main__.py: main"]}
{"id": "C33", "title": "Geodetic coordinates invert the Cartesian ones", "statement": "The latitude iteration ends, and the returned (l, b, h) satisfy, to a tenth of a micrometre, the defining equations x=(N+h)cos b cos l, y=(N+h)cos b sin l, z=(N(1-e^2)+h) sin b of the WGS-84 ellipsoid, with 0 <= l < 360 and -90 < b < 90 degrees.", "quantifier": "all x, y, z off the polar axis and at least 1000 km from the centre (exact real arithmetic)", "why_tests_cant": "Identity over the reals.", "anchors": ["tecs/sat/common.py: xyz2lbh"]}
{"id": "C34", "title": "GPS, Galileo and BeiDou positions follow the broadcast orbit", "statement": "The position computed from a broadcast ephemeris is the one of IS-GPS-200: time from ephemeris reduced into one half week, mean anomaly, eccentric anomaly solving Kepler's equation, true anomaly, harmonic corrections of the argument of latitude, radius A(1 - e cos E) and inclination, rotating node.", "quantifier": "all ephemerides and times (exact real arithmetic; Kepler equation also in binary64)", "why_tests_cant": "Identity over the reals.", "anchors": ["tecs/sat/gps.py: compute_sat_xyz"]}
{"id": "C35", "title": "GLONASS/SBAS position at and near the ephemeris time", "statement": "At zero time offset the position is exactly the broadcast position in metres; near it the position follows the equations of motion of the GLONASS interface document (central and J2 gravity, rotating frame, luni-solar accelerations) to the second order in the offset; SBAS and GLONASS propagation are the same function.", "quantifier": "all ephemerides and offsets", "why_tests_cant": "Identity over the reals.", "anchors": ["tecs/sat/glonass.py: compute_sat_xyz", "tecs/sat/geo.py: compute_sat_xyz"]}
{"id": "C36", "title": "Columns of the output follow recFields", "statement": "For every valid recFields list the i-th column of every output row is the value of the i-th listed field rendered in that field's format, columns separated by one blank; an unknown field raises CfgError; 'all' selects every field in alphabetical order.", "quantifier": "every recFields list and every record", "why_tests_cant": "54 fields in any order and multiplicity.", "anchors": ["tecs/gtb/config.py: Cfg.compose_rec_format", "tecs/rec.py: Rec.formatDef", "tecs/dio/text.py: Text.write_data", "tecs/__main__.py: main (data_chunk)"]}
{"id": "C37", "title": "Fortran format in the file header describes the rows", "statement": "For every field the Fortran edit descriptor written in the output header has the same width and number of decimals as the format used for the rows.", "quantifier": "every field", "why_tests_cant": "All fields and all recFields lists.", "anchors": ["tecs/rec.py: Rec.formatDef", "tecs/gtb/config.py: Cfg.compose_rec_format"]}
{"id": "C38", "title": "Time serial number", "statement": "The tsn of a record is an integer within 1/2 of (seconds of day)/interval, and is exactly k for an epoch at k times the interval.", "quantifier": "every time of day and positive interval", "why_tests_cant": "Rounding of all quotients.", "anchors": ["tecs/dio/text.py: Text.write_data"]}
{"id": "C39", "title": "Output files are separate per site, satellite and day", "statement": "Records of different satellites, sites or days never go to the same output file, and no record written earlier in the run is lost.", "quantifier": "every set of observation files processed in one run", "why_tests_cant": "Depends on the combination of files in one run (hourly files of one site).", "anchors": ["tecs/dio/text.py: Text.write_data, end_up", "tecs/__main__.py: main"]}
{"id": "C40", "title": "Rows are appended in reading order", "statement": "After processing one observation file, the file of each satellite contains the header followed by exactly one row per accepted record of that satellite, in reading order.", "quantifier": "every sequence of accepted records", "why_tests_cant": "All interleavings of satellites.", "anchors": ["tecs/dio/text.py: Text.write_data, update_satellite, end_up"]}
{"id": "C41", "title": "Sampling interval thins epochs", "statement": "With a sampling interval larger than the observation interval, the accepted epochs start with the first epoch, consecutive accepted epochs are at least the sampling interval apart, no epoch at least that far from the last accepted one is dropped, and all satellites of an accepted epoch are kept; otherwise all epochs are accepted.", "quantifier": "every sequence of epochs in file order and every interval", "why_tests_cant": "Greedy history-dependent selection.", "anchors": ["tecs/__main__.py: main (sampling_interval, last_epoch)"]}
{"id": "C42", "title": "Records of other days or unsupported systems are never written", "statement": "No row is written for an epoch whose date differs from the file name's date or for a satellite of an unsupported system; a file with no recognisable date yields no rows.", "quantifier": "every record sequence", "why_tests_cant": "All histories.", "anchors": ["tecs/__main__.py: main"]}
{"id": "C43", "title": "Missing navigation data", "statement": "With navIgnoreAbsence false (or for GLONASS) no row is written for a satellite without ephemeris; with navIgnoreAbsence true every record of a non-GLONASS satellite without ephemeris is written with elevation and azimuth 0.", "quantifier": "every record sequence and configuration", "why_tests_cant": "History-dependent: the first record of a system triggers loading.", "anchors": ["tecs/__main__.py: main"]}
{"id": "C44", "title": "Satellite position cache is transparent", "statement": "The position and GLONASS frequencies used for a record equal those computed afresh from the navigation message for that satellite and epoch, however many observation files were processed before; the GLONASS frequency lookup never fails.", "quantifier": "every sequence of observation files and records", "why_tests_cant": "State shared across files; all histories.", "anchors": ["tecs/__main__.py: main (sat_xyz, glo_freq, nav_message)"]}
{"id": "C45", "title": "Configuration file syntax", "statement": "Reading a configuration file sets exactly the known variables assigned a non-empty value (the last assignment wins) and leaves every other variable at its default; comments, blank lines and surrounding white space have no effect.", "quantifier": "every sequence of lines", "why_tests_cant": "All line sequences.", "anchors": ["tecs/config.py: Configuration.read_cfg", "tecs/gtb/config.py: Cfg.read_cfg"]}
{"id": "C46", "title": "Omitted variables take their defaults", "statement": "A configuration file that omits any variable is accepted and the variable takes its documented default.", "quantifier": "every subset of variables", "why_tests_cant": "All subsets.", "anchors": ["tecs/gtb/config.py: Cfg.read_cfg, DEFAULTS", "tecs/config.py: Configuration._get_bool"]}
{"id": "C47", "title": "Reader class by file version", "statement": "obs_file and nav_file choose the reader by the numeric version on the first line, for the versions listed as supported, and raise RinexError for any other version or when no version is found.", "quantifier": "every first line", "why_tests_cant": "All version strings (2, 2.0, 2.00, 2.1, 2.10 ...).", "anchors": ["tecs/rinex/__init__.py: obs_file, nav_file", "tecs/rinex/futils.py: RE_VER"]}
{"id": "C48", "title": "Observation file names and compression", "statement": "A file is taken as observation file exactly when its base name has the classic or modern observation form, optionally followed by .z or .gz, in any letter case, and the decompression steps applied (gzip, Hatanaka, none) are those of its extension, independent of the directory it is in.", "quantifier": "every path", "why_tests_cant": "Regular-language statement over all strings.", "anchors": ["tecs/rinex/futils.py: RE_OBS, RE_Z, RE_CRX, RE_RNX, expand_obs, find_files"]}
{"id": "C49", "title": "Navigation files are matched by day and system", "statement": "A file name is used for a system and date exactly when it is a classic name with that day of year, two-digit year and type letter, or a modern name with that year, day and system letter.", "quantifier": "every file name, date and system", "why_tests_cant": "Regular-language statement over all strings.", "anchors": ["tecs/rinex/nmutils.py: compose_navigation_re, find_nav_files"]}
{"id": "C50", "title": "Coordinates file", "statement": "load_xyz_file returns exactly the position of each listed time (the last one for a repeated time), ignoring comment and blank lines.", "quantifier": "every sequence of well-formed lines", "why_tests_cant": "All line sequences.", "anchors": ["tecs/rinex/futils.py: load_xyz_file"]}
{"id": "C51", "title": "Site position used for a record", "statement": "The position used for elevation/azimuth and written with a record is the coordinates-file entry of its epoch if there is one, else the position currently announced by the observation file.", "quantifier": "every sequence of records, coordinate entries and announcements", "why_tests_cant": "History dependent.", "anchors": ["tecs/__main__.py: main"]}
{"id": "C52", "title": "Non-ASCII bytes are dropped, nothing else", "statement": "Reading a compressed file delivers exactly its ASCII characters in order; every non-ASCII byte is dropped.", "quantifier": "every byte sequence", "why_tests_cant": "All byte strings.", "anchors": ["tecs/rinex/futils.py: write_ascii_lines, expand_obs"]}
{"id": "C53", "title": "RINEX 3 interval", "statement": "The interval of an opened RINEX 3 file is the difference between its first epoch and the first epoch different from it, rounded to the millisecond; opening fails with RinexError when the second is earlier or when there is only one epoch.", "quantifier": "every well-formed body with any number of repetitions of the first epoch and any events in between", "why_tests_cant": "Any number of repeated epochs and events precedes the second epoch.", "anchors": ["tecs/rinex/v3/o.py: Obs3._det_interval, _next_epoch"]}
{"id": "C54", "title": "Header values", "statement": "The version and file type, time of first observation, site position and interval read from the header of an observation file are those of the first header line carrying the corresponding label; a blank satellite system (RINEX 2) means G and a blank time system means GPS; labels in any order, mixed with any other lines, and an opened file reports these values (version, time, position).", "quantifier": "every header: any number and order of lines, repeated labels, any dates and numbers; all supported versions", "why_tests_cant": "Any order, repetition and mix of header lines.", "anchors": ["tecs/rinex/basic.py: ObservationData._parse_header", "tecs/rinex/header.py: RinexVersionType, TimeOfFirstObs, ApproxPositionXYX, Interval"]}
{"id": "C55", "title": "Carrier frequencies", "statement": "The carrier frequencies used for the TEC values are, exactly in binary64, the published ones of the satellite's system and band (GPS L1/L2/L5, SBAS L1/L5, Galileo E1/E5a/E6/E5b/E5, BeiDou B1/B3/B2) and for GLONASS 1602 MHz + k*562.5 kHz and 1246 MHz + k*437.5 kHz; other bands of a system have no frequency and give no TEC.", "quantifier": "all systems and bands, all GLONASS frequency numbers up to 2^20 in absolute value", "why_tests_cant": "All frequency numbers; exactness of binary64 arithmetic.", "anchors": ["tecs/__main__.py: main", "tecs/sat/gps.py: F1, F2, F5", "tecs/sat/glonass.py: F1, F2", "tecs/sat/geo.py: F1, F5"]}
{"id": "C56", "title": "Rounding of the TEC values", "statement": "The TEC values computed in binary64 are within a relative 1e-14 of the exact formula on the same numbers (for phase and code-phase combinations: relative to the sum of the absolute values of the two terms), never an exception, infinity or NaN, given a C library whose square is accurate to one unit in the last place.", "quantifier": "all pseudoranges of 1 m to 1e9 m, all phases of 1e-4 to 1e12 cycles, all carriers between 1 and 2 GHz far enough apart (all the ones used by the program)", "why_tests_cant": "All binary64 inputs.", "anchors": ["tecs/gtb/tec.py: tec_factor, compute_via_p, compute_via_l, compute_via_l1_c1"]}
{"id": "C57", "title": "A bad observation file does not spoil the others", "statement": "An observation file that is not RINEX (or of an unsupported version), or that cannot be decompressed, changes nothing about what is written for the other observation files of the run, wherever it stands among them.", "quantifier": "every world of files, every configuration, every position of the bad file among the files of the run", "why_tests_cant": "State (dictionaries, files on disk) is carried from file to file; all positions and all contents.", "anchors": ["tecs/__main__.py: main (try/except around rinex.obs_file)", "tecs/rinex/__init__.py: obs_file"]}
{"id": "C58", "title": "One row per record, in order", "statement": "The rows handed to the writer for an observation file are, in order, one for each record used, except the records for which there is a stated reason to have none (no ephemeris, position or angle not computable, satellite below the horizon, a label that cannot be classified, the first record of a system without navigation file). If the program stops, they are the rows of the records before the stop.", "quantifier": "every world of files, every configuration, every observation file of the run", "why_tests_cant": "All histories: every record, system and file processed before.", "anchors": ["tecs/__main__.py: main (loop over obs.read_records())"]}
{"id": "C59", "title": "The files after a run hold the rows of the run", "statement": "After a run that ends normally, the file outDir/YYYY/DDD/site/site_sat_DDD_YY.dat of each satellite with rows holds the comment lines and exactly the rows of that observation file in order, unless a later observation file with rows of that satellite has the same site name and day.", "quantifier": "every world of files, every configuration, any earlier contents of the output directory", "why_tests_cant": "The writer appends to files that may exist before and are shared between observation files; all sequences.", "anchors": ["tecs/__main__.py: main", "tecs/dio/text.py: Text"]}
{"id": "C60", "title": "Position in the comment lines", "statement": "The comment lines 'Position (L, B, H)' and 'Position (X, Y, Z)' of a satellite's output file give the site of the first row of that file (the same coordinates as its site.x, site.y, site.z columns), and the geodetic coordinates belong to the Cartesian ones. The positions told to the writer are that of the header, at the header's time of first observation, and afterwards those of records, at the times of the records.", "quantifier": "all observation files, navigation files, coordinates files and configurations; all satellites; all orders of records and position events", "why_tests_cant": "The position is chosen as the one with the greatest time among those told so far, so it depends on the whole history of records, events, sampling and coordinates files before the satellite's first row.", "anchors": ["tecs/__main__.py:main (update_xyz, update_lbh, xyz_latest)", "tecs/dio/text.py:Text.update_xyz, xyz_latest, lbh_latest, write_data"]}
{"id": "C61", "title": "Which observation files are processed", "statement": "Without observation files the program exits and writes nothing. Otherwise the observation files found in obsDir are processed in the order of their names, each exactly once, all of them unless the program is stopped by an error; a file yields output calls exactly if it can be opened, is of a supported satellite system (G, R, S, C, E) or mixed, and its times are in GPS time.", "quantifier": "all directories, files, configurations and initial states of the output directory", "why_tests_cant": "Ranges over every set of files and every header.", "anchors": ["tecs/__main__.py:main", "tecs/rinex/futils.py:find_files"]}
{"id": "C62", "title": "The announcement of errors", "statement": "A run that comes to its end says 'There are some errors' whenever an observation file could not be opened or decompressed, is not in GPS time or breaks off, a navigation file needed by a record cannot be read, or the position, elevation or azimuth of a satellite of a used record could not be computed; and never otherwise.", "quantifier": "all directories, files, configurations and initial states of the output directory", "why_tests_cant": "Ranges over every combination of files and failures, and over the history the caches keep.", "anchors": ["tecs/__main__.py:main, run"]}
{"id": "C63", "title": "--save-coordinates", "statement": "With --save-coordinates no TEC values are computed and no file but coordinates.txt is changed; coordinates.txt holds one line 'site; longitude; latitude' for each observation file that can be opened, is of a supported system and in GPS time, in the order of the file names.", "quantifier": "all directories, files and configurations", "why_tests_cant": "Ranges over every set of files.", "anchors": ["tecs/__main__.py:main", "docs/usage.rst"]}
{"id": "C64", "title": "The start of the program", "statement": "With -c file the program takes its settings from that file and works in its directory (relative obsDir, navDir and outDir are taken from there), whatever the working directory it is called from and however the path is written; without it tecs.cfg of the working directory is taken. A configuration file that cannot be opened or is malformed changes nothing.", "quantifier": "all command lines, working directories, configuration files", "why_tests_cant": "Ranges over every path and every configuration file.", "anchors": ["tecs/__main__.py (module level)", "tecs/config.py:Configuration.read_cfg", "docs/usage.rst"]}
{"id": "C65", "title": "A run can be repeated", "statement": "What a run writes does not depend on the files that are there before: old result files are replaced, not continued; other files are left alone; running again over the same input leaves all files as they are (up to the creation time in the comments).", "quantifier": "all inputs, configurations and initial states of the file system", "why_tests_cant": "Ranges over every initial content of the output directory.", "anchors": ["tecs/__main__.py:main", "tecs/dio/text.py:Text"]}
{"id": "C66", "title": "The order of directory entries", "statement": "The outcome of a run does not depend on the order in which the operating system lists the entries of the directories.", "quantifier": "all directories and all orders of their entries", "why_tests_cant": "The order given by os.listdir is arbitrary and fixed on a given test machine.", "anchors": ["tecs/__main__.py:main", "tecs/rinex/futils.py:find_files", "tecs/rinex/nmutils.py:load_navigation_message"]}
{"id": "C67", "title": "Directories that do not exist", "statement": "If a directory of obsDir does not exist the program stops and has changed nothing. If a directory of navDir does not exist no file is changed and the program stops; with navIgnoreAbsence it runs as if the directory were empty.", "quantifier": "all directories, files and configurations", "why_tests_cant": "Ranges over every set of directories.", "anchors": ["tecs/rinex/futils.py:find_files", "tecs/__main__.py:main", "docs/usage.rst"]}
{"id": "C68", "title": "The supported systems", "statement": "A record of the file's day of a satellite of a system listed in the README (GPS, GLONASS, Galileo, BeiDou, GEO, IRNSS), whose position can be computed and is above the horizon, has a row.", "quantifier": "all runs, observation files and records", "why_tests_cant": "Ranges over every record of every run.", "anchors": ["README.rst", "tecs/__main__.py:SUPPORTED_SYSTEMS, main"]}
{"id": "C69", "title": "A run stopped at any moment", "statement": "If the program is killed at any moment (also while text is still in the buffers of its files), every file is as it was before or belongs to the results of the run; the results of the observation files already finished are complete; and a result file that is there is complete, or can be told from a complete one. An exception that ends the program loses no row already given out.", "quantifier": "all inputs, configurations, moments at which the run is stopped and schedules on which buffers reach the disk", "why_tests_cant": "The moments and the flush schedules are unbounded in number and not under the control of a test.", "anchors": ["tecs/dio/text.py:write_data, end_up", "tecs/__main__.py:main"]}
{"id": "C70", "title": "Running again after a stopped run", "statement": "Running the program again after runs that were killed at any moments gives exactly the files that a run nothing stopped would have given.", "quantifier": "all inputs, configurations, numbers of stopped runs and moments at which they are stopped", "why_tests_cant": "Ranges over every crash point and every history of crashes.", "anchors": ["tecs/dio/text.py:write_data, end_up", "tecs/__main__.py:main"]}
{"id": "C71", "title": "Compressing input files changes no result", "statement": "Storing an observation file plain, packed (.Z, .gz), in the compact (Hatanaka) form, or both, and a navigation file plain or packed, changes neither which files are used nor any row of the results: same result files, same rows, same end of the run; only the comment that names the sources may differ.", "quantifier": "all file contents, names, directories, configurations and combinations of storage forms", "why_tests_cant": "Ranges over every content and every pair of equivalent directory trees, and over what external programs and the locale make of the bytes.", "anchors": ["tecs/rinex/futils.py:expand_obs, expand_nav, write_ascii_lines, find_xyz_file", "tecs/rinex/nmutils.py:compose_navigation_re, load_navigation_message", "tecs/__main__.py:main"]}
{"id": "C72", "title": "Failures outside the program are errors of the file concerned", "statement": "When a file cannot be expanded - the program for it is not installed, the archive is damaged, or the file cannot be opened - an error is announced, that file is left out, and the run and the other files go on as without it.", "quantifier": "all inputs, configurations, positions of the file among the others, and kinds of failure", "why_tests_cant": "Ranges over every failure point of external programs and every set of other files.", "anchors": ["tecs/rinex/futils.py:expand_obs, expand_nav, UncompressError", "tecs/rinex/nmutils.py:load_navigation_message", "tecs/__main__.py:main"]}
{"id": "C73", "title": "The comment on the sampling interval tells whether records were left out", "statement": "Each result file's comments give the sampling interval that was asked for, and mark it \"(not used).\" exactly when no record of the observation file was left out because of it.", "quantifier": "all observation files, intervals, configured sampling intervals, satellites and runs", "why_tests_cant": "The mark and the thinning are decided at two places from floating-point comparisons; they must agree for every pair of intervals.", "anchors": ["tecs/dio/text.py:Text.__init__, write_data", "tecs/__main__.py:main"]}
{"id": "C74", "title": "Numbers in comments and in coordinates.txt lose no digits", "statement": "Reading back, with float() or int(), the interval, the Cartesian and the geodetic position in the comments of a result file, the GLONASS channel in its satellite line, and the longitude and latitude in coordinates.txt gives exactly the numbers the program used: the interval and an announced position of the observation file.", "quantifier": "all binary64 numbers; all observation, navigation and coordinates files, runs, satellites and C libraries that return binary64 numbers", "why_tests_cant": "Shortest round-trip text must be right for all 2^64 numbers, and no place may round or truncate before showing.", "anchors": ["tecs/dio/text.py:Text.write_data", "tecs/__main__.py:main", "tecs/sat/common.py:xyz2lbh_deg"]}
{"id": "C75", "title": "The datetime column tells the time of its row", "statement": "Two rows with the same datetime cell agree in every numeric code of datetimeFormat; when the format has the date, hour, minute and second they are of the same second, and of the same time if it has the microsecond too.", "quantifier": "all formats of documented codes, all pairs of rows with four-digit years", "why_tests_cant": "It ranges over all formats and all pairs of dates, including the days of leap years and formats whose codes stand side by side without separators.", "anchors": ["tecs/dio/text.py:Text.write_data", "tecs/gtb/config.py:Cfg.read_cfg", "docs/usage.rst"]}
{"id": "C76", "title": "The header's width of the datetime column is the width in every row", "statement": "The Fortran format in the comments gives for the datetime column the width it has in every row of the file, although the program measures the text of the moment of the run.", "quantifier": "all formats of documented codes, moments of the run and dates of rows", "why_tests_cant": "The width is measured on one date and promised for all others.", "anchors": ["tecs/gtb/config.py:Cfg.read_cfg", "tecs/gtb/config.py:Cfg.compose_rec_format", "tecs/dio/text.py:Text.write_data"]}
{"id": "C77", "title": "From the text of the observation file to the text of the rows", "statement": "After a run every row of a satellite's result file belongs to an epoch block of the observation file in which the satellite stands, and its columns say what that block states: the time; the decimals of every requested observable, digit for digit, and its loss-of-lock indicator; for a TEC column of two pseudoranges, two phases or a phase and a pseudorange the slant TEC they are the ionospheric delays of (plus the phase constants), to less than a thousandth of a TECU; zero when an observable is absent. The frequencies are those of the satellite's system, and of the channel in the navigation file for GLONASS.", "quantifier": "all runs that end by themselves, all well-formed observation files of version 2 or 3, all satellites, rows, field lists and values (pseudoranges up to 100000 km, phases up to 3e8 cycles); tec.l8c8 as in C30", "why_tests_cant": "It composes reading, labelling, the sampling of records, the run, rounding to binary64 and printing for all files and values.", "anchors": ["tecs/__main__.py:main", "tecs/rinex/v2/o.py:Obs2", "tecs/rinex/v3/o.py:Obs3", "tecs/gtb/tec.py", "tecs/dio/text.py:Text.write_data"]}
{"id": "C78", "title": "The rows of a satellite account for every record of the observation file", "statement": "For every record the observation file states of a satellite at a time of the day in its name that the sampling interval keeps, in the order of the file, the satellite's result file has one row saying what the record states, or none for one of the named reasons (no navigation data, position not computable, below the horizon, unknown code); nothing else is in the file.", "quantifier": "all runs that end by themselves, all sampling intervals, all well-formed observation files of version 2 or 3, all satellites", "why_tests_cant": "Losing or doubling a record depends on the whole history of the file and the run.", "anchors": ["tecs/__main__.py:main", "tecs/rinex/v2/o.py:Obs2", "tecs/rinex/v3/o.py:Obs3", "tecs/dio/text.py:Text.write_data"]}
{"id": "C79", "title": "A disk that refuses an operation is noticed and does no other harm", "statement": "If the system refuses to create, write or close a result file (disk full, no permission), the run stops with OSError: a run that ends normally has all its results complete. Every file is then as it was before or the beginning of a result file, the results of the observation files done before are complete, and running again when the disk works gives the results of an undisturbed run.", "quantifier": "all runs, all operations refused, any part of the buffered text written before or after the refusal", "why_tests_cant": "Which operation is refused, and how much of the text has reached the disk by then, are not under control of a test.", "anchors": ["tecs/dio/text.py:Text.write_data", "tecs/dio/text.py:Text.end_up", "tecs/__main__.py:main"]}
{"id": "C80", "title": "--save-coordinates may be stopped at any moment", "statement": "When a run with --save-coordinates is stopped or refused an operation, no other file is changed and coordinates.txt is as before or the beginning of the complete one; running again completes it; a run that ends normally, or by an exception of its own, has written all its lines.", "quantifier": "all runs with --save-coordinates, all moments of the stop, all refused operations, any part of the buffer written", "why_tests_cant": "The moment of the stop and the state of the buffer are not under control of a test.", "anchors": ["tecs/__main__.py:main"]}
{"id": "C81", "title": "The log accounts for what is left out", "statement": "For every observation file found, the run processes every record that the settings select, or logs at level WARNING or above why the file is left out. Every processed record has its row in the results, or the log (logLevel DEBUG or INFO) has a message that gives the reason and names nothing but the record's file, time, satellite or system.", "quantifier": "all runs, all configurations, all worlds of files, all records", "why_tests_cant": "Whether a message is logged depends on what earlier records and files left in the caches.", "anchors": ["tecs/__main__.py:main", "tecs/rinex/nmutils.py:select_navigation_message"]}
{"id": "C82", "title": "The announcement of errors agrees with the log", "statement": "The number of errors counted at the end of a run is the number of its messages that say so; the user is told to check out the log-file exactly if it has an error, and then there is an error in the log-file.", "quantifier": "all runs, all configurations, all worlds of files", "why_tests_cant": "Counter and log are updated at many places, reached by different histories.", "anchors": ["tecs/__main__.py:main", "tecs/__main__.py:run", "tecs/sat/common.py:xyz2lbh_deg"]}
{"id": "C83", "title": "The results of an observation file do not depend on the other observation files", "statement": "Processing only some of the observation files, with the same navigation files, ends normally if the run over all of them does, writes for each of these files the same rows, and leaves the same result files where no other observation file has the same site name and day.", "quantifier": "all worlds of files and configurations whose run ends normally, all selections of the observation files, all files on disk before", "why_tests_cant": "Dictionaries of satellites and navigation data are carried from file to file in every order; all combinations of files.", "anchors": ["tecs/__main__.py:main", "tecs/rinex/futils.py:find_files", "tecs/dio/text.py"]}
{"id": "C84", "title": "Other files in the directories do not matter", "statement": "Files in obsDir and navDir whose names have no RINEX extension (two digits and a type letter, rnx, crx), in whatever number and wherever listed, change nothing about a run: neither its results nor its errors nor its end, also with --save-coordinates.", "quantifier": "all worlds of files, configurations and other names", "why_tests_cant": "All names: the patterns for observation, coordinates and navigation files are matched against each of them.", "anchors": ["tecs/rinex/futils.py:find_files", "tecs/rinex/futils.py:_compose_res", "tecs/rinex/nmutils.py:compose_navigation_re", "tecs/__main__.py:main"]}
{"id": "C85", "title": "outDir moves the results and changes nothing else", "statement": "Two runs over the same files whose settings differ in outDir (and in logLevel and logFileName) end the same way, count the same errors and write the same rows; every result file of the one is found at the same place below the outDir of the other, with the same contents. With --save-coordinates nothing depends on these settings, nor on recFields, datetimeFormat and navIgnoreAbsence.", "quantifier": "all worlds of files, pairs of configurations that differ in these settings, and file systems the runs start from", "why_tests_cant": "All runs: the place of a result enters the writer's memory of open files and the directory kept from the first row on.", "anchors": ["tecs/dio/text.py", "tecs/__main__.py:main", "tecs/gtb/config.py"]}
{"id": "C86", "title": "A column does not depend on the other columns", "statement": "Two runs over the same files whose settings differ in recFields (and in outDir, datetimeFormat, logLevel and logFileName) write for each observation file the same positions and rows, of the same satellites and times in the same order, with the same value in every column that both have. Both count the same errors.", "quantifier": "all worlds of files and pairs of configurations that differ in these settings, all column lists", "why_tests_cant": "All pairs of column lists over all records: TEC values are computed on demand, depending on the list of columns.", "anchors": ["tecs/gtb/tec.py:on_demand_p", "tecs/gtb/tec.py:on_demand_l", "tecs/gtb/tec.py:on_demand_l1_c1", "tecs/__main__.py:main"]}
{"id": "C87", "title": "navIgnoreAbsence only adds rows of zeros", "statement": "With navIgnoreAbsence switched on, a run over the same files writes every row it writes without it, with the same values and in the same order, and between them only rows whose satellite position, elevation and azimuth are zero. Both count the same errors.", "quantifier": "all worlds of files and pairs of configurations that differ in this setting (and recFields, outDir, datetimeFormat, logLevel, logFileName)", "why_tests_cant": "All runs: the setting acts on each record after the caches of navigation data, satellite positions and the site's position were updated.", "anchors": ["tecs/__main__.py:main", "tecs/gtb/config.py"]}
{"id": "C88", "title": "Systems do not influence each other", "statement": "Taking the records of other satellite systems out of the observation files changes nothing about a system: the run ends normally if it did before, the rows of the system's satellites are the same, with the same values in the same order, and its result files differ in their comment lines at most.", "quantifier": "all worlds of observation files and the same files without the records of an arbitrary set of systems, all configurations", "why_tests_cant": "All combinations of systems and orders of records: the site's position, the sampling, the navigation data and the writer's positions are carried from record to record whatever their system.", "anchors": ["tecs/__main__.py:main", "tecs/dio/text.py", "tecs/rinex/nmutils.py"]}
{"id": "C89", "title": "A sampling interval only leaves rows out", "statement": "Giving a sampling interval to a run that had none makes no run fail, and every row it writes is a row the run without sampling writes, with the same text and in the same order: the file of a satellite has, after its comment lines, some of the rows it has without sampling. A longer interval writes some of the rows of a shorter one.", "quantifier": "all worlds, all configurations without sampling and all sampling intervals", "why_tests_cant": "The site's position, the navigation data and the first-record warning of a system are carried from record to record, and sampling leaves out the records that would have set them: all histories of records.", "anchors": ["tecs/__main__.py:main", "tecs/dio/text.py"]}
{"id": "C90", "title": "What is missing at the end of an observation file changes nothing before", "statement": "If the last lines of observation files are missing (a file still being written, or a copy cut short), the run ends normally if the run over the complete files does, and for each observation file what is written is the beginning of what is written for the complete file: the result file of a satellite has, after its comment lines, the first rows it has for the complete file. A RINEX 2 text with its last lines missing delivers the first records of the complete text if eleven different times are left, a RINEX 3 text if the interval is the same.", "quantifier": "all worlds of observation files and the same files with any number of lines missing at the end, all configurations", "why_tests_cant": "Every place at which every file can be cut, with state carried over records and files.", "anchors": ["tecs/__main__.py:main", "tecs/rinex/v2/o.py:read_records", "tecs/rinex/v3/o.py:read_records", "tecs/dio/text.py"]}
