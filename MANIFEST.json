{
 "claims": [
  {
   "property": "C01",
   "status": "proved",
   "theorems": [
    "C01_checksum_classifies",
    "C01_checksum_zero_iff"
   ],
   "note": "Full statement, for every line buffer of at least 70 bytes."
  },
  {
   "property": "C02",
   "status": "proved",
   "theorems": [
    "C02_single_digit_detected"
   ],
   "note": "Full statement: every digit position 0..68, every replacement digit."
  },
  {
   "property": "C03",
   "status": "partial",
   "theorems": [
    "C03_non_digit_check_column_refuted",
    "C03_check_value_partial",
    "C03_accepted_iff"
   ],
   "note": "Statement is false of the code: refuted with a line whose check column is '?'. The accepted lines are characterised exactly (value congruent mod 10)."
  },
  {
   "property": "C04",
   "status": "partial",
   "theorems": [
    "C04_checksum_reads",
    "C04_reads_inside_text_refuted",
    "C04_only_first_70_bytes"
   ],
   "note": "Exact characterisation of the undefined reads; the claim itself is refuted by a 68-character line (byte after the NUL is read). Only the first 70 bytes matter."
  },
  {
   "property": "C05",
   "status": "proved",
   "theorems": [
    "C05_decode_encode",
    "C05_encode_decode",
    "C05_codes_are_codes",
    "C05_blank_padded",
    "C05_not_a_code"
   ],
   "note": "Both directions of the bijection for all 34^5 codes, plus blank-padded short numbers."
  },
  {
   "property": "C06",
   "status": "partial",
   "theorems": [
    "C06_own_columns_only_refuted",
    "C06_own_columns_partial",
    "C06_decimal_exactly",
    "C06_other_codes"
   ],
   "note": "Refuted: a digit in the classification column changes the number. Proved for non-digit classification. The dependence on later columns is characterised exactly (decimal numbers run on over following digits; every other code stands alone)."
  },
  {
   "property": "C07",
   "status": "proved",
   "theorems": [
    "C07_parse_describes"
   ],
   "note": "For every pair of lines in the TLE column layout; doubles as exact rationals (rounding of the unit conversion not modelled)."
  },
  {
   "property": "C08",
   "status": "partial",
   "theorems": [
    "C08_return_codes",
    "C08_zero_means_checked_partial",
    "C08_zero_means_checked_refuted"
   ],
   "note": "Refuted for ephemeris type 'H' (check digit ignored); exact return codes proved for every input."
  },
  {
   "property": "C09",
   "status": "proved",
   "theorems": [
    "C09_epoch"
   ],
   "note": "For every pair of lines in the column layout, years 1957-2056."
  },
  {
   "property": "C10",
   "status": "partial",
   "theorems": [
    "C10_parse_safe_refuted",
    "C10_angle_overread_refuted",
    "C10_parse_safe_partial",
    "C10_numbers",
    "C10_fields_fit",
    "C10_angles",
    "C10_safe_exactly",
    "C10_state_vectors"
   ],
   "note": "Refuted by three witnesses with correct check digits (overflow, overread, abort); safety proved for lines in the column layout and for lines that are not TLE lines. For lines of any content the decoding is defined exactly when the lines do not form a TLE pair or their fields are defined (C10_safe_exactly), with atoi and get_angle characterised exactly."
  },
  {
   "property": "C11",
   "status": "proved",
   "theorems": [
    "C11_sci_value",
    "C11_sci_blank"
   ],
   "note": "For every sign, mantissa and exponent digit, exact rational value."
  },
  {
   "property": "C12",
   "status": "proved",
   "theorems": [
    "C12_base36_roundtrip",
    "C12_base36_range",
    "C12_state_vector"
   ],
   "note": "Round trip and range for every value below 36^8, and the six components in the parsed record."
  },
  {
   "property": "C13",
   "status": "partial",
   "theorems": [
    "C13_state_vector_propagator_partial",
    "C13_state_vector_propagator_refuted"
   ],
   "note": "Refuted: a state vector with 0<=z<=1 and vz>0 and a short 'period' is given to SGP4. Exact condition proved."
  },
  {
   "property": "C14",
   "status": "proved",
   "theorems": [
    "C14_date_to_mjd",
    "C14_midnight",
    "C14_calendar_complete"
   ],
   "note": "Double and float arithmetic through Flocq; every date of the years 0-9999 and every second. Calendar specified by the day-to-day rule."
  },
  {
   "property": "C15",
   "status": "partial",
   "theorems": [
    "C15_mjd_to_date",
    "C15_floor_partial",
    "C15_floor_refuted"
   ],
   "note": "Every double from year 1000 to 9999: valid date-time, nearest whole second, fields never 60 (table of minute boundaries checked by computation, lifted by monotonicity). The literal 'floor' reading is refuted (05:15:00 printed as 05:14:59) and its exact form proved."
  },
  {
   "property": "C16",
   "status": "partial",
   "theorems": [
    "C16_roundtrip",
    "C16_small_years_refuted"
   ],
   "note": "Every date-time of the years 1000-9999; for years below 1000 the text differs (blank padding), refuted."
  },
  {
   "property": "C17",
   "status": "partial",
   "theorems": [
    "C17_exactly",
    "C17_null_range",
    "C17_date_overruns_refuted",
    "C17_date_null_refuted",
    "C17_null_exactly"
   ],
   "note": "Refuted beyond year 9999 (buffer overrun) and out of range (null pointer); safe range proved."
  },
  {
   "property": "C18",
   "status": "proved",
   "theorems": [
    "C18_nest_encode",
    "C18_nest_decode",
    "C18_nest_encode64",
    "C18_nest_decode64"
   ],
   "note": "All power-of-two nside up to 2^13 (32-bit) and 2^29 (64-bit): interleaving spec, both directions, literal tables."
  },
  {
   "property": "C19",
   "status": "proved",
   "theorems": [
    "C19_ring_encode",
    "C19_ring_roundtrip",
    "C19_ring_decode",
    "C19_ring_roundtrip64",
    "C19_ring_decode64"
   ],
   "note": "Every nside (not only powers of two), with the double-precision isqrt proved correct; pixel numbers tied to the ring order specified by ring lengths."
  },
  {
   "property": "C20",
   "status": "proved",
   "theorems": [
    "C20_nest_ring_nest",
    "C20_ring_nest_ring",
    "C20_nest_ring_nest64",
    "C20_ring_nest_ring64",
    "C20_not_power_of_two"
   ],
   "note": "Both compositions, 32- and 64-bit, and -1 exactly for non-powers."
  },
  {
   "property": "C21",
   "status": "partial",
   "theorems": [
    "C21_npix_to_nside",
    "C21_npix_to_nside64",
    "C21_powers64",
    "C21_npix_truncated_refuted",
    "C21_npix_undefined_refuted",
    "C21_npix64_rounded_refuted"
   ],
   "note": "Answer proved for counts whose 12th part fits an int (32-bit) / up to 2^55 and all power-of-two nside (64-bit); refuted beyond (truncation, NaN to integer, rounding)."
  },
  {
   "property": "C22",
   "status": "partial",
   "theorems": [
    "C22_valid_pixel",
    "C22_pixel_out_of_range_refuted",
    "C22_valid_pixel64",
    "C22_public64",
    "C22_out_of_range64_refuted"
   ],
   "note": "IEEE double arithmetic through Flocq; proved for every finite phi and |z|<=1 except one corner, where pixel 830122 of 786432 is produced (refuted); the same for the 64-bit routines up to nside 2^29."
  },
  {
   "property": "C23",
   "status": "proved",
   "theorems": [
    "C23_ring",
    "C23_nest",
    "C23_centre_ring",
    "C23_centre_nest",
    "C23_near_ring",
    "C23_near_nest",
    "C23_exact_ring",
    "C23_exact_nest"
   ],
   "note": "Binary64: public functions, _z_phi functions, and every direction within 1e-10 (z) and 5e-7 rad (longitude) of a centre. The 64-bit variants of these four functions are not modelled."
  },
  {
   "property": "C24",
   "status": "proved",
   "theorems": [
    "C24_nest_agree",
    "C24_unnest_agree",
    "C24_ring_agree",
    "C24_unring_agree",
    "C24_permutations_agree"
   ],
   "note": "Nested and ring conversions and both permutations."
  },
  {
   "property": "C25",
   "status": "proved",
   "theorems": [
    "C25_great_circle",
    "C25_range",
    "C25_symmetric",
    "C25_zero"
   ],
   "note": "All inputs, real arithmetic (rounding not modelled)."
  },
  {
   "property": "C26",
   "status": "proved",
   "theorems": [
    "C26_polar_angle",
    "C26_origin"
   ],
   "note": "All inputs, real arithmetic."
  },
  {
   "property": "C27",
   "status": "proved",
   "theorems": [
    "C27_vector"
   ],
   "note": "All pairs of distinct positions, real arithmetic."
  },
  {
   "property": "C28",
   "status": "proved",
   "theorems": [
    "C28_shadow_iff",
    "C28_crossing_points"
   ],
   "note": "All positions with satellite and Sun distinct, real arithmetic; the sphere has the equatorial radius 6378.1366 km."
  },
  {
   "property": "C29",
   "status": "partial",
   "theorems": [
    "C29_place",
    "C29_pole_refuted"
   ],
   "note": "Real arithmetic, all positions off the axis beyond 0.9 Earth radii: at most five turns, error below 2 mm. Refuted over the poles, in binary64 for every <math.h> with the expected values at PI/2."
  },
  {
   "property": "C30",
   "status": "partial",
   "theorems": [
    "C30_refuted",
    "C30_shortcut",
    "C30_otherwise",
    "C30_polar",
    "C30_defined"
   ],
   "note": "Refuted where declination and latitude agree to 1e-6 (altitude 90 whatever the hour angle); exact elsewhere, within 1.1e-6 for polar observers. Real arithmetic."
  },
  {
   "property": "C31",
   "status": "partial",
   "theorems": [
    "C31_meridian_refuted",
    "C31_polar_refuted",
    "C31_otherwise",
    "C31_meridian",
    "C31_polar"
   ],
   "note": "Refuted on the meridian and at the poles, exact results there; right everywhere else. Real arithmetic."
  },
  {
   "property": "C32",
   "status": "partial",
   "theorems": [
    "C32_formula",
    "C32_range",
    "C32_accuracy",
    "C32_greenwich_negative_refuted",
    "C32_below_24_refuted"
   ],
   "note": "Real arithmetic: exact formula modulo 24 h. binary64: within 2e-9 h for dates from JD 0 to 8388608. Refuted: negative Greenwich time before 2000; local time 24.0."
  },
  {
   "property": "C33",
   "status": "partial",
   "theorems": [
    "C33_dec_refuted",
    "C33_ra_refuted",
    "C33_in_range",
    "C33_identity",
    "C33_first_order"
   ],
   "note": "Refuted near the poles; in range within a century of J2000 for |tan dec| <= 100. Real arithmetic."
  },
  {
   "property": "C34",
   "status": "partial",
   "theorems": [
    "C34_refuted",
    "C34_binary64_refuted",
    "C34_pole_refuted",
    "C34_congruent",
    "C34_short_iff",
    "C34_equator",
    "C34_never_closer"
   ],
   "note": "Refuted (also in binary64); exact condition for the short way round; the flat separation is never below the true one. Real arithmetic."
  },
  {
   "property": "C35",
   "status": "partial",
   "theorems": [
    "C35_refuted",
    "C35_otherwise",
    "C35_range"
   ],
   "note": "Refuted for westward motion across 0h; right otherwise. Real arithmetic."
  },
  {
   "property": "C36",
   "status": "partial",
   "theorems": [
    "C36_refuted",
    "C36_binary64_refuted",
    "C36_same_point",
    "C36_haversine"
   ],
   "note": "Refuted without -H (also in binary64); right with -H. Real arithmetic."
  },
  {
   "property": "C37",
   "status": "proved",
   "theorems": [
    "C37_orthonormal_frame",
    "C37_codes"
   ],
   "note": "Frame in real arithmetic, for 0 < a, e <> 1 and inclination not 180 degrees; codes and zero vectors in every arithmetic."
  },
  {
   "property": "C38",
   "status": "partial",
   "theorems": [
    "C38_codes_occur",
    "C38_within_earth_refuted",
    "C38_retrograde_equatorial"
   ],
   "note": "Codes 0, -1, -2, -4, -6 occur; refuted for -3, which no input returns in any arithmetic. -5 belongs to SDP4 and is not claimed here."
  },
  {
   "property": "C39",
   "status": "proved",
   "theorems": [
    "C39_node_rotates",
    "C39_turns"
   ],
   "note": "Near-Earth propagator from the published elements on, real arithmetic, all times."
  },
  {
   "property": "C40",
   "status": "proved",
   "theorems": [
    "C40_solved",
    "C40_near_the_solution"
   ],
   "note": "The 1e-12 test in every arithmetic (so in binary64); uniqueness and distance of the solution in real arithmetic. The 'last correction' alternative of the statement is not needed."
  },
  {
   "property": "C41",
   "status": "partial",
   "theorems": [
    "C41_cache",
    "C41_cache_rounded",
    "C41_first_request_refuted"
   ],
   "note": "Real arithmetic and binary64 (any <math.h>). Refuted for a first request of JD 0."
  },
  {
   "property": "C42",
   "status": "partial",
   "theorems": [
    "C42_steps",
    "C42_steps_rounded",
    "C42_large_refuted",
    "C42_nan_refuted"
   ],
   "note": "Real arithmetic: all times. binary64: up to 2^53 days; refuted for 2^54 and NaN."
  },
  {
   "property": "C43",
   "status": "proved",
   "theorems": [
    "C43_round_trip",
    "C43_round_trip_rounded"
   ],
   "note": "Real arithmetic to 1e-38; binary64 to 6 x 2^-53 of sqrt(y^2+z^2), for lengths between 2^-900 and 2^900."
  },
  {
   "property": "C44",
   "status": "partial",
   "theorems": [
    "C44_ideal",
    "C44_centralize_exact",
    "C44_FMod2p_rounded",
    "C44_half_open_refuted"
   ],
   "note": "Real arithmetic in full; binary64: centralize_angle exact, FMod2p correctly rounded; half-open interval refuted in binary64."
  },
  {
   "property": "C45",
   "status": "partial",
   "theorems": [
    "C45_steps",
    "C45_steps_rounded",
    "C45_large_refuted",
    "C45_infinite_refuted"
   ],
   "note": "Real arithmetic: all histories. binary64: times up to 2^39 minutes, end within 2^-42 minutes and exactly for 1500 minutes and more. Refuted for 2^64 and infinity. sxpx_set_dpsec_integration_step, which nothing calls, is left out."
  },
  {
   "property": "C46",
   "status": "partial",
   "theorems": [
    "C46_failed_propagation_listed_refuted"
   ],
   "note": "Refuted: the return codes of the propagator are ignored, so a satellite with an error code is listed."
  },
  {
   "property": "C47",
   "status": "proved",
   "theorems": [
    "C47_each_record_once",
    "C47_file_opened"
   ],
   "note": "Whole program model after option parsing, byte by byte; every file of 2- or 3-line records and comments (lines up to 98 bytes), every list of files, every numerical outcome. Lines starting with '2' outside a pair are not covered by the file grammar."
  },
  {
   "property": "C48",
   "status": "proved",
   "theorems": [
    "C48_own_name"
   ],
   "note": "Same model and file grammar; names of at most 21 characters (longer ones are cut by the 23-byte copy)."
  },
  {
   "property": "C49",
   "status": "partial",
   "theorems": [
    "C49_no_duplicates",
    "C49_false_duplicate_refuted"
   ],
   "note": "Proved when no catalogue code contains a comma; refuted otherwise (substring search in the comma-separated list)."
  },
  {
   "property": "C50",
   "status": "partial",
   "theorems": [
    "C50_buffer_bound",
    "C50_overrun",
    "C50_within_buffer_refuted"
   ],
   "note": "Refuted for every catalogue of 11667 or more satellites: the buffer is overrun; bound proved for every run without undefined behaviour."
  },
  {
   "property": "C51",
   "status": "proved",
   "theorems": [
    "C51_limit"
   ],
   "note": "Every run; completeness below the limit is in C47."
  },
  {
   "property": "C52",
   "status": "partial",
   "theorems": [
    "C52_single_number",
    "C52_single_designator",
    "C52_by_name",
    "C52_other_satellite_refuted"
   ],
   "note": "Soundness of -s, -i and -S alone; refuted in combination with -V."
  },
  {
   "property": "C53",
   "status": "partial",
   "theorems": [
    "C53_plain_numbers",
    "C53_request_reads_code",
    "C53_alpha_request_refuted",
    "C53_alpha_zero_refuted"
   ],
   "note": "Refuted for codes with a letter; for plain numbers the comparison is exact. That the run then lists the satellite is not proved as one theorem."
  },
  {
   "property": "C54",
   "status": "partial",
   "theorems": [
    "C54_one_letter",
    "C54_nine_characters",
    "C54_piece_not_found_refuted",
    "C54_wrong_piece_refuted"
   ],
   "note": "Exact text for every year 1957-2056, number and piece; refuted for pieces of more than one letter."
  },
  {
   "property": "C55",
   "status": "partial",
   "theorems": [
    "C55_counts",
    "C55_sunlit_at_most_found",
    "C55_total",
    "C55_total_differs_refuted"
   ],
   "note": "Every run; refuted for n_sats of a single request."
  },
  {
   "property": "C56",
   "status": "partial",
   "theorems": [
    "C56_filters",
    "C56_no_pixel",
    "C56_nan_altitude_refuted"
   ],
   "note": "Both directions for finite values; a satellite that passes and has no pixel ends the run. Refuted for NaN altitude."
  },
  {
   "property": "C57",
   "status": "partial",
   "theorems": [
    "C57_json",
    "C57_grammar_decided",
    "C57_speed_not_finite",
    "C57_zero_step_refuted"
   ],
   "note": "RFC 8259 grammar as an inductive specification, acceptor proved to decide it; every run, any number of satellites. Refuted for '-t 0' (the speed prints as inf or nan)."
  },
  {
   "property": "C58",
   "status": "partial",
   "theorems": [
    "C58_option_errors_json",
    "C58_no_arguments_refuted",
    "C58_json_on_error",
    "C58_decode_error_refuted",
    "C58_missing_file_refuted",
    "C58_beyond_pole_refuted"
   ],
   "note": "Refuted after a satellite was listed and when the pixel routine ends the run; exact condition proved for every error exit of the loop. Option errors: always JSON or the usage text; refuted without arguments."
  },
  {
   "property": "C59",
   "status": "partial",
   "theorems": [
    "C59_echo",
    "C59_echo_refuted"
   ],
   "note": "Proved when a list file is the first argument and the run did not end in the pixel routine; refuted when it comes after an option."
  },
  {
   "property": "C60",
   "status": "partial",
   "theorems": [
    "C60_termination_refuted",
    "C60_glued_switch_diverges",
    "C60_terminates_otherwise",
    "C60_visibility_refuted",
    "C60_visibility_glued_switch",
    "C60_visibility_otherwise"
   ],
   "note": "Refuted ('-GH' is read for ever; sat_visibility: '-NT'); exact: diverges for every switch with text attached, at most argc turns otherwise. Both programs."
  },
  {
   "property": "C61",
   "status": "partial",
   "theorems": [
    "C61_dash_refuted",
    "C61_designator_refuted",
    "C61_name_refuted",
    "C61_date_refuted",
    "C61_max_refuted",
    "C61_values_refuted",
    "C61_memory_safe"
   ],
   "note": "Refuted by nine witnesses; safety proved for every argument vector without these defects (options and values may still be wrong). Reading of real numbers is an arbitrary function."
  },
  {
   "property": "C62",
   "status": "partial",
   "theorems": [
    "C62_options",
    "C62_ranges",
    "C62_date_precedence_refuted",
    "C62_directory_precedence_refuted",
    "C62_longitude_refuted",
    "C62_message_refuted",
    "C62_visibility_options"
   ],
   "note": "Every list of options in any order, joined or apart, both programs; ranges for every argument vector of sat_skymap. Refuted: two precedences promised by the usage text, the longitude range, the name in the error message."
  },
  {
   "property": "C63",
   "status": "partial",
   "theorems": [
    "C63_list_file",
    "C63_crlf_refuted"
   ],
   "note": "Rows of at most 62 bytes; refuted for CR LF."
  },
  {
   "property": "C64",
   "status": "partial",
   "theorems": [
    "C64_trimmed",
    "C64_total",
    "C64_blank_refuted",
    "C64_empty_refuted"
   ],
   "note": "Every text that is not all white; refuted for white and empty texts."
  },
  {
   "property": "C65",
   "status": "partial",
   "theorems": [
    "C65_name_from_old_memory_refuted",
    "C65_name_overread_refuted"
   ],
   "note": "Refuted: two runs differing only in uninitialised memory print different names."
  },
  {
   "property": "C66",
   "status": "partial",
   "theorems": [
    "C66_terminates_refuted",
    "C66_no_progress",
    "C66_terminates",
    "C66_terminates_eventually",
    "C66_number_of_samples"
   ],
   "note": "Refuted for steps below one second (-t0.5), in general for every step <= 0; otherwise ends for every accepted command line, with the number of samples bounded by range/step + 1 up to clock rounding."
  },
  {
   "property": "C67",
   "status": "proved",
   "theorems": [
    "C67_start"
   ],
   "note": "For all runs: the start is the first visible sample; its date is that of its MJD and its MJD is the sample time within 2^(E-50) days for ranges within 2^E days. Numerical library arbitrary."
  },
  {
   "property": "C68",
   "status": "proved",
   "theorems": [
    "C68_highest"
   ],
   "note": "For all runs with zenith distances below 181 degrees; the separation is the sample's when the propagator does not depend on the call number."
  },
  {
   "property": "C69",
   "status": "partial",
   "theorems": [
    "C69_nonnegative_refuted",
    "C69_consistent_refuted",
    "C69_duration"
   ],
   "note": "Refuted (negative; three different durations for the same visible samples); exact formula with error bound for each way the interval can end."
  },
  {
   "property": "C70",
   "status": "partial",
   "theorems": [
    "C70_fraction_refuted",
    "C70_fraction_drops_end",
    "C70_plain_dates_partial"
   ],
   "note": "Refuted for a fraction in the first date, in general after every list of options; partial: dates of 19 characters without fraction."
  },
  {
   "property": "C71",
   "status": "partial",
   "theorems": [
    "C71_max_refuted",
    "C71_start_and_end"
   ],
   "note": "Refuted for mid and max (MJD of the end); proved for start and end."
  },
  {
   "property": "C72",
   "status": "partial",
   "theorems": [
    "C72_empty_list_refuted",
    "C72_every_empty_list"
   ],
   "note": "Refuted, in general for every list that names no file (fclose(NULL))."
  },
  {
   "property": "C73",
   "status": "proved",
   "theorems": [
    "C73_defined",
    "C73_tables",
    "C73_theory"
   ],
   "note": "Definedness: every arithmetic. Values: real arithmetic; the decimal arguments of the code differ from the published ones by the stated bound. The 106 rows of the spec were written from memory of the published table, not copied from the code."
  },
  {
   "property": "C74",
   "status": "partial",
   "theorems": [
    "C74_cache",
    "C74_theory",
    "C74_rounded",
    "C74_first_call_refuted",
    "C74_not_a_number"
   ],
   "note": "Every arithmetic; binary64 with any <math.h>, finite dates. Refuted for a first call for JD 0."
  },
  {
   "property": "C75",
   "status": "proved",
   "theorems": [
    "C75_observer"
   ],
   "note": "All observers short of the poles, real arithmetic."
  },
  {
   "property": "C76",
   "status": "proved",
   "theorems": [
    "C76_sun_longitude"
   ],
   "note": "Real arithmetic."
  },
  {
   "property": "C77",
   "status": "proved",
   "theorems": [
    "C77_sun_direction"
   ],
   "note": "All dates, real arithmetic; the accuracy of the Almanac's formula is not a claim."
  },
  {
   "property": "C78",
   "status": "partial",
   "theorems": [
    "C78_requested_satellite",
    "C78_alpha5_refuted"
   ],
   "note": "All files, lists and command lines, for numbers below 100000 and designators of the usual form; refuted for numbers above 99999."
  },
  {
   "property": "C79",
   "status": "proved",
   "theorems": [
    "C79_elements_at_date",
    "C79_position_and_velocity",
    "C79_gravity_constant"
   ],
   "note": "Real arithmetic; the hypotheses exclude only divisions by zero and a negative axis. Rounding is not included."
  },
  {
   "property": "C80",
   "status": "proved",
   "theorems": [
    "C80_by_period",
    "C80_state_vector"
   ],
   "note": "Real arithmetic."
  },
  {
   "property": "C81",
   "status": "partial",
   "theorems": [
    "C81_kept",
    "C81_kept_rounded",
    "C81_written_first_refuted",
    "C81_sentinel_refuted"
   ],
   "note": "Real arithmetic and binary64. Refuted for NaN and for 1e20 minutes."
  },
  {
   "property": "C82",
   "status": "proved",
   "theorems": [
    "C82_acceleration",
    "C82_step"
   ],
   "note": "Real arithmetic with the code's decimal constants for the phases."
  },
  {
   "property": "C83",
   "status": "partial",
   "theorems": [
    "C83_inclined",
    "C83_low_inclination",
    "C83_whole_turns_refuted"
   ],
   "note": "Real arithmetic. The statement on whole turns is refuted for low inclinations."
  },
  {
   "property": "C84",
   "status": "proved",
   "theorems": [
    "C84_half_day",
    "C84_rounded_functions",
    "C84_one_day",
    "C84_otherwise_none"
   ],
   "note": "Real arithmetic. Two inclination functions of degree 5 have rounded coefficients; the difference is bounded. The eccentricity functions E... are those of Spacetrack Report No. 3 (fits), not Hansen coefficients."
  },
  {
   "property": "C85",
   "status": "proved",
   "theorems": [
    "C85_sidereal"
   ],
   "note": "Real arithmetic."
  },
  {
   "property": "C86",
   "status": "proved",
   "theorems": [
    "C86_start",
    "C86_integration"
   ],
   "note": "Real arithmetic, epoch not JD 0 (see C41)."
  },
  {
   "property": "C87",
   "status": "partial",
   "theorems": [
    "C87_positions",
    "C87_distance_refuted"
   ],
   "note": "Real arithmetic. Longitude within 0.00005 degree, distance within 1140 km; refuted for the distance."
  },
  {
   "property": "C88",
   "status": "proved",
   "theorems": [
    "C88_without_resonance",
    "C88_in_resonance"
   ],
   "note": "Real arithmetic, times up to 1e20 - 30 minutes. The lunar and solar secular rates and periodic coefficients are those of the model (Deep_dpinit, perts_at); an independent derivation of them is not given."
  },
  {
   "property": "C89",
   "status": "partial",
   "theorems": [
    "C89_gmst",
    "C89_gmst_refuted"
   ],
   "note": "Real arithmetic with the two float constants as they are. Bounded; equality refuted."
  },
  {
   "property": "C90",
   "status": "partial",
   "theorems": [
    "C90_mean",
    "C90_apparent",
    "C90_range_refuted"
   ],
   "note": "Real arithmetic, longitudes within one turn (350 degrees for the apparent one, dates within 100 centuries). Refuted for two turns."
  },
  {
   "property": "C91",
   "status": "proved",
   "theorems": [
    "C91_unit_vector",
    "C91_hour_angle"
   ],
   "note": "Real arithmetic."
  },
  {
   "property": "C92",
   "status": "partial",
   "theorems": [
    "C92_meridian_refuted",
    "C92_polar_refuted",
    "C92_otherwise",
    "C92_meridian",
    "C92_polar"
   ],
   "note": "Real arithmetic. Refuted on the meridian and for polar observers; exact elsewhere."
  },
  {
   "property": "C93",
   "status": "proved",
   "theorems": [
    "C93_kepler",
    "C93_code"
   ],
   "note": "Real arithmetic."
  },
  {
   "property": "C94",
   "status": "proved",
   "theorems": [
    "C94_date",
    "C94_defined",
    "C94_observer",
    "C94_target",
    "C94_target_horizon",
    "C94_sun",
    "C94_sun_horizon",
    "C94_below_sun"
   ],
   "note": "Real arithmetic, observers not at a pole; altitude and azimuth off the special cases of C30 and C31."
  },
  {
   "property": "C95",
   "status": "proved",
   "theorems": [
    "C95_place",
    "C95_near_positions",
    "C95_separation",
    "C95_flat_separation",
    "C95_separation_on_earth",
    "C95_speed",
    "C95_position_angle",
    "C95_below"
   ],
   "note": "Real arithmetic. The positions of deep-space satellites are those of the model's SDP4 (see C88)."
  },
  {
   "property": "C96",
   "status": "partial",
   "theorems": [
    "C96_refuted"
   ],
   "note": "Refuted with a concrete orbit, real arithmetic."
  },
  {
   "property": "C97",
   "status": "proved",
   "theorems": [
    "C97_each_alone"
   ],
   "note": "Real arithmetic; dates and epochs after JD 0 (see C41)."
  },
  {
   "property": "C98",
   "status": "partial",
   "theorems": [
    "C98_refuted"
   ],
   "note": "Refuted with a concrete orbit, real arithmetic."
  },
  {
   "property": "C99",
   "status": "proved",
   "theorems": [
    "C99_defined",
    "C99_near_position",
    "C99_times",
    "C99_place"
   ],
   "note": "Real arithmetic, observers not at a pole. The positions of deep-space satellites are those of the model's SDP4 (see C88)."
  },
  {
   "property": "C100",
   "status": "proved",
   "theorems": [
    "C100_sunlit",
    "C100_sun_defined"
   ],
   "note": "Real arithmetic, the shadow a cylinder as in C28."
  },
  {
   "property": "C101",
   "status": "proved",
   "theorems": [
    "C101_defined",
    "C101_horizon",
    "C101_j2000",
    "C101_below",
    "C101_sun"
   ],
   "note": "Real arithmetic; altitude and azimuth off the special cases of C30 and C31; precession to first order."
  },
  {
   "property": "C102",
   "status": "partial",
   "theorems": [
    "C102_speed_refuted",
    "C102_from_one_place"
   ],
   "note": "Refuted with a concrete orbit, real arithmetic; right with the observer held fixed."
  },
  {
   "property": "C103",
   "status": "partial",
   "theorems": [
    "C103_event_data",
    "C103_motion_refuted",
    "C103_end_sun_refuted",
    "C103_end_place_refuted"
   ],
   "note": "For every numerical library, doubles. Refuted in three ways; the theorem says for every run which instant each number belongs to."
  },
  {
   "property": "C104",
   "status": "proved",
   "theorems": [
    "C104_inclined",
    "C104_low_inclination"
   ],
   "note": "Real arithmetic; the tide to the second order (quadrupole), as in the theory of Hujsak; ellipses that are neither circles nor equatorial."
  },
  {
   "property": "C105",
   "status": "proved",
   "theorems": [
    "C105_periodic"
   ],
   "note": "Real arithmetic; the tide to the second order, the changing distance of the body to the first order of its eccentricity in the part that depends on no direction, as in the theory of Hujsak."
  },
  {
   "property": "C106",
   "status": "proved",
   "theorems": [
    "C106_decay",
    "C106_solutions",
    "C106_weak_drag",
    "C106_density"
   ],
   "note": "Real arithmetic. The coefficients of the equations of decay are those of the report (series in the eccentricity)."
  },
  {
   "property": "C107",
   "status": "proved",
   "theorems": [
    "C107_place",
    "C107_kepler"
   ],
   "note": "Real arithmetic."
  },
  {
   "property": "C108",
   "status": "partial",
   "theorems": [
    "C108_circular",
    "C108_place_refuted"
   ],
   "note": "Binary64 with an arbitrary C library. Refuted; the general theorem says for which element sets."
  },
  {
   "property": "C109",
   "status": "partial",
   "theorems": [
    "C109_loader",
    "C109_reload",
    "C109_stale_call",
    "C109_stale_init",
    "C109_unload_refuted",
    "C109_numbered"
   ],
   "note": "LoadLibrary, FreeLibrary and GetProcAddress are an oracle; what the library's functions do is not modelled, only that they are called. Refuted for programs that unload; two theorems say when it holds."
  },
  {
   "property": "C110",
   "status": "proved",
   "theorems": [
    "C110_axis",
    "C110_place",
    "C110_kepler",
    "C110_anomaly"
   ],
   "note": "Real arithmetic. The semi-major axis at the epoch is that of the program, within 1e-16 of the report's (two constants are rounded in the source)."
  },
  {
   "property": "C111",
   "status": "partial",
   "theorems": [
    "C111_negative",
    "C111_codes",
    "C111_never_parabolic",
    "C111_perigee_refuted",
    "C111_parabolic_refuted"
   ],
   "note": "Refuted for -1, -3 and -4. That -1 never occurs is proved in binary64 for any C library, the witnesses are in real arithmetic."
  },
  {
   "property": "C112",
   "status": "proved",
   "theorems": [
    "C112_terms",
    "C112_without_resonance",
    "C112_in_resonance",
    "C112_steps"
   ],
   "note": "Real arithmetic. The lunar and solar secular rates and periodic coefficients are those of Deep_dpinit; see C104 and C105 for them."
  },
  {
   "property": "C113",
   "status": "partial",
   "theorems": [
    "C113_eccentricity",
    "C113_report_refuted",
    "C113_written_first_refuted",
    "C113_ends_refuted"
   ],
   "note": "Binary64 with an arbitrary C library (the first witness with a fixed one). Refuted in three ways; one theorem says for which orbits SGP8 gives NaN."
  },
  {
   "property": "C114",
   "status": "partial",
   "theorems": [
    "C114_json",
    "C114_json_on_error",
    "C114_option_errors_json",
    "C114_altitude_refuted",
    "C114_blank_name_refuted",
    "C114_list_crlf_refuted",
    "C114_no_arguments_refuted"
   ],
   "note": "The numbers are required to be finite where the library computes them; name and designator are required to be clean where announced. Refuted for an altitude exit after the start, a blank name line, a CR LF list, no arguments."
  },
  {
   "property": "C115",
   "status": "partial",
   "theorems": [
    "C115_echo",
    "C115_echo_refuted"
   ],
   "note": "Refuted for a list file after the options."
  },
  {
   "property": "C116",
   "status": "proved",
   "theorems": [
    "C116_ring",
    "C116_nest",
    "C116_centre_ring",
    "C116_centre_nest",
    "C116_near_ring",
    "C116_near_nest"
   ],
   "note": "The sine of the colatitude may be left out (-5) only where the height is within 0.991; with turns of the longitude up to 100."
  },
  {
   "property": "C117",
   "status": "partial",
   "theorems": [
    "C117_ring",
    "C117_nest",
    "C117_ring64",
    "C117_nest64",
    "C117_near_ring",
    "C117_near_nest",
    "C117_near_ring64",
    "C117_near_nest64",
    "C117_angles",
    "C117_length_refuted"
   ],
   "note": "Refuted for very short and very long vectors; within lengths 2^-300 to 2^300 the round trips hold. ang2vec and vec2ang at least 1e-9 from the poles."
  },
  {
   "property": "C118",
   "status": "partial",
   "theorems": [
    "C118_valid_ring",
    "C118_valid_ring64",
    "C118_public",
    "C118_two",
    "C118_negative_refuted",
    "C118_beyond_refuted",
    "C118_far_refuted"
   ],
   "note": "Refuted for nside 2 (out of range) and nside 4 (wrong place) at z = 2/3 exactly; in range for every other nside and every direction."
  },
  {
   "property": "C119",
   "status": "partial",
   "theorems": [
    "C119_close",
    "C119_exactly",
    "C119_null",
    "C119_whole_second_refuted",
    "C119_overruns_refuted"
   ],
   "note": "Refuted as to whole seconds and as to the buffer outside the years -999 to 9999; exact range proved."
  },
  {
   "property": "C120",
   "status": "proved",
   "theorems": [
    "C120_mjdnow"
   ],
   "note": ""
  },
  {
   "property": "C121",
   "status": "proved",
   "theorems": [
    "C121_document",
    "C121_number_unique",
    "C121_shows_json",
    "C121_unambiguous"
   ],
   "note": "Strings without escapes; conditions as in C57 (no quotes, backslashes or control characters, finite numbers)."
  },
  {
   "property": "C122",
   "status": "partial",
   "theorems": [
    "C122_document",
    "C122_sidereal_refuted"
   ],
   "note": "Proved for everything but region.ra, region.lmst and gmst of input_params, which are printed as 0 before they are computed; conditions as in C114."
  },
  {
   "property": "C123",
   "status": "partial",
   "theorems": [
    "C123_default",
    "C123_series",
    "C123_order_refuted",
    "C123_order",
    "C123_ends",
    "C123_negative_step_refuted",
    "C123_zero_step_refuted",
    "C123_negative_step",
    "C123_dundee",
    "C123_epoch_setting_refuted"
   ],
   "note": "Refuted for orders above 20, for steps that are not positive and for the ignored setting; the rest proved in real arithmetic (the bounds of the array and the settings at the start in any)."
  },
  {
   "property": "C124",
   "status": "partial",
   "theorems": [
    "C124_distance",
    "C124_right_ascension",
    "C124_below_whole_turn_refuted"
   ],
   "note": "Binary64, any libm; differences 0 or between 2^-400 and 2^400. Refuted only for the upper end: the right ascension can be TWOPI itself."
  },
  {
   "property": "C125",
   "status": "partial",
   "theorems": [
    "C125_altitude_domain_refuted",
    "C125_away_from_nadir"
   ],
   "note": "Refuted, for every library with correctly rounded sine and cosine (one exists); proved beyond 0.01 seconds of arc from the nadir."
  },
  {
   "property": "C126",
   "status": "partial",
   "theorems": [
    "C126_range",
    "C126_below_whole_turn_refuted"
   ],
   "note": "Binary64, any atan bounded by a quarter turn. Refuted only for the upper end."
  },
  {
   "property": "C127",
   "status": "proved",
   "theorems": [
    "C127_symmetric64",
    "C127_self64"
   ],
   "note": "Binary64, all doubles for the exchange; any odd sine. Equal directions: |theta| <= 1000."
  }
 ]
}