{"id": "C01", "title": "TLE checksum accepts exactly the lines whose check digit is right", "statement": "tle_checksum on a line that starts with '1 ' or '2 ', has 68 printable characters, a decimal digit in column 69 and nothing above a space in column 70 returns 0 exactly when that digit equals (sum of the digits plus the number of minus signs in the first 68 columns) modulo 10; lines with another start, a non-printable character, or text after column 69 get -1, -2, -3 respectively.", "quantifier": "for every byte string placed in the line buffer", "why_tests_cant": "there are about 95^68 candidate lines; a test can only sample them", "anchors": ["src/get_el.c: tle_checksum"]}
{"id": "C02", "title": "Any single mistyped digit in a TLE line is detected", "statement": "If a 69-column line has checksum result 0, then changing exactly one of the digits in columns 2..69 to any other digit makes the checksum result non-zero.", "quantifier": "for every accepted line, every column, every replacement digit", "why_tests_cant": "the claim ranges over all lines and all corruptions", "anchors": ["src/get_el.c: tle_checksum"]}
{"id": "C03", "title": "A line whose check column is not a digit is never accepted", "statement": "tle_checksum returns 0 only if column 69 of the line holds a decimal digit.", "quantifier": "for every byte string", "why_tests_cant": "the offending bytes are precisely those nobody writes a test for (e.g. ':' or CR)", "anchors": ["src/get_el.c: tle_checksum"]}
{"id": "C04", "title": "The checksum routine stays inside the text it is given", "statement": "tle_checksum reads only the bytes of the line up to and including the terminating NUL, and never more than 70 bytes.", "quantifier": "for every NUL-terminated line of any length", "why_tests_cant": "an over-read of one byte is invisible to an ordinary test", "anchors": ["src/get_el.c: tle_checksum"]}
{"id": "C05", "title": "Five-character catalogue codes (plain, Alpha-5, Super-5) are decoded one-to-one", "statement": "The catalogue number decoder maps the 34^5 five-character codes over the 34 symbols 0-9, A-H, J-N, P-Z onto 0..45435423 without collisions: codes of five digits decode to their decimal value, Alpha-5 codes to 100000..339999, and every number has exactly one code.", "quantifier": "for every code and every catalogue number", "why_tests_cant": "45 million codes times their neighbours; injectivity is a statement about all pairs", "anchors": ["src/get_el.c: get_norad_number", "src/get_el.c: base34_to_int"]}
{"id": "C06", "title": "A catalogue number depends only on its own five columns", "statement": "The catalogue number returned for a TLE depends only on columns 3-7 of line 1, not on the classification column or later columns.", "quantifier": "for every pair of lines that agree on columns 3-7", "why_tests_cant": "needs all contents of the other columns", "anchors": ["src/get_el.c: get_norad_number", "src/get_el.c: parse_elements"]}
{"id": "C07", "title": "Parsing inverts formatting for ordinary TLEs", "statement": "Writing any set of mean elements (angles, eccentricity, mean motion, derivatives, drag term, epoch, designator, element number, revolution) in the TLE column format with correct check digits and parsing the two lines gives return code 0 and exactly the written elements in the documented units.", "quantifier": "for every combination of field values that fits the columns", "why_tests_cant": "the product of the field domains is astronomically large", "anchors": ["src/get_el.c: parse_elements", "src/get_el.c: get_angle", "src/get_el.c: get_eight_places", "src/get_el.c: sci"]}
{"id": "C08", "title": "A zero return code means both lines passed their checksum", "statement": "parse_elements returns 0 only when the checksum result of both lines is 0; 1, 2 and 3 identify which of them failed.", "quantifier": "for every pair of lines and every ephemeris type", "why_tests_cant": "must hold for all lines, including the rarely used high-precision ephemeris type", "anchors": ["src/get_el.c: parse_elements"]}
{"id": "C09", "title": "The TLE epoch is the Gregorian date printed in columns 19-32", "statement": "The parsed epoch equals the Julian Date of the printed year (57-99 meaning 1957-1999, 00-56 meaning 2000-2056) and day of year, fraction included.", "quantifier": "for every two-digit year and every day value", "why_tests_cant": "century windows and leap rules break on years that tests do not visit", "anchors": ["src/get_el.c: parse_elements", "src/get_el.c: get_eight_places"]}
{"id": "C10", "title": "Parsing any text file is memory-safe and terminates", "statement": "parse_elements never reads outside the line buffers, never overflows a signed integer and always terminates, whatever bytes the two lines contain.", "quantifier": "for every pair of 100-byte line buffers", "why_tests_cant": "undefined behaviour and hangs hide in inputs that pass the checksum but break the column layout", "anchors": ["src/get_el.c: get_angle", "src/get_el.c: sci", "src/get_el.c: parse_elements"]}
{"id": "C11", "title": "The eight-character scientific notation fields are decoded to their exact decimal value", "statement": "A field 'sdddddSe' is decoded to s 0.ddddd x 10^(S e); blank sign means plus; the all-blank or all-zero field is zero.", "quantifier": "for every sign, mantissa and exponent digit", "why_tests_cant": "4*10^5*... field values", "anchors": ["src/get_el.c: sci"]}
{"id": "C12", "title": "High-precision state vectors survive the base-36 encoding", "statement": "Every coordinate whose scaled value is an integer of magnitude below 36^8 (sign plus eight base-36 characters) is decoded to exactly the value that was encoded, with the documented scale factor per component and time unit.", "quantifier": "for every integer in (-36^8, 36^8)", "why_tests_cant": "2.8*10^12 codes per coordinate", "anchors": ["src/get_el.c: mutant_dehex", "src/get_el.c: get_high_value"]}
{"id": "C13", "title": "High-precision elements are always propagated by the integrator", "statement": "Whenever the parsed ephemeris type is the state-vector type, the propagator chosen by the program is the one that integrates the state vector.", "quantifier": "for every state vector", "why_tests_cant": "the wrong branch is only taken for a thin set of state vectors", "anchors": ["src/basics.c: select_ephemeris", "src/sat_skymap.c: main", "src/sdp4.c: SDP4"]}
{"id": "C14", "title": "Date to MJD follows the Gregorian calendar", "statement": "For every valid Gregorian date in a four-digit year date2mjd_nf returns the number of days since 1858-11-17 plus the time of day rounded to 1e-5 day; consecutive calendar days differ by exactly one.", "quantifier": "for every calendar date and time of day", "why_tests_cant": "leap-year and century mistakes show up on single days out of millions", "anchors": ["src/date2mjd_nf.c: date2mjd_nf", "src/date2mjd_nf.c: date2mjd"]}
{"id": "C15", "title": "MJD to date yields the calendar date and in-range clock fields", "statement": "mjd2date yields the Gregorian date of the given MJD (advanced by half a second) and hour 0-23, minute 0-59, second 0-59 whose combination is the floor of the day fraction.", "quantifier": "for every representable MJD in the supported range", "why_tests_cant": "floating point boundary values (xx:59:60) are measure-zero for random tests", "anchors": ["src/mjd2date.c: mjd2date"]}
{"id": "C16", "title": "Date -> MJD -> date is the identity to the second", "statement": "Converting any valid date-time with whole seconds to MJD and back prints the same date-time.", "quantifier": "for every date and every second of the day", "why_tests_cant": "86400 x 3.6 million combinations", "anchors": ["src/date2mjd_nf.c: date2mjd_nf", "src/mjd2date.c: mjd2date"]}
{"id": "C17", "title": "Printing a date never overruns the date buffer and never yields a null string", "statement": "For every MJD the program accepts on the command line the formatted date fits in its buffer and is not a null pointer.", "quantifier": "for every MJD value a user can pass", "why_tests_cant": "needs extreme values (years beyond 9999, out-of-range dates)", "anchors": ["src/mjd2date.c: mjd2date", "src/sat_skymap.c: main (-j)"]}
{"id": "C18", "title": "Nested pixel numbering is a bijection", "statement": "For every power-of-two nside the conversion (x, y, face) -> nested pixel index is a bijection between nside x nside x 12 and 0..12*nside^2-1 and the reverse conversion is its inverse.", "quantifier": "for every valid nside and every pixel", "why_tests_cant": "up to 8*10^8 (32-bit) or 10^18 (64-bit) pixels per nside", "anchors": ["HealpixC/chealpix.c: xyf2nest", "HealpixC/chealpix.c: nest2xyf"]}
{"id": "C19", "title": "Ring pixel numbering is a bijection", "statement": "For every nside the conversion (x, y, face) -> ring pixel index is a bijection onto 0..12*nside^2-1 and the reverse conversion is its inverse.", "quantifier": "for every nside and every pixel", "why_tests_cant": "same", "anchors": ["HealpixC/chealpix.c: xyf2ring", "HealpixC/chealpix.c: ring2xyf", "HealpixC/chealpix.c: special_div", "HealpixC/chealpix.c: isqrt"]}
{"id": "C20", "title": "nest2ring and ring2nest are inverse permutations", "statement": "nest2ring and ring2nest are mutually inverse permutations of 0..12*nside^2-1 for every power-of-two nside, and report -1 when nside is not a power of two.", "quantifier": "for every valid nside and every pixel", "why_tests_cant": "all pixels of all resolutions", "anchors": ["HealpixC/chealpix.c: nest2ring", "HealpixC/chealpix.c: ring2nest"]}
{"id": "C21", "title": "nside and npix determine one another", "statement": "npix2nside(nside2npix(n)) = n, and npix2nside returns -1 exactly for numbers that are not 12*n^2.", "quantifier": "for every n and every pixel count", "why_tests_cant": "square root rounding errors appear only for particular large values", "anchors": ["HealpixC/chealpix.c: nside2npix", "HealpixC/chealpix.c: npix2nside"]}
{"id": "C22", "title": "A direction always gets a valid pixel number", "statement": "The nested pixel number computed for a direction (z, phi) lies in 0..12*nside^2-1.", "quantifier": "for every double z in [-1,1] and every finite phi", "why_tests_cant": "failures happen at isolated floating point values", "anchors": ["HealpixC/chealpix.c: ang2pix_nest_z_phi", "HealpixC/chealpix.c: ang2pix_nest", "HealpixC/chealpix.c: ang2pix_nest_z_phi64", "HealpixC/chealpix.c: ang2pix_nest64"]}
{"id": "C23", "title": "Pixel centres map back to their pixel", "statement": "Taking the centre direction of a pixel and looking up the pixel of that direction gives the same pixel, in both orderings, with double arithmetic and any accurate cos and acos; so does every direction close to the centre, whatever whole turns its longitude carries.", "quantifier": "for every nside and pixel of the 32-bit functions (12 nside^2 < 2^31), every C library with cos and acos good to 1e-12", "why_tests_cant": "all pixels of all resolutions", "anchors": ["HealpixC/chealpix.c: pix2ang_ring_z_phi", "HealpixC/chealpix.c: pix2ang_nest_z_phi", "HealpixC/chealpix.c: ang2pix_ring_z_phi", "HealpixC/chealpix.c: ang2pix_nest_z_phi", "HealpixC/chealpix.c: pix2ang_ring", "HealpixC/chealpix.c: pix2ang_nest", "HealpixC/chealpix.c: ang2pix_ring", "HealpixC/chealpix.c: ang2pix_nest"]}
{"id": "C24", "title": "32-bit and 64-bit HEALPix routines agree", "statement": "Where the 32-bit routines do not overflow, the 64-bit versions return the same pixel numbers.", "quantifier": "for every nside and pixel in the 32-bit range", "why_tests_cant": "all pixels", "anchors": ["HealpixC/chealpix.c: xyf2nest64", "HealpixC/chealpix.c: xyf2ring64", "HealpixC/chealpix.c: nest2ring64", "HealpixC/chealpix.c: nside2npix64"]}
{"id": "C25", "title": "Angular separation is the great-circle distance", "statement": "Computed in the real numbers: skysep_h equals the angle between the two unit vectors, in degrees, lies in [0,180], is symmetric, and is 0 exactly when both directions coincide.", "quantifier": "for every pair of positions", "why_tests_cant": "continuum of inputs", "anchors": ["src/skysep_h.c: skysep_h"]}
{"id": "C26", "title": "The circular arctangent is the polar angle", "statement": "Computed in the real numbers: atan_circ(x,y) lies in [0, 2*pi) and is the polar angle of (x,y); it is 0 for the origin.", "quantifier": "for every x, y", "why_tests_cant": "continuum; axis cases are easy to get wrong", "anchors": ["src/lpsun_radec.c: atan_circ"]}
{"id": "C27", "title": "Topocentric RA, Dec and distance describe the observer-satellite vector", "statement": "Computed in the real numbers: The RA, Dec and distance computed for a satellite satisfy distance*(cos dec cos ra, cos dec sin ra, sin dec) = satellite - observer with 0 <= RA < 2*pi, -pi/2 <= Dec <= pi/2, distance > 0.", "quantifier": "for every pair of distinct positions", "why_tests_cant": "continuum", "anchors": ["src/observe.c: get_satellite_ra_dec_delta"]}
{"id": "C28", "title": "A satellite is reported in shadow exactly when the Earth sphere blocks the Sun", "statement": "Computed in the real numbers: The sunlit test reports 'in shadow' exactly when the half-line from the satellite towards the Sun meets the sphere of equatorial Earth radius.", "quantifier": "for every satellite and Sun position", "why_tests_cant": "continuum; grazing and behind-the-satellite cases", "anchors": ["src/sat_skymap.c: intersect_satsun_sphere", "src/sat_visibility.c: intersect_satsun_sphere"]}
{"id": "C29", "title": "Sub-satellite coordinates are in range and geometrically right", "statement": "Computed in the real numbers: The reported sub-satellite longitude lies in [-180,180], latitude in [-90,90]; latitude, longitude and altitude reproduce the satellite position on the Earth ellipsoid to the tolerance of the iteration, and the iteration terminates.", "quantifier": "for every satellite position outside the Earth", "why_tests_cant": "continuum; convergence for every position", "anchors": ["src/sat_skymap.c: sat_geoLocation"]}
{"id": "C30", "title": "Altitude is the elevation above the horizon", "statement": "Computed in the real numbers: dechalat2alt returns as altitude the elevation of the direction with the given declination and hour angle for an observer at the given latitude.", "quantifier": "for every declination, hour angle, latitude", "why_tests_cant": "special-case branches trigger only for particular combinations", "anchors": ["src/dechalat2alt.c: dechalat2alt"]}
{"id": "C31", "title": "Azimuth is the compass bearing", "statement": "Computed in the real numbers: dechalat2alt returns an azimuth in [0,360] that is the bearing (N=0, E=90) of the direction, also on the meridian and for polar observers.", "quantifier": "for every declination, hour angle, latitude", "why_tests_cant": "same", "anchors": ["src/dechalat2alt.c: dechalat2alt"]}
{"id": "C32", "title": "Sidereal times are hours in [0,24)", "statement": "lmst_hr yields a local and a Greenwich sidereal time in [0,24) that differ by longitude/15 modulo 24.", "quantifier": "for every date and longitude", "why_tests_cant": "dates before 2000 and integral boundaries", "anchors": ["src/lmst_hr.c: lmst_hr"]}
{"id": "C33", "title": "Conversion to J2000 keeps coordinates in range", "statement": "Computed in the real numbers: epoch_of_date_to_j2000 maps RA in [0,2*pi), Dec in [-pi/2,pi/2] to coordinates in the same ranges and is the identity at J2000.", "quantifier": "for every date and position", "why_tests_cant": "fails only close to the poles", "anchors": ["src/observe.c: epoch_of_date_to_j2000"]}
{"id": "C34", "title": "The separation used to select satellites measures RA difference the short way round", "statement": "The default (non-haversine) field-of-view test uses an RA difference in [-pi,pi] congruent to the true difference, so that a satellite inside the search radius is found on either side of RA=0.", "quantifier": "for every target and satellite RA", "why_tests_cant": "only fields within a radius of RA 0h expose it", "anchors": ["src/sat_skymap.c: main"]}
{"id": "C35", "title": "The position angle is the direction of motion", "statement": "The reported position angle lies in [0,360) and is the direction from the first to the second position, also when the satellite crosses RA=0.", "quantifier": "for every pair of positions", "why_tests_cant": "crossings of RA=0 are rare", "anchors": ["src/sat_skymap.c: main", "src/sat_visibility.c: get_sat_PA_and_speed"]}
{"id": "C36", "title": "Searching around a geographic point compares like units", "statement": "With -E the separation from the requested longitude/latitude is computed from two angles in the same unit and filters sub-satellite points by distance.", "quantifier": "for every target and sub-satellite point", "why_tests_cant": "continuum", "anchors": ["src/sat_skymap.c: main (-E)"]}
{"id": "C37", "title": "The propagated radius vector is built from an orthonormal frame", "statement": "When the propagator reports no error, the satellite position has length equal to the computed orbital radius in km and the position and velocity directions are orthonormal; with an error the position is the zero vector and only documented codes are returned.", "quantifier": "for every element set and time", "why_tests_cant": "continuum", "anchors": ["src/common.c: sxpx_posn_vel"]}
{"id": "C38", "title": "Every documented propagation warning can occur", "statement": "Each of the documented return codes of the propagator, including 'orbit within Earth', is returned for some orbit.", "quantifier": "exists an orbit for each code", "why_tests_cant": "unreachability cannot be tested", "anchors": ["src/common.c: sxpx_posn_vel", "src/norad.h"]}
{"id": "C39", "title": "Rotating the node rotates the orbit", "statement": "Adding an angle to the right ascension of the node rotates the near-Earth propagated position and velocity about the polar axis by that angle at every time; adding 2*pi to any angular element changes nothing.", "quantifier": "for every element set, angle and time", "why_tests_cant": "continuum", "anchors": ["src/sgp4.c: SGP4", "src/sgp4.c: SGP4_init", "src/common.c: sxpx_posn_vel"]}
{"id": "C40", "title": "Kepler's equation is solved or an error is returned", "statement": "If the propagator does not report a convergence failure, the eccentric longitude it used satisfies Kepler's equation to 1e-12 or the last correction was below tolerance; the iteration always ends.", "quantifier": "for every element set and time", "why_tests_cant": "continuum", "anchors": ["src/common.c: sxpx_posn_vel"]}
{"id": "C41", "title": "The lunar/solar position cache is transparent", "statement": "Whatever sequence of dates is requested, the cached lunar and solar positions equal the positions computed afresh for the requested date.", "quantifier": "for every history of calls", "why_tests_cant": "history-dependent", "anchors": ["src/sdp4.c: cached_lunar_solar_position"]}
{"id": "C42", "title": "The state-vector integrator stops at the requested time", "statement": "For every propagation time the numerical integrator performs finitely many steps of at most one day whose signed sum is exactly the requested time.", "quantifier": "for every time span, forward or backward", "why_tests_cant": "termination for all spans, including tiny and huge ones", "anchors": ["src/sdp4.c: high_ephemeris"]}
{"id": "C43", "title": "Ecliptic and equatorial conversions invert one another", "statement": "Converting a vector from equatorial to ecliptic coordinates and back changes it by less than a part in 10^15.", "quantifier": "for every vector", "why_tests_cant": "continuum", "anchors": ["src/sdp4.c: equatorial_to_ecliptic", "src/sdp4.c: ecliptic_to_equatorial"]}
{"id": "C44", "title": "Angle normalisation returns the congruent angle in its range", "statement": "FMod2p returns the congruent angle in [0,2*pi), centralize_angle the congruent one in [-pi,pi].", "quantifier": "for every angle", "why_tests_cant": "continuum, boundary values", "anchors": ["src/basics.c: FMod2p", "src/common.c: centralize_angle"]}
{"id": "C45", "title": "The deep-space resonance integrator terminates at the requested time", "statement": "For any sequence of propagation requests the resonance integration loop terminates, takes steps no longer than the configured step, and finishes exactly at the requested time.", "quantifier": "for every history of requested times", "why_tests_cant": "history-dependent state", "anchors": ["src/deep.c: Deep_dpsec"]}
{"id": "C46", "title": "A failed propagation is never reported as a satellite position", "statement": "If the propagator signals an error for a satellite, that satellite is not reported.", "quantifier": "for every TLE file", "why_tests_cant": "needs element sets that make the propagator fail", "anchors": ["src/sat_skymap.c: main", "src/sdp4.c: SDP4"]}
{"id": "C47", "title": "Every element set of a well-formed file is examined exactly once, in order", "statement": "For any file made of 2-line or 3-line records (and comment lines) each valid element set is examined exactly once, in file order, no matter which filters reject which satellites.", "quantifier": "for every file and every combination of accepted and rejected satellites", "why_tests_cant": "unbounded sequences of records and filter outcomes", "anchors": ["src/sat_skymap.c: main (record loop)", "src/sat_visibility.c: main (record loop)"]}
{"id": "C48", "title": "Each satellite is reported under its own name", "statement": "The name printed with a satellite is the (trimmed) name line that precedes its two element lines.", "quantifier": "for every 3-line file", "why_tests_cant": "depends on the preceding history of lines", "anchors": ["src/sat_skymap.c: main", "src/sat_skymap.c: trimend"]}
{"id": "C49", "title": "No satellite is reported twice", "statement": "Across all input files each catalogue code is processed at most once, the first occurrence wins, and an unseen code is never skipped as duplicate.", "quantifier": "for every sequence of element sets", "why_tests_cant": "all sequences; substring matching could alias", "anchors": ["src/sat_skymap.c: main (sbuff)"]}
{"id": "C50", "title": "The duplicate list never overruns its buffer", "statement": "However many distinct satellites are read, the list of catalogue codes stays within its allocated memory.", "quantifier": "for every number of satellites", "why_tests_cant": "the overrun is 3 bytes at the 11667th satellite", "anchors": ["src/sat_skymap.c: main (sbuff)"]}
{"id": "C51", "title": "No more than the requested number of satellites is returned", "statement": "With MaxSats >= 1 the number of reported satellites never exceeds MaxSats; if fewer are reported the whole input was examined.", "quantifier": "for every input and every MaxSats", "why_tests_cant": "all inputs", "anchors": ["src/sat_skymap.c: main (-n)"]}
{"id": "C52", "title": "A single-satellite request reports that satellite or none", "statement": "With -s, -i or -S selecting one satellite, every reported satellite satisfies the request.", "quantifier": "for every file, request and filter combination", "why_tests_cant": "needs the requested satellite to be present but filtered out", "anchors": ["src/sat_skymap.c: main (-s, -i, -S)"]}
{"id": "C53", "title": "Every catalogue number can be requested", "statement": "A satellite whose printed catalogue number is N is found by -s N, whatever the encoding of its code.", "quantifier": "for every catalogue code", "why_tests_cant": "Alpha-5 codes", "anchors": ["src/sat_skymap.c: main (-s)"]}
{"id": "C54", "title": "Every international designator can be requested and is reported in full", "statement": "For each launch year, number and piece (one to three letters) the reported designator is yyyy-nnnPPP and requesting it selects that object only.", "quantifier": "for every designator", "why_tests_cant": "multi-letter pieces", "anchors": ["src/sat_skymap.c: main (-i)", "src/sat_visibility.c: main (-i)"]}
{"id": "C55", "title": "The satellite counters are consistent", "statement": "The final counts satisfy: sunlit <= found, found = number of listed satellites, n_sats agrees with found.", "quantifier": "for every input and option combination", "why_tests_cant": "all histories", "anchors": ["src/sat_skymap.c: main"]}
{"id": "C56", "title": "Filters mean what they say", "statement": "A listed satellite satisfies every active filter: within radius at one of the two epochs, sunlit when -V, altitude within limits when -a; and an examined unlisted satellite fails one, unless it has no pixel and ends the run.", "quantifier": "for every satellite and option combination", "why_tests_cant": "all combinations", "anchors": ["src/sat_skymap.c: main"]}
{"id": "C57", "title": "Normal completion prints one well-formed JSON document", "statement": "When the run completes normally, the bytes printed form one syntactically valid JSON object, for any number of satellites, provided names and arguments contain no quote, backslash or control characters.", "quantifier": "for every number of satellites and option combination", "why_tests_cant": "unbounded outputs", "anchors": ["src/sat_skymap.c: open_json", "src/sat_skymap.c: add_params_json", "src/sat_skymap.c: main", "src/sat_skymap.c: close_stat_json"]}
{"id": "C58", "title": "Error exits print well-formed JSON too", "statement": "When the program stops with an error the bytes printed still form one valid JSON object.", "quantifier": "for every failure point", "why_tests_cant": "every crash point", "anchors": ["src/sat_skymap.c: close_stat_json", "src/sat_skymap.c: main"]}
{"id": "C59", "title": "The echoed command line is the command line", "statement": "The run_command string in the output equals the program arguments separated by blanks.", "quantifier": "for every argument list", "why_tests_cant": "option order", "anchors": ["src/sat_skymap.c: close_stat_json"]}
{"id": "C60", "title": "Command line parsing terminates", "statement": "For every argument vector option parsing terminates.", "quantifier": "for every argument vector", "why_tests_cant": "termination over all inputs", "anchors": ["src/sat_skymap.c: main (option loop)", "src/sat_visibility.c: main (option loop)"]}
{"id": "C61", "title": "Command line parsing is memory-safe", "statement": "For every argument vector option parsing reads no memory outside the arguments and dereferences no null pointer; copied option values fit their buffers.", "quantifier": "for every argument vector", "why_tests_cant": "all argument vectors", "anchors": ["src/sat_skymap.c: main (option loop)"]}
{"id": "C62", "title": "Options are applied as documented", "statement": "For well-formed command lines the parameter values after parsing are those of the documented meaning: last occurrence wins, ranges are ordered, -l required.", "quantifier": "for every list of options", "why_tests_cant": "unbounded lists of options", "anchors": ["src/sat_skymap.c: main (option loop)", "src/sat_skymap.c: Usage"]}
{"id": "C63", "title": "A list file names exactly its non-comment lines", "statement": "With @list the files opened are exactly the non-empty, non-'#' lines of the list file in order.", "quantifier": "for every list file", "why_tests_cant": "line terminator and length corner cases", "anchors": ["src/sat_skymap.c: main (list)", "src/sat_visibility.c: main (list)"]}
{"id": "C64", "title": "Trimming removes trailing white space and nothing else", "statement": "trimend returns the text without trailing white space and changes nothing else.", "quantifier": "for every string", "why_tests_cant": "all strings; blank strings", "anchors": ["src/sat_skymap.c: trimend"]}
{"id": "C65", "title": "Satellite names never contain indeterminate bytes", "statement": "The name buffer handed to the printing code is a terminated string whose bytes all come from the input file.", "quantifier": "for every file", "why_tests_cant": "depends on uninitialised memory", "anchors": ["src/sat_skymap.c: main (sat_name)"]}
{"id": "C66", "title": "The visibility search terminates", "statement": "The time loop terminates for every accepted step and range after at most range/step + 1 steps.", "quantifier": "for every range and step", "why_tests_cant": "zero, fractional and negative steps", "anchors": ["src/sat_visibility.c: main (time loop)"]}
{"id": "C67", "title": "The visibility start is the first sampled instant that qualifies", "statement": "The reported start is the first sample inside the range at which the satellite is within the radius and sunlit; nothing is reported when there is none.", "quantifier": "for every range, step and orbit", "why_tests_cant": "all histories of samples", "anchors": ["src/sat_visibility.c: main (time loop)"]}
{"id": "C68", "title": "The reported best point is the sample closest to the zenith in the visible interval", "statement": "The reported maximum is the visible sample with the least zenith distance between start and end.", "quantifier": "for every history of samples", "why_tests_cant": "all histories", "anchors": ["src/sat_visibility.c: main (time loop)"]}
{"id": "C69", "title": "The visibility duration is never negative and equals end minus start", "statement": "Duration in seconds is >= 0 and equals (last visible sample - first visible sample) up to one step, consistently for all ways the interval can end.", "quantifier": "for every history of samples", "why_tests_cant": "end-of-range corner case", "anchors": ["src/sat_visibility.c: main (time loop)"]}
{"id": "C70", "title": "A date range with fractional seconds is honoured", "statement": "-d start,end with the documented optional fraction of seconds sets both ends of the range.", "quantifier": "for every pair of dates in the documented format", "why_tests_cant": "format corner cases", "anchors": ["src/sat_visibility.c: main (-d)"]}
{"id": "C71", "title": "MJD and date of each reported event agree", "statement": "In each reported event the printed MJD and the printed date denote the same instant.", "quantifier": "for every event", "why_tests_cant": "stale-variable bugs depend on history", "anchors": ["src/sat_visibility.c: main", "src/sat_visibility.c: print_sat_info"]}
{"id": "C72", "title": "An empty list of TLE files is handled", "statement": "With a list file that names no TLE file the visibility program ends with a well-formed answer.", "quantifier": "for every list file", "why_tests_cant": "null stream corner case", "anchors": ["src/sat_visibility.c: main"]}
{"id": "C73", "title": "The nutation series is evaluated with the documented arguments", "statement": "The multiplication-table scheme used for the nutation series writes every table entry before reading it, stays within its tables, and entry i holds the cosine and sine of the i-th integer combination of the five fundamental arguments.", "quantifier": "for every date", "why_tests_cant": "106-entry tables with indirect indices", "anchors": ["src/earthtilt.c: calcnutation"]}
{"id": "C74", "title": "The nutation cache never returns data for another date", "statement": "earthtilt returns values computed for a date at most 0.01 day away from the requested date, whatever calls came before.", "quantifier": "for every history of calls", "why_tests_cant": "history dependent", "anchors": ["src/earthtilt.c: earthtilt"]}
{"id": "C75", "title": "The observer is on the Earth ellipsoid", "statement": "Computed in the real numbers: the observer's cartesian coordinates are those of the point with the given geodetic latitude, height above the ellipsoid (semi-axes 6378.140 and 6356.755 km) and right ascension longitude + sidereal time.", "quantifier": "for every latitude short of the poles, longitude, height and sidereal time", "why_tests_cant": "continuum of inputs", "anchors": ["src/observe.c: earth_lat_alt_to_parallax, observer_cartesian_coords"]}
{"id": "C76", "title": "The reported longitude of the Sun is where the Sun is overhead", "statement": "Computed in the real numbers: the longitude of the Sun lies in (-180,180] degrees and equals right ascension minus Greenwich sidereal time modulo a turn.", "quantifier": "for every right ascension in [0,2*pi) and sidereal time in [0,24]", "why_tests_cant": "the wrap happens at particular times only", "anchors": ["src/sat_skymap.c: main", "src/sat_visibility.c: get_sun_data"]}
{"id": "C77", "title": "The Sun's coordinates point along the ecliptic", "statement": "Computed in the real numbers: the right ascension lies in [0,2*pi), the declination in [-pi/2,pi/2], and they point where the Almanac's ecliptic longitude and obliquity of that date do.", "quantifier": "for every date", "why_tests_cant": "continuum; quadrants", "anchors": ["src/lpsun_radec.c: lpsun_radec"]}
{"id": "C78", "title": "sat_visibility computes for the satellite asked for", "statement": "Every sample is computed with the element set of the first record, in the order of the files and of their lines, that has the catalogue number given with -s or whose designator begins with the text given with -i; the name printed is the line before that record; 'not found' (exit code 1) is said only when no record meets the request.", "quantifier": "for all command lines, all element files and lists of files of any length, all numerical functions", "why_tests_cant": "depends on which record of which file comes first and on the buffers left by all lines before it", "anchors": ["src/sat_visibility.c:717-808"]}
{"id": "C79", "title": "The near-Earth propagator implements the published model", "statement": "Computed in the real numbers, SGP4_init and SGP4 give the mean elements at the date and the position and velocity of the SGP4 equations of Spacetrack Report No. 3, with (q0-s)^4 accurate to 1e-30, the eccentricity at least 1e-6 and the eccentric longitude solved to 1e-12; the gravity constant agrees with WGS-72.", "quantifier": "for every element set with 0<=e<1, positive mean motion and positive recovered semi-major axis (off the drag singularities), every time", "why_tests_cant": "continuum; a wrong coefficient of a small term is within the noise of test data", "anchors": ["src/sgp4.c: SGP4_init", "src/sgp4.c: SGP4", "src/common.c: sxpx_common_init", "src/common.c: sxpx_posn_vel"]}
{"id": "C80", "title": "The propagator is chosen by the orbital period", "statement": "An element set whose recovered period is 225 minutes or more is propagated by the deep-space model, a shorter one by the near-Earth model, unless the ephemeris type fixes the choice (2, 4: near-Earth; 3, 5 and h: deep space); a mean motion that is not positive or an eccentricity outside [0,1] is reported as invalid (-1).", "quantifier": "for every element set", "why_tests_cant": "continuum, boundary values", "anchors": ["src/basics.c: select_ephemeris"]}
{"id": "C81", "title": "The lunar and solar periodic terms are never stale", "statement": "SDP4 applies the lunar and solar periodic terms of the requested time or of an earlier request less than 30 minutes away, never terms that were not computed.", "quantifier": "for every history of requested times", "why_tests_cant": "history-dependent state", "anchors": ["src/deep.c: Deep_dpper"]}
{"id": "C82", "title": "The resonance acceleration is that of the published terms", "statement": "The acceleration of the mean motion and its derivative, as computed by compute_dpsec_derivs, are the sum of the resonance terms at their documented phase angles and its derivative, up to 8e-16 of the sum of the amplitudes, and each integration step is the second-order Taylor step with them.", "quantifier": "for every resonance, amplitudes, longitude, perigee and time", "why_tests_cant": "continuum; a wrong phase constant in one of ten terms is invisible in samples", "anchors": ["src/deep.c: compute_dpsec_derivs", "src/deep.c: Deep_dpsec"]}
{"id": "C83", "title": "The periodic terms are applied to the elements as published", "statement": "For inclinations of 0.2 rad or more the lunar and solar terms are added to the elements directly, otherwise by Lyddane's modification; adding whole turns to the node changes the other elements by whole turns only.", "quantifier": "for every set of terms and elements", "why_tests_cant": "continuum; two regimes", "anchors": ["src/deep.c: Deep_dpper"]}
{"id": "C84", "title": "Resonances are recognised and their coefficients are those of the theory", "statement": "An element set gets the half-day resonance exactly when n0'' is in [0.00826, 0.00924] and e >= 0.5, the one-day resonance exactly when n0'' is within 20 % of one revolution a day, otherwise none; the coefficients are 3 or 6 n^2 (or the tesseral amplitude) times Kaula's inclination functions times the eccentricity functions.", "quantifier": "for every element set with 0<=e<1, positive mean motion and positive axis", "why_tests_cant": "continuum; polynomials with twenty coefficients", "anchors": ["src/deep.c: Deep_dpinit"]}
{"id": "C85", "title": "The deep-space propagator uses the Greenwich sidereal time", "statement": "ThetaG is the Greenwich mean sidereal time of 1982 in radians, reduced to [0, 2 pi).", "quantifier": "for every date from JD 0 on", "why_tests_cant": "continuum", "anchors": ["src/deep.c: ThetaG"]}
{"id": "C86", "title": "State vectors are propagated with the equations of motion", "statement": "For an element set of type H the position and velocity are obtained from the given state vector by Runge-Kutta steps of the fourth order of at most one day of Newton's equations with the Earth, the Moon and the Sun, adding up to the requested time.", "quantifier": "for every state vector, epoch, time, history of calls", "why_tests_cant": "continuum, history-dependent cache", "anchors": ["src/sdp4.c: high_ephemeris", "src/sdp4.c: calc_accel", "src/sdp4.c: calc_state_vector_deriv"]}
{"id": "C87", "title": "The positions of the Moon and the Sun are those of the source", "statement": "The positions used are those of the leading terms of Meeus' Astronomical Algorithms.", "quantifier": "for every date", "why_tests_cant": "continuum", "anchors": ["src/sdp4.c: lunar_solar_position"]}
{"id": "C88", "title": "The deep-space propagator implements the published model", "statement": "Computed in the real numbers, SDP4 takes its position and velocity from the mean elements of Spacetrack Report No. 3 moved by the secular rates (Earth, Moon, Sun), the resonance integration, drag, and the lunar and solar periodic terms of a time less than 30 minutes away.", "quantifier": "for every element set off the singularities, every history of calls, every time", "why_tests_cant": "continuum, history-dependent state", "anchors": ["src/sdp4.c: SDP4_init", "src/sdp4.c: SDP4", "src/deep.c"]}
{"id": "C89", "title": "The sidereal time of ut2gmst follows its formula", "statement": "ut2gmst returns hours in [0,24) that are Williams' 1994 sidereal time of 0h UT plus the elapsed time times the length of the day, modulo 24 h.", "quantifier": "for every date", "why_tests_cant": "continuum; the two constants with a wrong suffix give an error that grows slowly with the date", "anchors": ["src/zenith_site_ra.c: ut2gmst"]}
{"id": "C90", "title": "The right ascension of the zenith is the local sidereal time", "statement": "zenith_site_ra returns degrees in [0,360) congruent to 15 x sidereal time + longitude; zenith_site_ra_last the same with the equation of the equinoxes of a date at most 0.01 day away.", "quantifier": "for every date, longitude, history of calls", "why_tests_cant": "continuum, history-dependent cache", "anchors": ["src/zenith_site_ra.c: zenith_site_ra", "src/zenith_site_ra.c: zenith_site_ra_last", "src/zenith_site_ra.c: ut2last", "src/zenith_site_ra.c: ut2gast"]}
{"id": "C91", "title": "Directions are converted without loss", "statement": "sph2v returns the unit vector of the direction; slaDh2e returns the hour angle and declination of the direction that has the given azimuth and elevation at the given latitude.", "quantifier": "for every pair of angles and every latitude", "why_tests_cant": "continuum; quadrants and poles", "anchors": ["src/zenith_site_ra.c: sph2v", "src/zenith_site_ra.c: slaDh2e"]}
{"id": "C92", "title": "The parallactic angle is the direction of the zenith", "statement": "The parallactic angle returned by dechalat2alt is, in (-180, 180] degrees, the direction of the zenith seen from the given direction, from north over east.", "quantifier": "for every declination, hour angle and latitude", "why_tests_cant": "continuum; special cases on the meridian and at the poles", "anchors": ["src/dechalat2alt.c: dechalat2alt"]}
{"id": "C93", "title": "Kepler's equation is always solved for moderate eccentricities", "statement": "The iteration for Kepler's equation ends by its own criterion within the ten turns allowed, so the convergence error is never returned, when the eccentricity with the long-period terms is at most 1/4.", "quantifier": "for every longitude, eccentricity vector of length at most 1/4", "why_tests_cant": "continuum", "anchors": ["src/common.c: sxpx_posn_vel"]}
{"id": "C94", "title": "Observer, target and Sun are those of the date", "statement": "Before the first satellite sat_skymap has the place of the observer at both instants, the sidereal times, the target (the zenith unless a region is given) and the Sun with altitude, azimuth, the longitude below it and its distance from the target.", "quantifier": "for every place, date and request", "why_tests_cant": "continuum; composition of ten functions with different units", "anchors": ["src/sat_skymap.c: main", "src/observe.c: ThetaG"]}
{"id": "C95", "title": "The numbers reported for a satellite describe its position", "statement": "Right ascension, declination, distance, separation, position angle, speed and the point below, as reported, are those of the propagated position seen from the observer, referred to J2000.", "quantifier": "for every element set, place, date, request and history of calls", "why_tests_cant": "continuum; composition", "anchors": ["src/sat_skymap.c: main", "src/observe.c: get_satellite_ra_dec_delta", "src/skysep_h.c: skysep_h"]}
{"id": "C96", "title": "A satellite reported in shadow is in shadow", "statement": "The sunlight flag printed with the position of a satellite is that of the position.", "quantifier": "for every element set and date", "why_tests_cant": "only seconds around entry into and exit from the shadow show it", "anchors": ["src/sat_skymap.c: main", "src/sat_skymap.c: intersect_satsun_sphere"]}
{"id": "C97", "title": "What is reported of a satellite does not depend on the others", "statement": "A run over a list of element sets reports of each what a run with it alone reports, in the same order.", "quantifier": "for every list of element sets of any length", "why_tests_cant": "static variables are shared between satellites; order of the list", "anchors": ["src/sat_skymap.c: main", "src/sdp4.c: cached_lunar_solar_position"]}
{"id": "C98", "title": "A satellite in the zenith has separation 0 from the zenith", "statement": "Without a region the separation of a satellite that is exactly overhead is 0.", "quantifier": "for every date and element set", "why_tests_cant": "needs a satellite exactly overhead", "anchors": ["src/sat_skymap.c: main", "src/observe.c: epoch_of_date_to_j2000"]}
{"id": "C99", "title": "Every sample of sat_visibility describes the satellite at its instant", "statement": "Right ascension, declination, distance and zenith distance of a sample are those of the propagated position at the instant seen from the observer at the instant.", "quantifier": "for every element set, place, date and history of calls", "why_tests_cant": "continuum; composition of functions with different units", "anchors": ["src/sat_visibility.c: main", "src/observe.c: get_satellite_ra_dec_delta"]}
{"id": "C100", "title": "A sample counts as sunlit exactly when the satellite is sunlit", "statement": "The test for sunlight at a sample is true if and only if the Earth does not hide the Sun of the instant from the satellite at the instant.", "quantifier": "for every element set, place and date", "why_tests_cant": "continuum; the terminator is a surface", "anchors": ["src/sat_visibility.c: main", "src/sat_visibility.c: intersect_satsun_sphere", "src/sat_visibility.c: get_sun_data"]}
{"id": "C101", "title": "The data printed for an event are those of its instant", "statement": "Altitude, azimuth, J2000 coordinates, the point below and the Sun, computed for an event from the sample, are those of the instant; the altitude is 90 degrees less the zenith distance.", "quantifier": "for every element set, place and date", "why_tests_cant": "continuum; composition", "anchors": ["src/sat_visibility.c: main", "src/sat_visibility.c: get_sun_data", "src/sat_visibility.c: sat_geoLocation"]}
{"id": "C102", "title": "Speed and position angle are those seen by the observer", "statement": "The speed is the angle between the directions in which the observer sees the satellite now and one time step later, per time; the position angle that of the second direction.", "quantifier": "for every element set, place, date and step", "why_tests_cant": "continuum; a reference that includes the motion of the observer is needed", "anchors": ["src/sat_visibility.c: get_sat_PA_and_speed"]}
{"id": "C103", "title": "Every reported event carries the data of its own instant", "statement": "Start, end, middle and maximum are each printed with place, Sun, point below, altitude, azimuth, position angle and speed of their own instant.", "quantifier": "for every numerical library, element set, range and step; passes of any length and all three ways to end", "why_tests_cant": "shared global state through a loop of any length; special endings", "anchors": ["src/sat_visibility.c: main", "src/sat_visibility.c: get_sun_data", "src/sat_visibility.c: get_sat_PA_and_speed"]}
{"id": "C104", "title": "The secular lunar and solar drifts are those of the averaged tide", "statement": "The secular rates of eccentricity, inclination, perigee, node and mean anomaly of a deep-space satellite are those that the equations of Lagrange give for the tide of Sun and Moon averaged over the orbits; below 3 degrees of inclination the node is held and the perigee gets the drift of both.", "quantifier": "for every element set that is an ellipse, every epoch within 270 years of 1900", "why_tests_cant": "continuum; the reference is an integral of a potential and its derivatives", "anchors": ["src/deep.c: Deep_dpinit"]}
{"id": "C105", "title": "The periodic lunar and solar terms are the oscillations about the secular drifts", "statement": "At every time the periodic terms are functions of the true anomaly of Sun and Moon with mean 0 and the derivative which the equations of Lagrange give for the tide at that anomaly less the secular drift.", "quantifier": "for every element set that is an ellipse, every epoch within 270 years of 1900, every time since epoch", "why_tests_cant": "continuum; the reference is the solution of differential equations", "anchors": ["src/deep.c: Deep_dpper", "src/deep.c: Deep_dpinit"]}
{"id": "C106", "title": "The decay of the orbit in SGP8 follows its equations of decay", "statement": "Where drag is notable the mean motion of SGP8 agrees with the solution of the equations of decay (power-law density, Spacetrack Report No. 3) up to the third power of the time since epoch and the eccentricity up to the second, and the mean anomaly gathers the integral of the gain in mean motion; where drag is weak both are linear in time, with the rate the equations give and an unmoved perigee height.", "quantifier": "for every element set with 0 < e < 1 and perigee above the floor of the atmosphere, every time; for the notable branch generic derivatives (none of seven combinations zero)", "why_tests_cant": "the reference is the solution of a system of differential equations; continuum of element sets", "anchors": ["src/sgp8.c: SGP8_init", "src/sgp8.c: SGP8"]}
{"id": "C107", "title": "Position and velocity of SGP8", "statement": "Position and velocity are those of the report for the mean motion and eccentricity of C106 and the secular angles of Brouwer, at the solution of the equation of Kepler reached by at most ten steps of Newton; for eccentricities up to 1/2 the equation is always solved to 1e-6.", "quantifier": "for every element set as in C106 and every time where the mean motion is positive and the eccentricity in [0,1), inclination not 180 degrees", "why_tests_cant": "continuum; no independent implementation", "anchors": ["src/sgp8.c: SGP8", "src/sgp8.c: SGP8_init"]}
{"id": "C108", "title": "SGP8 reports when it has no place for a satellite", "statement": "A return value of 0 means that position and velocity are numbers.", "quantifier": "for every element set and time; refuted: every element set with eccentricity 0 in notable drag, with any C library", "why_tests_cant": "one branch of one propagator, reached only by element sets with eccentricity exactly 0", "anchors": ["src/sgp8.c: SGP8_init", "src/sgp8.c: SGP8"]}
{"id": "C109", "title": "The loader calls the right function of the library that is in memory", "statement": "SXPX_init, SXPX and get_sat_code_lib_version call the function of ordinal n+1, n+6 and 20 of the library loaded last, exactly once, and return -2 when there is no library and -1 when it lacks the function; the library is asked for only once until it is unloaded.", "quantifier": "for every sequence of operations and every behaviour of the operating system: without unloading; with unloading if the library always loads and no propagator was called before the last unloading. Refuted in general: a stale pointer is called after an unloading", "why_tests_cant": "sequences of any length over hidden static state; the failing sequences jump into unmapped memory", "anchors": ["src/dynamic.c: SXPX_init", "src/dynamic.c: SXPX", "src/dynamic.c: load_sat_code_lib", "src/dynamic.c: get_sat_code_lib_version"]}
{"id": "C110", "title": "Position and velocity of SGP", "statement": "The elements at the date, the long-period terms, the solution of the equation of Kepler, the short-period terms and so position and velocity are those of the report (section 2, the SGP model); for eccentricities up to 1/2 Kepler's equation is solved to 1e-12.", "quantifier": "for every element set with 0 <= e < 1, positive mean motion and semi-major axis, inclination not 180 degrees, every time at which the mean motion is positive and the osculating eccentricity below 1", "why_tests_cant": "continuum; no independent implementation", "anchors": ["src/sgp.c: SGP_init", "src/sgp.c: SGP"]}
{"id": "C111", "title": "SGP reports orbits that are not", "statement": "A negative mean motion gives error -2 and a zero place; an orbit nearly parabolic gives error -1, one inside the Earth the warning -3 and one with its perigee inside the Earth the warning -4.", "quantifier": "for every element set and time; the first is proved, the others refuted: -1 and -3 are never returned, -4 only for a semi-major axis below one Earth radius", "why_tests_cant": "the codes that never occur look like orbits that never occur", "anchors": ["src/sgp.c: SGP"]}
{"id": "C112", "title": "Position and velocity of SDP8", "statement": "Whatever calls came before, the elements at the date (decay, lunar and solar drifts, resonance), the lunar and solar oscillations taken within half an hour of the date, and from them position and velocity are those of the report for the SDP8 model; the lunar and solar terms are the ones SDP4 uses; the resonance is integrated in the least number of half-day steps.", "quantifier": "for every element set with 0 < e < 1, perigee above 78 km, inclination not 180 degrees, every history of calls and every time up to 1e20 - 30 minutes at which the mean motion is positive and the eccentricity in [0, 1)", "why_tests_cant": "continuum of element sets and unbounded call histories; no independent implementation", "anchors": ["src/sdp8.c: SDP8_init", "src/sdp8.c: SDP8", "src/deep.c: Deep_dpsec", "src/deep.c: Deep_dpper"]}
{"id": "C113", "title": "SGP8 and SDP8 report what they cannot compute", "statement": "A time or an orbit for which no place can be computed is reported with an error code, without undefined behaviour and in finite time.", "quantifier": "for every element set and time, binary64 and any C library; refuted: code 0 with NaN, reads of values never written, an endless loop", "why_tests_cant": "the failing inputs are rare and their results look like a return value of 0", "anchors": ["src/sgp8.c: SGP8", "src/sdp8.c: SDP8"]}
{"id": "C114", "title": "The output of sat_visibility is JSON", "statement": "A run that ends normally prints exactly one JSON object; an error exit prints JSON exactly when no event had been reported; an option error prints the usage text or a JSON object.", "quantifier": "for every command line without quotes, backslashes and control characters, every file contents and every library whose printed numbers are finite, any number of samples, step positive, range within 2^29 days; refuted for four kinds of input", "why_tests_cant": "the text depends on which of many exits is taken after how many samples; a test sees one", "anchors": ["src/sat_visibility.c: main", "src/sat_visibility.c: close_stat_json", "src/sat_visibility.c: add_satdata_json"]}
{"id": "C115", "title": "sat_visibility echoes its command line", "statement": "Whatever way the run ends, the text contains the command line as given.", "quantifier": "for every run after the options were accepted in which a list file, if any, is the first argument; refuted otherwise", "why_tests_cant": "all exits and all argument lists", "anchors": ["src/sat_visibility.c: close_stat_json"]}
{"id": "C116", "title": "64-bit HEALPix round trips between pixels and directions", "statement": "pix2ang gives the centre of the pixel within 1e-14 in height and 1e-12 in longitude, and ang2pix of that direction, or of any direction within 3e-12 in height and 4e-11 in longitude of the centre, gives the pixel back, in both numberings.", "quantifier": "for every nside up to 2^29 (a power of two in the nested scheme), every pixel, and all library functions cos, sin, acos, atan2 correct to 1e-12", "why_tests_cant": "there are up to 3.4e18 pixels; next to the poles the height alone does not determine the ring any more", "anchors": ["HealpixC/chealpix.c: ang2pix_ring_z_phi64", "HealpixC/chealpix.c: ang2pix_nest_z_phi64", "HealpixC/chealpix.c: pix2ang_ring_z_phi64", "HealpixC/chealpix.c: pix2ang_nest_z_phi64"]}
{"id": "C117", "title": "HEALPix round trips between pixels, vectors and angles", "statement": "vec2pix of the vector pix2vec gives for a pixel is the pixel, and so is vec2pix of any vector of length 2^-300 to 2^300 within 2e-13 of the direction of the centre, in both numberings; vec2ang gives back the angles of ang2vec, the longitude from 0 to two pi. Refuted for vectors whose length over- or underflows when squared.", "quantifier": "for every nside (below 2^31 pixels, or up to 2^29 with 64-bit numbers), every pixel, every vector close to a centre, and all library functions cos, sin, atan2 correct to 1e-12", "why_tests_cant": "the length of the vector, the library functions and the rounding all enter the pixel number; no test covers all lengths and pixels", "anchors": ["HealpixC/chealpix.c: ang2vec", "HealpixC/chealpix.c: vec2ang", "HealpixC/chealpix.c: pix2vec_ring", "HealpixC/chealpix.c: vec2pix_ring", "HealpixC/chealpix.c: pix2vec_nest64", "HealpixC/chealpix.c: vec2pix_nest64"]}
{"id": "C118", "title": "HEALPix ring numbers are in range for every direction", "statement": "ang2pix_ring gives for every height from -1 to 1 and every finite longitude, without undefined behaviour, one of the 12 nside^2 pixel numbers, for every nside but 2, with 32- and 64-bit numbers; with nside 2 the number is at most four outside the range. Refuted for nside 2 (pixels -3 and 51 are returned) and, as to the place, for nside 4 (a pixel on the other side of the sky).", "quantifier": "for every nside (below 2^31 pixels, or up to 2^29 with 64-bit numbers), every double z and phi", "why_tests_cant": "the failing directions are a few doubles on the border circle z = 2/3; random directions do not meet them, and no test covers all doubles", "anchors": ["HealpixC/chealpix.c: ang2pix_ring_z_phi", "HealpixC/chealpix.c: ang2pix_ring_z_phi64", "HealpixC/chealpix.c: ang2pix_ring"]}
{"id": "C119", "title": "Dates with milliseconds", "statement": "mjd2datef prints for every double of the years 1000 to 9999 a valid date and time with milliseconds, and the instant lies in the millisecond printed up to 2e-8 ms (0.1 ms before 18 November 1858); the text fits the buffer exactly for the years -999 to 9999. Refuted: whole seconds are not always printed as .000, and other accepted dates overrun the buffer.", "quantifier": "for every double", "why_tests_cant": "the rounding error of four successive subtractions depends on every bit of the argument; tests sample a few dates", "anchors": ["src/mjd2date.c: mjd2datef"]}
{"id": "C120", "title": "mjdnow prints the MJD of the system time", "statement": "For every system time of the years 1970 to 9999, mjdnow prints one line, a decimal number with six places that is within 5.01e-7 day of the Modified Julian Day of that date and time.", "quantifier": "for every date and time of the years 1970 to 9999", "why_tests_cant": "the program reads the clock, so that a test sees one value only", "anchors": ["src/mjdnow.c: main"]}
{"id": "C121", "title": "A reader of the JSON of sat_skymap finds the values computed", "statement": "In every run that ends normally, under the conditions of C57, a JSON reader finds in the output the documented object: the request as understood, the Sun, the names and units of the columns, and one entry for each satellite listed, in order, with its own name, designator, number and ten data; every number equals the computed one to half a unit of the last place printed.", "quantifier": "for every run, however many satellites, and all finite values", "why_tests_cant": "a mislabelled or swapped column, a wrong number of places or a value printed under another key gives well-formed JSON that looks right", "anchors": ["src/sat_skymap.c: add_params_json", "src/sat_skymap.c: add_fieldsdesc_json", "src/sat_skymap.c: add_satlatlon_json", "src/sat_skymap.c: close_stat_json", "src/sat_skymap.c: add_sundata_json", "src/sat_skymap.c: main"]}
{"id": "C122", "title": "A reader of the JSON of sat_visibility finds the values computed", "statement": "In every run that ends normally, under the conditions of C114, a JSON reader finds in the output the documented object: the request as understood, then the Sun if the satellite was never seen, or the satellite with its name, designator and number, the four events in their order, each with place, Sun and satellite, and the duration; every number equals the computed one to half a unit of the last place printed.  This fails for the right ascension of the zenith and the two sidereal times, which are always printed as 0.", "quantifier": "for every run, every range, step and library result that is finite", "why_tests_cant": "a value printed under another key or before it is computed gives well-formed JSON that looks right", "anchors": ["src/sat_visibility.c: add_params_json", "src/sat_visibility.c: add_satlatlon_json", "src/sat_visibility.c: add_satdata_json", "src/sat_visibility.c: add_sundata_json", "src/sat_visibility.c: close_stat_json", "src/sat_visibility.c: main"]}
{"id": "C123", "title": "The settings of the resonance integrator", "statement": "With the settings at the start the integrator is that of C45 and C82.  With any order N up to 20 a step is the Taylor series of order N of the resonance equations, each further derivative of the acceleration being exact.  With any positive step h a call ends after at most |t|/h + 1 turns, whatever was called before.  With Dundee compliance the outcome of SDP4 for a resonant orbit is that of the same call straight after SDP4_init, whatever was called before.  Every order, every step and every setting named in norad.h can be used: this fails for orders above 20 (a write beyond the array), for steps of zero or below (no end), and for the setting of the perturbations at the epoch (ignored).", "quantifier": "all settings, element sets, times and histories of calls; any arithmetic for the settings at the start and for the bounds of the array, real arithmetic for the rest", "why_tests_cant": "a test uses one order and one step; that a result does not depend on the calls before it is a statement about all sequences of calls", "anchors": ["src/deep.c: sxpx_set_implementation_param", "src/deep.c: sxpx_set_dpsec_integration_step", "src/deep.c: compute_dpsec_derivs", "src/deep.c: Deep_dpsec", "src/deep.c: Deep_dpper"]}
{"id": "C124", "title": "Distance and direction of a satellite in doubles", "statement": "In binary64 the distance computed for a satellite is positive and within one part in 2^50 of the distance of the two stored positions; asin is called on a number of [-1, 1], never beyond it through rounding; the right ascension is between 0 and TWOPI, if atan2 returns angles of at most half a turn.  The right ascension is below TWOPI: this fails just below zero, where the sum is rounded up to TWOPI.", "quantifier": "all pairs of stored positions whose differences are 0 or between 2^-400 and 2^400 in size; all functions in place of those of <math.h>", "why_tests_cant": "whether some triple of doubles makes the quotient exceed 1 is a question about 2^192 inputs", "anchors": ["src/observe.c: get_satellite_ra_dec_delta"]}
{"id": "C125", "title": "The altitude is a number", "statement": "In binary64, with sine and cosine that return the double nearest to the true value, dechalat2alt calls asin on a number of [-1, 1].  This fails at the nadir: for latitude 8 degrees, declination -8 degrees and hour angle 12 h the argument is below -1 and the altitude is undefined.  Everywhere else, farther than about 0.01 seconds of arc from the nadir, it holds, already for sines and cosines that are right to 2^-53.", "quantifier": "all libraries whose sine and cosine are correctly rounded; for the second part all accurate ones, all declinations and latitudes up to 90 degrees and all hour angles up to 100 h", "why_tests_cant": "it happens at isolated directions, about one nadir in twenty-five, and depends on the last bit of the library", "anchors": ["src/dechalat2alt.c: dechalat2alt"]}
{"id": "C126", "title": "The circular arctangent in doubles", "statement": "In binary64 atan_circ returns a finite angle between 0 and TWOPI for all finite x and y, if atan returns angles of at most a quarter turn.  The angle is below TWOPI: this fails just below the positive x axis.", "quantifier": "all finite doubles x and y; all functions in place of atan", "why_tests_cant": "overflowing quotients and the last bit before a whole turn", "anchors": ["src/lpsun_radec.c: atan_circ"]}
{"id": "C127", "title": "The separation in doubles does not depend on the order", "statement": "In binary64 skysep_h returns the same double, to the last bit, when the two directions are exchanged, if sin is odd.  It returns exactly 0 for a direction and itself, if theta is at most 1000 in absolute value and sin and asin are 0 at 0.", "quantifier": "all doubles, infinities and NaN included, for the exchange; finite theta and phi for equal directions; all functions in place of sin, cos and asin with the properties stated", "why_tests_cant": "four doubles of input and any C library", "anchors": ["src/skysep_h.c: skysep_h"]}
