# Design: a Rocq model of SatSkyMap

Subject: `lnicastro/SatSkyMap`, C sources in `/repo` (read as text, never built or run here).
Tool: Coq/Rocq 8.16.1.  All Coq files are in `rocq/theories` (logical name `Verif`).

## 1. How the code is modelled

* **Bytes and buffers.** A C `char` is a `Z` in -128..127 (x86 signed `char`, which is what the
  Makefile's target uses).  A `char[]` buffer is a `list Z` (or `list (option Z)` where the contents may be
  indeterminate).  Reading at or past the end of the list is undefined behaviour.
* **Undefined behaviour is an outcome.** Functions that may misbehave return `res A` =
  `Ok a | UB reason`.  Reasons: out-of-bounds access, signed overflow, null dereference, read of
  an indeterminate byte, failed `assert`, non-termination (`Stuck`: fuel ran out, used only together with a theorem
  about all fuels).
* **Integers** are `Z`, with an explicit `int`/`long` range check where the code could overflow.
* **Floating point.** Three levels, stated per property:
  (Q) exact rationals, for text decoding; (F) IEEE binary64/binary32 with correct rounding
  through Flocq, where the property is about rounding (HEALPix lookup, calendar clock fields); (R) real
  numbers of the standard library, for geometry and orbital mechanics, where libm functions are the exact
  mathematical ones.
  The geometry is written once over a record of operations (`arith` in `ArithModel.v`).  `ideal` reads it in the real numbers
  with the exact PI, 2 PI, PI/180; a theorem about `ideal` says nothing about rounding, overflow, NaN or the error of <math.h>.
  `machine m` reads the same text in binary64, with the functions of <math.h> that IEEE-754 does not fix as parameters `m`.
* **Programs** (`sat_skymap`, `sat_visibility`) are state machines over input lines / samples / argument
  vectors.  The heavy numeric pipeline (SGP4, Sun position ...) enters the program loops as universally
  quantified oracles.  `PipeModel.v` models separately how main of `sat_skymap` composes them (C94-C98); `PipeNumModel.v`
  turns its results in binary64 into the records that the program loop prints.

Files: `*_Model` (or the first part of an area) hold definitions only, each with a comment citing the source lines;
`*Spec*` independent specifications; `*Proofs*` lemmas; `Prop_*` only property theorems (closed by
`exact`), their concrete examples and `Print Assumptions`.

## 2. Trusted base

* the Coq kernel (checked again with `coqchk`);
* axioms printed by `Print Assumptions` under each property theorem: none for the integer/byte/list
  properties; for (R) and (F) properties the standard library's real-number axioms
  (`ClassicalDedekindReals.sig_forall_dec`, `ClassicalDedekindReals.sig_not_dec`,
  `FunctionalExtensionality.functional_extensionality_dep`, `Classical_Prop.classic`);
* the transcription of the C text into the model (section 1), x86-64 Linux ABI (int 32 bit, long 64 bit, signed char),
  binary64 evaluation without extended precision (FLT_EVAL_METHOD = 0) and no FMA contraction;
* the C library: `strtol/atoi/atof/sscanf/strstr/strncpy/fgets/printf` as described by ISO C, modelled by the functions in
  `CLib.v`.

`earthtilt.c` and `zenith_site_ra.c` are modelled though the two programs link them without calling them.

`sgp.c`, `sgp8.c`, `sdp8.c` and `dynamic.c` are modelled though the two programs do not use them.

Not modelled: the shell scripts, `Makefile`s, FITS I/O in `HealpixC`.

## 3. Properties: what is modelled, how it is proved

| id | model | plan |
|---|---|---|
| C01 | `tle_checksum` byte for byte | spec = sum over `firstn 68` of a digit weight, declarative case split; proof by induction on the column counter |
| C02 | same | arithmetic mod 10 on the spec of C01: changing one weight changes the sum by 1..9 |
| C03 | same | false: witness line (`_refuted`); exactly the accepted lines in `C03_accepted_iff`: result 0 iff check *value* congruent |
| C04 | `tle_checksum` with `UB` on reads beyond the buffer | safe when the terminator is at index >= 69 or a control char occurs earlier; a 68-byte line is read one past its NUL (`_refuted`) |
| C05 | `get_norad_number` | independent encoder by ranges; decode o encode = id for all n, encode o decode = id for all 34-symbol codes, by `lia` on digit ranges |
| C06 | same with `atoi` reading on | false: digit in the classification column (`_refuted`); holds for non-digit classification; exactly: a decimal number runs on over the digits that follow (`C06_decimal_exactly`), every other five characters stand alone (`C06_other_codes`) |
| C07 | `parse_elements` | independent printer `format_tle`; parse (format e) = e for all in-range field values |
| C08 | return code of `parse_elements` | proved for type <> 'H'; refuted for 'H' |
| C09 | epoch computation in Q | equals day count of the Gregorian spec of C14 for 57..99,00..56 |
| C10 | `get_angle`, `sci`, `parse_elements` with UB | refuted by witnesses; safe under the column layout of C07; `atoi` defined exactly on numbers that fit an int (`C10_numbers`); angles read exactly as `C10_angles` says, whatever the characters; decoding of two lines of any content defined exactly when the lines are not a TLE pair or their fields are defined (`C10_safe_exactly`); readable sufficient form `C10_fields_fit` |
| C11 | `sci` in Q | spec by powers of ten |
| C12 | `mutant_dehex`, `get_high_value` | encoder/decoder round trip by positional notation induction |
| C13 | `select_ephemeris` decision | refuted (falls into the SGP4 branch for some vectors); exact characterisation of when it is right |
| C14 | `date2mjd` integer core | successor-day specification of the Gregorian calendar; induction |
| C15 | `mjd2date` integer core (Fliegel-Van Flandern) + clock fields in F | successor induction for dates; Flocq bounds for clock fields |
| C16 | both | composition with an error bound of the 1e-5 day rounding |
| C17 | `mjd2date` buffer length | refuted; exact range of doubles that fit (years -999 to 9999), overrun or give the null pointer |
| C18 | `xyf2nest`, `nest2xyf` with the literal `ctab/utab` | bit-interleaving spec; tables checked by computation on their 256 entries, composition for all nside |
| C19 | `xyf2ring`, `ring2xyf`, `special_div`, `isqrt` | arithmetic case analysis for every nside; `isqrt` through Flocq sqrt |
| C20 | `nest2ring`, `ring2nest` | composition of C18 and C19 |
| C21 | `nside2npix`, `npix2nside` | isqrt spec |
| C22 | `ang2pix_nest_z_phi`, `ang2pix_nest_z_phi64`, `ang2pix_nest64` in F | refuted at one corner (at every resolution up to 2^29, `C22_out_of_range64_refuted`); proved away from it, 32-bit and 64-bit |
| C23 | `pix2ang_*`, `ang2pix_*`, `_z_phi` and public ones, in binary64 and in R | every intermediate double is followed with an error bound (`near`), the floors of the code fall where those of the exact centre do; whole turns of the longitude through the exact remainder of `fmod`; `cos` and `acos` any functions correct to 1e-12 |
| C24 | 64-bit twins | equality lemmas |
| C25 | `GeoModel.v`: `skysep_h`, over the record `arith` | haversine identity, asin/acos |
| C26 | `atan_circ` | polar angle spec |
| C27 | `get_satellite_ra_dec_delta` | atan2/asin give back the vector |
| C28 | `intersect_satsun_sphere` | ray/sphere quadratic; spec = a point of the half-line in the ball |
| C29 | `sat_geoLocation`, its do-while with fuel | the latitude step is a contraction with factor 0.008 (mean value theorem), hence five turns; the last step bounds the position error; pole: binary64 |
| C30, C31 | `dechalat2alt`, all branches, `sinp`/`cosp` indeterminate until written | spec = scalar products with zenith, north, east; refuted in the special branches, exact results there |
| C32 | `TimeModel.v`: `lmst_hr`, every operation and cast, in R and in binary64 | `TimeSpec.v`: Aoki's formula. In R exact modulo 24 h; in binary64 a forward error analysis (`TimeProofs3`) gives 2e-9 h. Refuted: Greenwich negative before 2000, local value 24.0 by rounding |
| C33 | `epoch_of_date_to_j2000` | refuted near the poles; bounds on the rates and a margin lemma for the declination elsewhere |
| C34, C35, C36 | `ra_diff`, `flat_sep`, `flat_geo_sep`, `motion_angle`: the separation and position angle code of `main` | refuted with witnesses (also in binary64 where no libm function matters); exact condition for the short way round; flat >= true separation from cos sqrt(x^2+y^2) <= cos x cos y |
| C37, C38, C40 | `OrbModel.v`: `sxpx_posn_vel` for any arithmetic (R, binary64) | `OrbSpec.v`: unit vectors of the orbit plane by rotations; return codes by cases in every arithmetic; Kepler: the loop leaves only through the 1e-12 test, and the defect is monotone, so the solution is unique and near |
| C39 | `SGP4_init`, `SGP4` in R | equivariance by rewriting trigonometric sums |
| C79 | `sxpx_common_init`, `SGP4_init`, `SGP4`, `sxpx_posn_vel` in R | `OrbSpec.v` transcribes the equations of Spacetrack Report No. 3, not the program; algebra term by term (`OrbProofs1`-`7`) |
| C80 | `select_ephemeris` | by cases; spec = period 2 pi / n0'' of the report |
| C41 | `DeepModel.v`: `lunar_solar_position`, `cached_lunar_solar_position` in R and binary64 | invariant over histories of dates; refuted for a first request of JD 0, which the initial contents of the cache answer |
| C42 | `high_ephemeris`, `calc_accel` in R and binary64 | explicit list of steps; in binary64 t - 1 is exact up to 2^53, beyond the loop never ends (refuted) |
| C43 | `equatorial_to_ecliptic`, `ecliptic_to_equatorial` in R and binary64 | algebra; forward error analysis, 6 x 2^-53 |
| C44 | `FMod2p`, `centralize_angle` in R and binary64 (`fmod` exact as IEC 60559 requires) | floor in R; Sterbenz and the format's grid in binary64 (`AngleProofs.v`) |
| C45 | `Deep_dpsec` in R and binary64, state kept from call to call | invariant over histories (`called`), explicit list of steps; binary64: time 2^64 and infinity never end (refuted) |
| C81 | `Deep_dpper`: the terms computed last are kept | invariant over histories; refuted for NaN and 1e20, for which the terms are read before they are written |
| C82 | `compute_dpsec_derivs`, `dpsec_step` | `DeepSpec.v`: sum of the resonance terms with phases given as angles; the code's rounded sines and cosines are enclosed by Taylor series (`DeepProofs11`) |
| C83 | `apply_perts` | the two sets of equations; refuted: whole turns of the node change the perigee |
| C84 | `Deep_dpinit`: `half_day`, `one_day`, `resonant` | Kaula's inclination functions from their defining sum, the code's polynomials equal them (two coefficients are rounded, bounded) |
| C85 | `ThetaG` | Aoki's formula of `TimeSpec.v` |
| C86 | `init_high_ephemeris`, `high_ephemeris` | `DeepSpec.v`, `HighSpec.v`: Newton's equations of the three bodies, the classical Runge-Kutta step; the run equals the iteration of that step, turned by the obliquity of J2000 to the ecliptic before and back after, in km and km/min |
| C87 | `lunar_solar_position` | spec = the leading terms of Meeus, ch. 25 and 47; difference bounded by interval reasoning; refuted: one term of the distance differs |
| C88 | `SDP4_init`, `SDP4` | the mean elements of Spacetrack Report No. 3 plus the secular rates, the resonance and the periodic terms as functions of the history of calls |
| C46 | main loop with propagator oracle returning codes | refuted |
| C47-C56 | `SkymapModel.v`: `main` of `sat_skymap.c` from line 530 on, every buffer and every printed byte; the numerical results are an arbitrary function of the element set | inversion lemmas for each jump of the loop (`SkymapProofs1`), invariants over all runs; refuted variants are complete runs on concrete files (`SkymapRuns.v`) |
| C57-C59 | printed bytes | JSON grammar as inductive spec, pushdown acceptor, induction over satellites; refuted for error exits and echo |
| C60-C62 | `CliModel.v`: option loop of `sat_skymap.c` 346-539 over argv (texts with NUL, argv[argc] null), all buffers, error messages; real-number reading is an arbitrary function; `sat_skymap` composes it with the rest of main | refuted by concrete argument vectors; proofs by induction over turns; meaning specified by the last relevant option (`CliSpec.v`) |
| C63 | list file reader (`fgets` chunks of 63 bytes) | lines spec; CRLF refuted |
| C64, C65 | `trimend`, name buffer with indeterminate bytes | exact characterisation; refuted |
| C66-C72 (and C60, C62 for sat_visibility) | `VisCliModel.v`: option loop of `sat_visibility.c`; `VisModel.v`: the search for the element set, the time loop, all reported events, every printed byte; clock in binary64 exactly, the numerical functions (propagator, Sun, shadow, separation) are arbitrary functions and the propagator may depend on the number of earlier calls | `VisSpec.v` speaks of the list of samples; `VisProofs1`-`3` induct over the turns; `VisProofs4`-`6` bound the clock in the reals; `VisProofs7` options; `VisProofs8`-`9` whole program; refuted variants are complete runs (`VisRuns.v`) |
| C73 | `NutModel.v`: `calcnutation`, its eleven tables and index loops, arrays with unwritten cells | the loops are run on multiples of the arguments (finite tables, computation) and shown to be followed by every arithmetic; angle addition; `NutSpec.v` has the 106 rows of the 1980 IAU theory and its arguments in seconds of arc; pi to 18 places by `TrigBounds.v` |
| C74 | `earthtilt` with its static variables, in R and binary64 | invariant over histories of dates, for every arithmetic; refuted for a first call for JD 0 |
| C89 | `ut2gmst` | the formula of Williams 1994; the two constants with suffix F are the binary32 numbers 8640185 and 12344601/512; the difference is bounded, equality refuted |
| C90 | `zenith_site_ra`, `zenith_site_ra_last`, `ut2last`, `ut2gast` | range and congruence; the apparent one with C74 |
| C91 | `sph2v`, `slaDh2e` | unit vector; the three products with zenith, north and east of `GeoSpec.v` |
| C92 | `dechalat2alt`, parallactic angle | `ParSpec.v`: direction of the zenith in the north/east axes of the sky; refuted on the meridian and for polar observers |
| C93 | `kepler` (the ten turns of Newton's and Halley's steps) | contraction of the error from turn to turn by Taylor's theorem |
| C94 | `PipeModel.v`: `prepare` (main before the satellites: observer, sidereal time, target, Sun) with `ThetaG` of observe.c | `PipeSpec.v`: place, vertical, north and east of the observer in the axes of date; C30-C32, C75-C77 put together |
| C95 | `PipeModel.v`: `satellite` (main from the choice of the propagator to the numbers printed) | inversion of the whole computation; C25-C29, C33-C35 put together; first-order precession |
| C96 | the same, `sg_lit` | refuted: a circular orbit at 1.44 Earth radii is followed for 73 minutes from the lit to the dark side; at the last lit second the flag is the one of the next |
| C97 | `satellites` (the loop), the kept positions of Moon and Sun | invariant of the cache; every part of the computation gives the same after any cache that satisfies it |
| C98 | `satellite` with the default target | refuted: an equatorial satellite exactly overhead on 2026 January 1 |
| C99 | `WatchModel.v`: `instant_at` (what main of sat_visibility computes for a sample) | the words of `PipeSpec.v`; the same composition as C94 and C95 |
| C100 | the same with `get_sun_data`, `sunlit` | C28 for the Sun and the satellite of one instant |
| C101 | `event_at` (the three objects of an event) | C29-C32, C77 put together |
| C102 | `get_sat_PA_and_speed` | refuted: an equatorial satellite passing overhead in an orbit of 1.44 Earth radii; right seen from one place |
| C103 | the loop of `VisModel.v`, what each event contains | `VisDataSpec.v`: invariants of the loop before and after the first visible sample, for every library; three runs as counterexamples |
| C104 | `lunar_orbit`, `third_body`, `secular` (`Deep_dpinit`) | `ThirdSpec.v`: tide of a distant body, averaged over both orbits by integrals, Lagrange's equations by derivatives, mean orbits of Sun and Moon; the code's 40 polynomials are shown equal by algebra |
| C105 | `body_perts`, `perts_at` (`Deep_dpper`) | the same potential not averaged over the body's orbit; each periodic term has mean 0 and the derivative Lagrange's equations give, for all times |
| C106 | `drag_init`, `fit`, `SGP8_init`, `decay` (`sgp8.c`) | `Sgp8Spec.v`: decay of mean motion, eccentricity and perigee as a system of differential equations; the two laws of the code are shown to agree with every solution to the third and second power of the time, with derivatives worked out for the whole right-hand side; a solution is exhibited |
| C107 | `kepler8`, `posn_vel8`, `SGP8` (`sgp8.c`) | `Sgp8Spec.v`: secular angles, at most ten Newton steps, position and velocity by the formulas of the report; the unit vectors by trigonometry; contraction of Newton's iteration for e <= 1/2 |
| C108 | the same over binary64 | NaN followed through every operation, for every library |
| C109 | all functions of `dynamic.c` (static variables as a state, the operating system as an oracle) | `DynSpec.v`: a loader without tables; invariant on the two tables over every sequence of operations |
| C110 | `SGP_init`, `kepler_sgp`, `place_sgp`, `SGP` (`sgp.c`) | `SgpSpec.v`: the equations of section 2 of the report (polynomial mean motion, fixed perigee distance, long- and short-period terms); ellipse by its polar form; Newton's iteration shown to converge for an eccentricity up to 1/2, with its error |
| C111 | the codes of `SGP`, real numbers and binary64 | case analysis; witnesses for the codes that cannot occur |
| C112 | `common8`, `SDP8_init`, `SDP8` (`sdp8.c`), with `Deep_dpinit`, `Deep_dpsec`, `Deep_dpper` of the deep-space model | `Sdp8Terms.v`: elements of date, any history of earlier calls; place by `Sgp8Spec.v`; the lunar and solar terms are shown to be those of SDP4, so that C104 and C105 speak of them |
| C113 | `SGP8`, `SDP8` in binary64 | floating-point case analysis for every library; witnesses |
| C114 | every text printed by `sat_visibility`: `open_json`, `add_params_json`, `add_fieldsdesc_json`, `add_geofieldsdesc_json`, `add_satlatlon_json`, `add_satdata_json`, `add_sundata_json`, `close_stat_json`, option errors | `VisOutSpec.v` and the grammar of `JsonSpec.v`; pieces are run through the proved acceptor, whole texts follow from the case analysis of runs behind C60-C66; dates are shown clean and durations finite instead of being assumed so; four `_refuted` witnesses |
| C115 | the echo of the command line in `close_stat_json` of `sat_visibility` | all ways in which a run can end; witness for a list after the options |
| C116 | `ang2pix_*64`, `pix2ang_*64` and their `_z_phi64` forms for every nside up to 2^29, in binary64 | centres from the formulas of Gorski et al. in `HealpixAng64Spec.v`; relative error bounds (`rel`) carry the doubles of a centre past the cancellation next to the poles, absolute ones (`near`) the way back; the sine of the colatitude, when given, determines the ring; `cos`, `sin`, `acos`, `atan2` any functions correct to 1e-12 |
| C117 | `ang2vec`, `vec2ang`, `pix2vec_*`, `vec2pix_*` with 32- and 64-bit pixel numbers, in binary64 | `close_vector` in `HealpixVecSpec.v` (any length from 2^-300 to 2^300); error bounds relative to the distance from the axis give the length, the quotient and the sine back, a rotation by a small angle the longitude, then the results of C23 and C116; `cos`, `sin`, `atan2` any functions correct to 1e-12 on a turn |
| C118 | `ang2pix_ring_z_phi`, `ang2pix_ring_z_phi64`, `ang2pix_ring` for all directions, in binary64 | `valid_pixel` in `HealpixSpec.v`; in the belt the two truncated lines differ by at most nside + 1, in the caps they add up to at most nside; nside 1 by a case analysis of the roundings on each power of two; witnesses by computation |
| C119 | `mjd2datef` (no program calls it) | `iso_ms`, `instant_ms` in `DatefSpec.v`; error of each step of the clock, and for the last step a check of the largest remainder of each of the 60 seconds, so that the milliseconds never reach 1000 |
| C120 | the program `mjdnow`, with the system time as an argument | `decimal` (text of digits to number) in `DatefSpec.v`; digits of the printed number, rounding of `%lf`, two roundings of the sum |
| C121 | the whole output of `sat_skymap` | `shows` in `JsonDataSpec.v` (RFC 8259 with values: what a reader finds in a text), `document` in `SkymapReadSpec.v`; value of the printed digits, rounding of `%lf`, then the pieces of the text from right to left; no text holds two things (`C121_unambiguous`, from the acceptor of C57: a value cannot be continued after a delimiter) |
| C122 | the whole output of `sat_visibility` | `shows` as in C121, `vdocument` in `VisReadSpec.v`; pieces of the text from right to left, the four events of `seen`; refuted for the sidereal times by a run of the model and `C121_unambiguous` |
| C123 | the settings of the resonance integrator, the functions that set them and all that reads them (`DpsecSetModel.v`; with the settings at the start equal to `DeepModel.v` in any arithmetic) | the terms are solutions of y'' = -k^2 y, so the entries of derivs are the derivatives `Derive_n` (Coquelicot) of the acceleration; invariant: with Dundee compliance the kept state is reached from the epoch by full steps in one direction; real arithmetic except for the bounds of the array |
| C124 | `get_satellite_ra_dec_delta` in binary64, any `<math.h>` | `stored`, `squarable`, `half_turn` in `GeoMachSpec.v`; relative error of each rounding; the rounded square root of a rounded square is never below the double (mantissa argument), hence the argument of asin is at most 1 |
| C125 | `dechalat2alt` in binary64 | `correctly_rounded` in `GeoNadirSpec.v`, satisfied by some library (`C125_library`); sine and cosine of 8 degrees enclosed by integer arithmetic (`TrigBounds.v`) to fix the nearest doubles; away from the nadir by the errors of the five roundings, the zenith being covered by the shortcut of the code (`GeoAltMach.v`) |
| C126 | `atan_circ` in binary64, any `atan` of at most a quarter turn | `quarter_turn` in `GeoNadirSpec.v`; the quotient of finite doubles with a divisor other than 0 is never a NaN; monotonicity of rounding |
| C127 | `skysep_h` in binary64, any `sin` that is odd (one NaN, no payloads) | rounding to nearest commutes with the sign, so `y - x` is `x - y` or its opposite; squares and absolute values do not see the sign |
| C75 | `earth_lat_alt_to_parallax`, `observer_cartesian_coords` | reduced latitude algebra |
| C76 | `sun_lon` with `fmod` | floor |
| C77 | `lpsun_radec` | C26 and asin |
| C78 | the search of `sat_visibility.c:717-808` (`scan_lines`, `scan_file`, `scan_rows` in `VisModel.v`) | `VisFindSpec.v`: which record meets a request; induction over the blocks of a file and the rows of a list; refuted for numbers above 99999 |

Statement shape: properties that are false of the code get a theorem `..._refuted` with a concrete witness, plus the
strongest true variant.  Weaker-than-stated theorems are suffixed `_partial`.

## 4. Findings (places where the code does not do what its documentation or a user expects)

Each is a theorem ending in `_refuted`, with a concrete witness computed by the kernel.

* **C03** A line whose check column holds `?` (or any character congruent to the right digit) passes the checksum.
* **C04** `tle_checksum` reads the byte after the terminating NUL of a 68-character line.
* **C06** A digit in the classification column of line 1 is read as part of the catalogue number.
* **C08** For ephemeris type `H` a wrong check digit is not reported.
* **C10** Lines with correct check digits can still drive the parser out of its buffer, into signed overflow, or into `abort`.
* **C13** A state vector ("H" elements) can be handed to SGP4 when its third component lies in [0,1].
* **C15** `mjd2date`: exactly 05:15:00 (day fraction 28/128) is printed 05:14:59.  It happens only at whole seconds.
* **C16** Years below 1000 are padded with blanks, so the text is not the one that was read.
* **C17** `mjd2date` writes 21 bytes into its 20-byte buffer from 1 January 10000 on, and returns a null pointer for
  far dates, which the programs use as a string.
* **C21** `npix2nside` narrows its `long` argument to `int`: 12*65536^2 pixels are reported as "not a pixel count", and larger or
  negative counts convert a NaN to an integer.  `npix2nside64` divides in double, so 12*536870911^2 is rejected.
* **C22** For the last double below 2 pi and z at the lower edge of the equatorial belt `ang2pix_nest` computes face number 12
  and returns a pixel number beyond the last one (830122 of 786432 at the nside 256 that `sat_skymap` uses).
* **C29** Over a pole (x = y = 0) the altitude of the sub-satellite point comes out as about -6399.6 km: r / cos(lat) is 0 / 6e-17.
* **C30** `dechalat2alt` returns altitude 90 whenever declination and latitude agree to 1e-6 rad, whatever the hour angle: a satellite on the
  horizon can be reported at the zenith.  (The test forgets the hour angle.)
* **C31** On the meridian the azimuth is always 0, also south of the zenith.  At the poles it is the hour angle in *radians*, possibly negative.
* **C32** The Greenwich sidereal time (used by `sat_geoLocation`'s callers) is negative before 2000; a local sidereal time just below 24 h can
  round to 24.0.
* **C33** Near the poles the linear precession formula leaves the range: declinations above 90 degrees; right ascensions beyond 2 pi, since only
  one turn is removed.
* **C34** The RA difference is computed as `ra - target + 2 pi`, reduced by one turn only: a satellite up to `-r` degrees *west* of a target just
  after 0h gets a difference near 2 pi and is not found.  The difference is not multiplied by cos(dec) either, so near the poles satellites
  within the radius are missed (none is listed wrongly: the flat separation is never smaller than the true one).
* **C35** Motion westward across 0h is reported with position angle 90 instead of 270 degrees (both programs).
* **C36** `-E` without `-H` subtracts a latitude in radians from one in degrees: exactly above the requested point at latitude 10 the separation is
  562 degrees, so nothing is found except close to the equator.
* **C38** The code -3 ("orbit within Earth") is never returned: the assignment of -4 that follows overwrites it. At inclination 180 degrees
  the long-period term divides by 1 + cos i = 0: the result is always an error code, for every <math.h> with cos = -1 there.
* **C41** The cache of lunar and solar positions is filled with zeros for JD 0: a first request for JD 0 gets the zeros.
* **C42** With more than 2^54 days, or a NaN (`-j nan` reaches it), the state-vector integrator never ends.
* **C44** `FMod2p` of a tiny negative angle is exactly its 2 pi, not less.
* **C45** A propagation time that is infinite or above 2^63 minutes or so makes the resonance integrator run for ever.
* **C46** Both programs ignore the return value of `SGP4`/`SDP4`: a satellite whose propagation failed is listed with whatever
  coordinates were left, and the run reports status 0.
* **C49** The list of seen catalogue codes is searched with `strstr`, so codes containing commas can be taken for duplicates.
* **C50** The list of seen codes is enlarged only after it has overflowed: the 11667th distinct satellite writes past the
  70000-byte buffer (the public catalogue has more than 11667 objects).
* **C52** `-s N -V` (or `-a`): once the requested satellite was met but filtered out, the next satellite that passes the filters
  is listed instead.  `-S` is documented as a substring but compares the beginning of the name only.
* **C53** Catalogue numbers of 100000 and more (letter codes) cannot be requested with `-s`; `-s 0` matches all of them.
* **C54** `snprintf(..., 10, ...)` cuts designators to nine characters: pieces AA and later are reported as A, cannot be
  requested, and answer requests for piece A.
* **C55** `-s N -V` with N in the shadow reports `n_sats` 1 and `n_sats_found` 0.
* **C56** A NaN altitude passes the altitude filter.
* **C56, C58** A listed satellite whose declination came out beyond the pole (the linear precession formula does that near the poles, C33) fails the range assertion of
  `ang2pix_nest`: the run exits with status 1, without a status, in the middle of the array.
* **C57** `-t 0` divides by zero: the speed is printed as `inf` or `nan`, which is not JSON.
* **C58** An error exit after the first listed satellite does not close the array, so the output is not JSON.
* **C59** The `@` of the list file is put back on the first argument, whichever it is, so the echo is wrong when the list follows an option.
* **C58** Without arguments the usage hint contains a raw line feed inside a JSON string.
* **C60** `-GH` (or any switch with text attached) makes the option loop run for ever.
* **C61** A lone `-` reads past the argument; an option without value at the end dereferences NULL; `-i`, `-S`, `-d`, `-D` overrun their buffers;
  `-l1e70` overruns `errmsg`; `-n`, `-t`, `-j` out of range are undefined.
* **C62** The last of `-d`/`-j` and of `-D`/`-T` wins although the usage text says otherwise; longitudes below -360 stay negative; the message for an
  unknown option names the argument after it.
* **C63** List files with CR LF line ends name files that do not exist.
* **C64** A name consisting of blanks keeps one blank; for an empty text memory before the buffer is accessed.
* **C65** With two-line files the printed name is the beginning of line 1 followed by uninitialised memory, possibly without end.
* **C60** (sat_visibility) `-NT` makes the option loop run for ever.
* **C66** `-t 0.5` is read as 0: the time loop never advances and never ends. The same for negative steps.
* **C67** The end reported is the first sample at which the satellite is not visible any more, i.e. in the shadow or outside the radius.
* **C69** The duration is one step too long when the satellite enters the shadow and one step too short when the range ends; a satellite seen only at
  the last sample has the duration minus one step (`-0.50`). "mid" inherits the error: in the shadow case it can be the end itself.
* **C70** A fraction of a second in the first date makes the second date unread: the range ends at MJD 0 (or that of an earlier `-d`) and nothing is
  computed. Dates shorter than 19 characters swallow the comma.
* **C71** "mid" and "max" are printed with the MJD of the end.
* **C72** A list file that names no file leads to `fclose(NULL)`.
* **C81** A NaN date (`-j nan`) makes SDP4 read the lunar and solar terms before they are computed; so does the time 1e20, the mark for "never".
* **C83** Below inclination 0.2 the perigee is corrected with `xnode * sin i * di`: the correction changes when the node grows by a whole turn.
* **C87** Two terms of the Moon's position are not those of the source: cos 2M of the *Sun* is used where 2M' is meant, and the longitude has 0.185166
  for 0.185116; the distance is up to 1139 km off.
* **C74** `earthtilt` starts with the date 0 and zeros: a first call for a date within 0.01 day of JD 0 returns obliquity 0. A NaN date returns the values of
  the date before.
* **C92** On the meridian and for observers within 0.2 arc seconds of a pole the parallactic angle is reported as 180 degrees, also where it is 0.
* **C96** The sunlight flag printed with the first position is computed from the position at the second instant (the variable `pos` is overwritten), with the
  Sun of the first.
* **C98** The default target is the vertical in coordinates of date, but the satellites' coordinates were turned back to J2000 before they are compared with
  it: in 2026 a satellite exactly overhead is 0.33 degrees "away", so it is not found with a radius of 0.3 degrees. A position given with -p is taken as J2000
  for the separation and as of date for its altitude and azimuth.
* **C95** The second call of SDP4 may return -5 without writing the position; main then uses the position of the first instant for the second. If the first
  call does so, an uninitialised position is read (`UB Uninit` of `satellite`).
* **C102** `get_sat_PA_and_speed` of sat_visibility computes the second direction with the observer of the first instant: the motion of the observer with the
  Earth's rotation is left out. A satellite 2900 km overhead is said to be more than 5 per cent too fast. (sat_skymap has the observer at both instants.)
* **C103** sat_visibility prints one position angle and one speed, those of the first visible sample, with all four events. When the satellite leaves the
  radius, `sun_end` is the Sun of the sample before. When only the last sample of the range is visible, the coordinates that were turned to J2000 for the start
  are used as coordinates of date for the end: altitude and azimuth are wrong and the precession is applied twice, so that start and end, the same instant,
  are reported at places a third of a degree apart (in 2024).
* The header of sat_visibility prints `ra`, `lmst` and `gmst` before they are computed, always as 0 (`vis_params_json`).
* **C104** Below an inclination of 3 degrees the secular drift of the node is set to 0 and the longitude of the perigee gets the drift of both: argument of
  perigee and node are not kept apart there. The mass of the Moon in the code is that of Hinks (1 : 81.53); the modern ratio is 81.30.
* **C108** `SGP8_init` divides by the square of eta = e s xi (`d19 = -(r1*r1)/eta2-...`), 0/0 for e = 0: for an element set with eccentricity 0 (TLE field `0000000`) in notable drag
  every coordinate of position and velocity is NaN and the return value still is 0 (no error). `SGP8` returns 0 whatever happens.
* **C109** the table of `SXPX` in `dynamic.c` is not cleared when the library is unloaded (only that of `SXPX_init` is): a propagator called before and after an unloading is called
  through a pointer into the unloaded library. `SXPX_init` clears its flags but not its pointers, so it does the same when the library cannot be loaded a second time, instead of returning -2.
* **C111** `SGP` tests the eccentricity before it has computed it: `e` still is `e6a` = 1e-6. So `SXPX_ERR_NEARLY_PARABOLIC` is never returned (proved for every library), an orbit with its perigee inside the
  Earth gets no warning unless the semi-major axis itself is below one Earth radius, and `SXPX_WARN_ORBIT_WITHIN_EARTH` is always overwritten by `SXPX_WARN_PERIGEE_WITHIN_EARTH` (the second `if` lacks an `else`).
* **C113** `SGP8` and `SDP8` always return 0. When the eccentricity of date passes 1 the position is NaN, with no error code (proved for every element set of which this is so). `SDP8` called first with a NaN time reads
  perturbations that were never computed; for a resonant orbit an infinite time makes its integration run for ever.
* **C114** `sat_visibility`: when the satellite leaves the range of `-a` after it was first seen, the program prints the closing status inside the object `satellite` and leaves the document open (with status 2 and one satellite
  found). An empty line in place of a name gives a name that is a raw line feed inside a string, because `trimend` does not look at the first character. A list of files with CR LF line ends makes every file unreadable and
  puts the CR into the error message. The example printed without arguments has a raw line feed in a string, as in `sat_skymap`.
* **C115** With the list after the options the echo puts the `@` at the first option, as in `sat_skymap`.
* **C117** `vec2pix_*` square the components without scaling: for a vector shorter than about 1e-162 the length is 0, the quotient infinite or NaN, and its conversion to an integer undefined; for one longer than about 1e154 the length is infinite and the pixel one of the equator, whatever the direction.
* **C118** `ang2pix_ring` on the border between belt and cap (z exactly the double 2/3 or -2/3) with a longitude a few units in the last place short of certain multiples: the rounding of `temp1+temp2` moves the direction one ring too far and the belt's numbering is used for a ring of the cap. With nside 2 the pixel number is negative (-3, -1) or beyond the last pixel (51), so that a map array indexed with it is accessed out of bounds; with nside 4 the pixel is on the other side of the sky. The nested functions are not affected in this way. SatSkyMap itself calls `ang2pix_nest` only.
* **C119** `mjd2datef` truncates: an instant that is a whole second (a double such as 60000.21875, 05:15:00) may be printed as .999 of the second before. It overruns its 24-byte buffer for years from 10000 and before -999 like `mjd2date`.
* **C122** `sat_visibility` prints `input_params` before it has computed the sidereal time: `region.ra`, `region.lmst` and `gmst` are always 0 (sat_visibility.c:828 prints, 852-855 assign).
* **C123** `sxpx_set_implementation_param` accepts any order of integration, but `derivs` has 20 entries (deep.c:597): every order above 20 writes beyond it in the first step for a resonant orbit.  `sxpx_set_dpsec_integration_step` accepts steps that are not positive: with a negative one `Deep_dpsec` never returns, with zero it never returns except for the epoch.  `SXPX_ZERO_PERTURBATIONS_AT_EPOCH` (norad.h:80) is ignored.
* **C124** A satellite just below right ascension zero is given the right ascension TWOPI itself (24 h instead of 0 h): `ra += TWOPI` is rounded up (observe.c:102-103).
* **C125** At the nadir `dechalat2alt` can call `asin` on -1 - 2^-52, so that the altitude is a NaN: for a place at latitude 8 degrees even with correctly rounded sine and cosine (dechalat2alt.c:80).
* **C126** `atan_circ` ("0 - 2pi") returns TWOPI itself just below the x axis: `theta += TWOPI` is rounded up (lpsun_radec.c:30), so the Sun can be given the right ascension 24 h.
* **C89** `ut2gmst` writes 8640184.7942063F and 24110.54841F: as constants of type float they are 8640185 and 24110.548828, so the sidereal time is off by
  0.2 s a century, 0.05 s in 2025.
* **C90** `ut2last` and `zenith_site_ra` take off one turn only. The comment says that the longitude is in hours; the code divides it by 15.
* **C78** `-s` of sat_visibility compares with `strtol` of the five columns, so a satellite above 99999 (`A0001`) is never found; as in C53 for sat_skymap.

## 5. How the mutation log is made

Each line of `seeded/LOG.jsonl` is one edit of the model in a scratch copy, followed by a rebuild there.

- `failed`: the lemmas whose proofs no longer check, as reported by the build.
- `failed_theorems`: the property theorems that fail themselves, or whose statement or proof uses a lemma in `failed`, directly or through other lemmas. This dependency is computed from the identifiers in the sources.
- When a lemma fails it is admitted in the scratch copy (never here) and the build is resumed, so that the theorems after it are tried as well.
- An edit after which the model itself does not compile tests no theorem and is not logged.

A failing proof script shows that the proof noticed the edit. It does not by itself show that the statement became false.

Correction: up to commit f8c87b2 the field `failed_theorems` held the theorems expected to fail, which were not always observed to fail, because a failing file hides the files after it. 31 lines named theorems that had not been seen to fail, and two more lines (`npix2nside`, "64-bit root used"; `skymap_switch`, "-s keeps the altitude filter") counted an edit that merely broke the model. All lines now hold only what follows from the recorded failures, the two lines were removed, and these 33 edits were run again as described above, except two: `face_of`, "face 4 reached past the seam becomes 8" (a tactic definition breaks, so the build cannot be resumed; the line holds the earlier failure) and `skymap_switch`, "upper latitude limit not checked" (the rebuild ran out of memory; the line holds the earlier failure).
