(** Property theorems C32: sidereal time.  [ideal] is the program computed with real numbers, [machine m] in binary64 with the
    functions [m] for <math.h> (lmst_hr uses none of them). *)
From Coq Require Import ZArith Reals.
From Verif Require Import CLib FloatModel ArithModel FloatLemmas TimeModel TimeSpec TimeProofs TimeProofs2 TimeProofs3 TimeRuns.
Open Scope R_scope.

(** In real arithmetic: both times are those of Aoki's formula (plus longitude) modulo 24 h; the local one is in [0, 24), the
    Greenwich one in (-24, 24], and not negative from the year 2000 on. *)
Theorem C32_formula : forall jd lon, 0 <= jd <= 1000000000 -> Rabs lon <= 1000000000 ->
  exists l g, lmst_hr ideal jd lon = Ok (l, g) /\ 0 <= l < 24 /\ -24 < g <= 24
    /\ (exists k, l = gmst_hours jd + lon / 15 - 24 * IZR k) /\ (exists k, g = gmst_hours jd - 24 * IZR k)
    /\ (2451545 <= jd -> 0 <= g).
Proof. exact sidereal_ideal. Qed.
Print Assumptions C32_formula.
(** In binary64: whenever there is a result, the ranges. *)
Theorem C32_range : forall m jd lon l g, lmst_hr (machine m) jd lon = Ok (l, g) -> fin l /\ 0 <= toR l <= 24 /\ fin g /\ toR g <= 24.
Proof. exact sidereal64_range. Qed.
Print Assumptions C32_range.
(** In binary64: from noon, January 1, 4713 BC to the year 18254 there is a result, and it is within 2e-9 h (7 microseconds) of
    the formula, modulo 24 h. *)
Theorem C32_accuracy : forall m jd lon, fin jd -> fin lon -> 0 <= toR jd <= 8388608 -> -1000 <= toR lon <= 1000 ->
  exists l g, lmst_hr (machine m) jd lon = Ok (l, g)
    /\ fin l /\ 0 <= toR l <= 24 /\ (exists k, Rabs (toR l - (gmst_hours (toR jd) + toR lon / 15 - 24 * IZR k)) <= / 500000000)
    /\ fin g /\ -24 <= toR g <= 24 /\ (exists k, Rabs (toR g - (gmst_hours (toR jd) - 24 * IZR k)) <= / 500000000)
    /\ (2451545 <= toR jd -> 0 <= toR g).
Proof. exact sidereal64_near. Qed.
Print Assumptions C32_accuracy.
(** The Greenwich sidereal time is negative for dates before 2000, e.g. 1900 January 1. *)
Theorem C32_greenwich_negative_refuted : exists jd lon, forall m, exists l g, lmst_hr (machine m) jd lon = Ok (l, g) /\ flt g F0 = true.
Proof. exact (ex_intro _ jd_1900 (ex_intro _ F0 run_negative)). Qed.
Print Assumptions C32_greenwich_negative_refuted.
(** The local sidereal time can be 24 h. *)
Theorem C32_below_24_refuted : exists jd lon, forall m, exists l g, lmst_hr (machine m) jd lon = Ok (l, g) /\ feq l F24 = true.
Proof. exact (ex_intro _ jd_1976 (ex_intro _ lon_1976 run_24)). Qed.
Print Assumptions C32_below_24_refuted.
(** 2024 March 20, 12h UT, longitude 11.34 degrees east. *)
Example C32_example : forall m, exists l g, lmst_hr (machine m) (round_ratio 2460390 1) (round_ratio 1134 100) = Ok (l, g)
  /\ (flt (round_ratio 6567 10000) l && flt l (round_ratio 6568 10000) && flt (round_ratio 239007 10000) g && flt g (round_ratio 239008 10000))%bool = true.
Proof. exact run_2024. Qed.
