(** Property theorems C125: the altitude in binary64. *)
From Coq Require Import ZArith Reals.
From Verif Require Import CLib FloatModel FloatLemmas ArithModel GeoModel GeoNadirSpec GeoNadir GeoAltMach.
Open Scope R_scope.

(** C125: "asin is called on a number of [-1, 1]" is false even if sine and cosine return the nearest double: for the nadir of a
    place at 8 degrees (declination -8 degrees, hour angle 12 h) its argument is below -1, for which <math.h> has no value. *)
Theorem C125_altitude_domain_refuted : exists dec ha lat, fin dec /\ fin ha /\ fin lat /\
  forall m, correctly_rounded (m_sin m) sin -> correctly_rounded (m_cos m) cos ->
  exists h q, dechalat2alt (machine m) dec ha lat = Ok h /\ hz_alt (machine m) h = fmul RAD64 (m_asin m q) /\ fin q /\ toR q < -1.
Proof. exact nadir_domain. Qed.
Print Assumptions C125_altitude_domain_refuted.
Example C125_library : exists m, correctly_rounded (m_sin m) sin /\ correctly_rounded (m_cos m) cos.
Proof. exact good_library. Qed.
(** Everywhere else, farther than about a hundredth of a second of arc from the nadir, it is true for sines and cosines that are right
    to 2^-53; [l] and [hr] are the latitude and the hour angle in radians as the program has them. *)
Theorem C125_away_from_nadir : forall m (dec ha lat : b64) h, accurate (m_sin m) sin -> accurate (m_cos m) cos -> fin dec -> fin ha -> fin lat ->
  Rabs (toR dec) <= PI / 2 -> Rabs (toR lat) <= 90 -> Rabs (toR ha) <= 100 ->
  let l := toR (fmul lat DEG64) in let hr := toR (fmul (fmul ha (round_ratio 15 1)) DEG64) in
  -1 + / 2 ^ 50 <= cos (toR dec) * cos hr * cos l + sin (toR dec) * sin l ->
  dechalat2alt (machine m) dec ha lat = Ok h ->
  hz_alt (machine m) h = round_ratio 90 1 \/
  exists q, hz_alt (machine m) h = fmul RAD64 (m_asin m q) /\ fin q /\ Rabs (toR q) <= 1.
Proof. exact altitude_domain. Qed.
Print Assumptions C125_away_from_nadir.
Example C125_accurate_library : exists m, accurate (m_sin m) sin /\ accurate (m_cos m) cos.
Proof. exact accurate_library. Qed.
Example C125_example : -1 + / 2 ^ 50 <= cos (toR (round_ratio 0 1)) * cos (toR (fmul (fmul (round_ratio 0 1) (round_ratio 15 1)) DEG64)) *
  cos (toR (fmul (round_ratio 8 1) DEG64)) + sin (toR (round_ratio 0 1)) * sin (toR (fmul (round_ratio 8 1) DEG64)).
Proof. exact ex_not_nadir. Qed.
