(** Property theorems C124: the distance and the direction of a satellite in binary64. *)
From Coq Require Import ZArith Reals.
From Verif Require Import CLib FloatModel FloatLemmas ArithModel GeoModel GeoSpec GeoMachSpec GeoMachProofs GeoMachRuns.
Open Scope R_scope.

(** C124: for all distinct positions, in doubles and with whatever the functions of <math.h> return: the distance is within one part
    in 2^50 of the distance of the two stored positions, and asin is called on a number of [-1, 1]. *)
Theorem C124_distance : forall m (obs sat : b64 * b64 * b64) ra dec delta, finite3 obs -> finite3 sat ->
  squarable3 (minus (stored sat) (stored obs)) -> minus (stored sat) (stored obs) <> (0, 0, 0) ->
  get_satellite_ra_dec_delta (machine m) obs sat = (ra, dec, delta) ->
  fin delta /\ 0 < toR delta /\
  Rabs (toR delta - norm (minus (stored sat) (stored obs))) <= / 2 ^ 50 * norm (minus (stored sat) (stored obs)) /\
  exists q, dec = m_asin m q /\ fin q /\ Rabs (toR q) <= 1.
Proof. exact distance_64. Qed.
Print Assumptions C124_distance.
Example C124_example : forall m, exists ra, get_satellite_ra_dec_delta (machine m)
  (round_ratio 1 1, round_ratio 2 1, round_ratio 3 1) (round_ratio 4 1, round_ratio 6 1, round_ratio 3 1) =
  (ra, m_asin m (round_ratio 0 1), round_ratio 5 1).
Proof. exact ex_345. Qed.
(** The bound from below on the differences cannot be left out. *)
Example C124_underflow : forall m, exists ra dec, get_satellite_ra_dec_delta (machine m)
  (round_ratio 0 1, round_ratio 0 1, round_ratio 0 1) (round_ratio 0 1, round_ratio 0 1, round_ratio 1 (2 ^ 600)) =
  (ra, dec, round_ratio 0 1).
Proof. exact ex_underflow. Qed.

(** The right ascension is between 0 and TWOPI ... *)
Theorem C124_right_ascension : forall m (obs sat : b64 * b64 * b64) ra dec delta, half_turn (m_atan2 m) PI64 -> finite3 obs -> finite3 sat ->
  squarable3 (minus (stored sat) (stored obs)) ->
  get_satellite_ra_dec_delta (machine m) obs sat = (ra, dec, delta) ->
  fin ra /\ 0 <= toR ra <= toR TWOPI64.
Proof. exact direction_64. Qed.
Print Assumptions C124_right_ascension.
(** ... and TWOPI itself, 24 hours, does occur: just below right ascension zero the addition of a turn is rounded up. *)
Theorem C124_below_whole_turn_refuted : exists obs sat, finite3 obs /\ finite3 sat /\ squarable3 (minus (stored sat) (stored obs)) /\
  exists y x, minus (stored sat) (stored obs) = (toR x, toR y, 0) /\
  forall m, fin (m_atan2 m y x) -> - / 2 ^ 52 <= toR (m_atan2 m y x) < 0 ->
  exists ra dec delta, get_satellite_ra_dec_delta (machine m) obs sat = (ra, dec, delta) /\ toR ra = toR TWOPI64.
Proof. exact whole_turn_reached. Qed.
Print Assumptions C124_below_whole_turn_refuted.
