(** Specification: vectors close to a direction, and how accurate the library functions have to be. *)
From Coq Require Import ZArith Reals.
From Flocq Require Import Core IEEE754.BinarySingleNaN.
From Verif Require Import CLib FloatModel FloatLemmas.
Open Scope R_scope.

(** The vector of doubles is L times a vector close to the unit vector with sine of latitude [z0] and longitude [phi0]: across the axis to 2 parts in 10^13 of the distance from it. *)
Definition close_vector (x y z : b64) (z0 phi0 : R) : Prop :=
  let s0 := sqrt (1 - z0 * z0) in
  fin x /\ fin y /\ fin z /\ exists L, bpow radix2 (-300) <= L <= bpow radix2 300 /\
    Rabs (toR x - L * (s0 * cos phi0)) <= 2 / 10 ^ 13 * (L * s0) /\ Rabs (toR y - L * (s0 * sin phi0)) <= 2 / 10 ^ 13 * (L * s0) /\ Rabs (toR z - L * z0) <= 2 / 10 ^ 13 * L.

(** Library functions correct to 10^-12 on the angles of a full turn; [atan2] up to whole turns, and not negative for positive [y]. *)
Definition good_cos_turn (f : b64 -> b64) : Prop := forall x, fin x -> Rabs (toR x) <= 7 -> fin (f x) /\ Rabs (toR (f x) - cos (toR x)) <= 1 / 10 ^ 12.
Definition good_sin_turn (f : b64 -> b64) : Prop := forall x, fin x -> Rabs (toR x) <= 7 -> fin (f x) /\ Rabs (toR (f x) - sin (toR x)) <= 1 / 10 ^ 12.
Definition good_angle (f : b64 -> b64 -> b64) : Prop := forall y x r t, fin y -> fin x -> 0 < r -> toR y = r * sin t -> toR x = r * cos t ->
  fin (f y x) /\ Rabs (toR (f y x)) <= 4 /\ (0 < toR y -> 0 <= toR (f y x)) /\ exists k : Z, Rabs (toR (f y x) - (t + IZR k * (2 * PI))) <= 1 / 10 ^ 12.
