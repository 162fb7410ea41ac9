(** What is asked of the distance and direction of a satellite computed in binary64, without reference to the model. *)
From Coq Require Import ZArith Reals.
From Flocq Require Import Core IEEE754.BinarySingleNaN.
From Verif Require Import CLib FloatModel FloatLemmas GeoSpec.
Open Scope R_scope.

(** The position stored in three doubles. *)
Definition stored (v : b64 * b64 * b64) : rvec := let '(x, y, z) := v in (toR x, toR y, toR z).
Definition finite3 (v : b64 * b64 * b64) : Prop := let '(x, y, z) := v in fin x /\ fin y /\ fin z.

(** A length whose square neither overflows nor vanishes: zero, or between 2^-400 and 2^400. *)
Definition squarable (d : R) : Prop := d = 0 \/ / 2 ^ 400 <= Rabs d <= 2 ^ 400.
Definition squarable3 (v : rvec) : Prop := let '(x, y, z) := v in squarable x /\ squarable y /\ squarable z.

(** What is asked of atan2: an angle of at most half a turn, as a double, for any two finite arguments. *)
Definition half_turn (atan2 : b64 -> b64 -> b64) (half : b64) : Prop :=
  forall y x, fin y -> fin x -> fin (atan2 y x) /\ Rabs (toR (atan2 y x)) <= toR half.
