(** Specification: doubles close to a direction, and how accurate [cos] and [acos] of the library have to be. *)
From Coq Require Import ZArith Reals.
From Flocq Require Import Core IEEE754.BinarySingleNaN.
From Verif Require Import CLib FloatModel FloatLemmas.
Open Scope R_scope.

(** The pair of doubles (z, phi) is close to the direction with sine of latitude [z0] and longitude [phi0]: the longitude up to whole turns. *)
Definition close_direction (z phi : b64) (z0 phi0 : R) : Prop :=
  fin z /\ fin phi /\ Rabs (toR z - z0) <= 1 / 10 ^ 10 /\
  exists turns : Z, (Z.abs turns <= 1000000)%Z /\ Rabs (toR phi - (phi0 + IZR turns * (2 * PI))) <= 5 / 10 ^ 7.

(** Library functions correct to 10^-12. *)
Definition good_cos (f : b64 -> b64) : Prop := forall x, fin x -> 0 <= toR x <= 4 -> fin (f x) /\ Rabs (toR (f x) - cos (toR x)) <= 1 / 10 ^ 12.
Definition good_acos (f : b64 -> b64) : Prop := forall x, fin x -> -1 <= toR x <= 1 -> fin (f x) /\ Rabs (toR (f x) - acos (toR x)) <= 1 / 10 ^ 12.
