(** Specification: the centres of HEALPix pixels after Gorski et al. (2005), doubles close to them at the finest resolutions, and how accurate the library functions have to be. *)
From Coq Require Import ZArith Bool Reals.
From Flocq Require Import Core IEEE754.BinarySingleNaN.
From Verif Require Import CLib FloatModel FloatLemmas HealpixSpec.
Open Scope R_scope.

(** Pixel [p] of the ring scheme is number [j] (from 1, eastwards) of ring [i] (from 1, southwards). *)
Definition ring_place (n p i j : Z) : Prop :=
  (1 <= i < 4 * n)%Z /\ (1 <= j <= ring_length n i)%Z /\ p = (pixels_before n (Z.to_nat (i - 1)) + j - 1)%Z.
(** Sine of the latitude of ring [i] (Gorski et al., equations 4 and 8). *)
Definition ring_height (n i : Z) : R :=
  if (i <? n)%Z then 1 - IZR (i * i) / IZR (3 * n * n)
  else if (i <=? 3 * n)%Z then 4 / 3 - IZR (2 * i) / IZR (3 * n)
  else - (1 - IZR ((4 * n - i) * (4 * n - i)) / IZR (3 * n * n)).
(** Longitude of number [j] of a ring (equations 5 and 9): equal spacing; every second ring of the belt starts on the meridian, all others half a pixel beyond. *)
Definition on_meridian (n i : Z) : bool := ((n <? i)%Z && (i <? 3 * n)%Z && Z.odd (i - n))%bool.
Definition ring_longitude_of (n i j : Z) : R := (IZR j - if on_meridian n i then 1 else 1 / 2) * (2 * PI / IZR (ring_length n i)).

(** The sine [s] of the colatitude: -5 stands for "not given", allowed away from the poles only. *)
Definition close_sine (s : b64) (z0 e : R) : Prop :=
  (s = of_int (-5) /\ Rabs z0 <= 991 / 1000) \/ (fin s /\ Rabs (toR s - sqrt (1 - z0 * z0)) <= e).
Definition close_direction64 (z s phi : b64) (z0 phi0 : R) : Prop :=
  fin z /\ fin phi /\ Rabs (toR z - z0) <= 3 / 10 ^ 12 /\ close_sine s z0 (3 / 10 ^ 12) /\
  exists turns : Z, (Z.abs turns <= 100)%Z /\ Rabs (toR phi - (phi0 + IZR turns * (2 * PI))) <= 4 / 10 ^ 11.

(** Library functions correct to 10^-12. *)
Definition good_sin (f : b64 -> b64) : Prop := forall x, fin x -> 0 <= toR x <= 4 -> fin (f x) /\ Rabs (toR (f x) - sin (toR x)) <= 1 / 10 ^ 12.
Definition good_atan2 (f : b64 -> b64 -> b64) : Prop := forall y x r t, fin y -> fin x -> 1 / 2 <= r <= 2 -> 0 <= t <= PI -> toR y = r * sin t -> toR x = r * cos t ->
  fin (f y x) /\ Rabs (toR (f y x) - t) <= 1 / 10 ^ 12.
