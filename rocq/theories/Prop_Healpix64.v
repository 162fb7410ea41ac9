(** Property theorems C116: directions and 64-bit pixel numbers in double arithmetic. *)
From Coq Require Import ZArith List Bool Reals Lia.
From Flocq Require Import IEEE754.BinarySingleNaN.
From Verif Require Import CLib FloatModel HealpixModel HealpixAng64Model HealpixSpec FloatLemmas HealpixFloatSpec HealpixAng64Spec HealpixProofs18 HealpixProofs19.
Import ListNotations.
Open Scope Z_scope.

(** C116: the functions a program calls, with any [cos], [sin], [acos] and [atan2] correct to 10^-12, for every nside of the 64-bit interface. *)
Theorem C116_ring : forall fc fs fa ft n p, good_cos fc -> good_sin fs -> good_acos fa -> good_atan2 ft -> 1 <= n <= 2 ^ 29 -> valid_pixel n p ->
  exists theta phi, pix2ang_ring64 fa ft n p = Ok (theta, phi) /\ ang2pix_ring64 fc fs n theta phi = Ok (Some p).
Proof. exact public_ring64. Qed.
Print Assumptions C116_ring.
Theorem C116_nest : forall fc fs fa ft n p, good_cos fc -> good_sin fs -> good_acos fa -> good_atan2 ft -> power_of_two_upto 29 n -> valid_pixel n p ->
  exists theta phi, pix2ang_nest64 fa ft n p = Ok (theta, phi) /\ ang2pix_nest64 fc fs n theta phi = Ok (Some p).
Proof. exact public_nest64. Qed.
Print Assumptions C116_nest.
Example C116_library_exists : exists fc fs fa ft, good_cos fc /\ good_sin fs /\ good_acos fa /\ good_atan2 ft.
Proof. exact good_library64. Qed.
(** Without library functions: the doubles are those of the centre of the ring and position of the pixel, and lead back to it. *)
Theorem C116_centre_ring : forall n p, 1 <= n <= 2 ^ 29 -> valid_pixel n p ->
  exists i j z s phi, ring_place n p i j /\ pix2ang_ring_z_phi64 n p = Ok (z, s, phi)
    /\ fin z /\ (Rabs (toR z - ring_height n i) <= 1 / 10 ^ 14)%R /\ close_sine s (ring_height n i) (1 / 10 ^ 14)
    /\ fin phi /\ (Rabs (toR phi - ring_longitude_of n i j) <= 1 / 10 ^ 12)%R /\ ang2pix_ring_z_phi64 n z s phi = Ok p.
Proof. exact centre_ring_spec. Qed.
Print Assumptions C116_centre_ring.
Theorem C116_centre_nest : forall n p q, power_of_two_upto 29 n -> valid_pixel n p -> nest2ring64 n p = Ok q ->
  exists i j z s phi, ring_place n q i j /\ pix2ang_nest_z_phi64 n p = Ok (z, s, phi)
    /\ fin z /\ (Rabs (toR z - ring_height n i) <= 1 / 10 ^ 14)%R /\ close_sine s (ring_height n i) (1 / 10 ^ 14)
    /\ fin phi /\ (Rabs (toR phi - ring_longitude_of n i j) <= 1 / 10 ^ 12)%R /\ ang2pix_nest_z_phi64 n z s phi = Ok p.
Proof. exact centre_nest_spec. Qed.
Print Assumptions C116_centre_nest.
(** Every direction close to a centre is in the pixel. *)
Theorem C116_near_ring : forall n p i j z s phi, 1 <= n <= 2 ^ 29 -> ring_place n p i j ->
  close_direction64 z s phi (ring_height n i) (ring_longitude_of n i j) -> ang2pix_ring_z_phi64 n z s phi = Ok p.
Proof. exact near_ring_spec. Qed.
Print Assumptions C116_near_ring.
Theorem C116_near_nest : forall n p q i j z s phi, power_of_two_upto 29 n -> valid_pixel n p -> nest2ring64 n p = Ok q -> ring_place n q i j ->
  close_direction64 z s phi (ring_height n i) (ring_longitude_of n i j) -> ang2pix_nest_z_phi64 n z s phi = Ok p.
Proof. exact near_nest_spec. Qed.
Print Assumptions C116_near_nest.
(** In doubles at the finest resolution: a pixel of the second ring from the south pole, one of the belt, and a nested one. *)
Example C116_doubles :
  match pix2ang_ring_z_phi64 536870912 3458764513820540920 with Ok (z, s, phi) => ang2pix_ring_z_phi64 536870912 z s phi | UB r => UB r end = Ok 3458764513820540920
  /\ match pix2ang_ring_z_phi64 536870911 1234567890123456789 with Ok (z, s, phi) => ang2pix_ring_z_phi64 536870911 z s phi | UB r => UB r end = Ok 1234567890123456789
  /\ match pix2ang_nest_z_phi64 536870912 288230376151711743 with Ok (z, s, phi) => ang2pix_nest_z_phi64 536870912 z s phi | UB r => UB r end = Ok 288230376151711743.
Proof. vm_compute. repeat split. Qed.
(** Without the sine of the colatitude the height alone no longer finds the ring next to the pole at that resolution. *)
Example C116_sine_needed :
  match pix2ang_ring_z_phi64 536870912 6 with Ok (z, s, phi) => ang2pix_ring_z_phi64 536870912 z (of_int (-5)) phi | UB r => UB r end <> Ok 6.
Proof. vm_compute. discriminate. Qed.
(** Pixel 4 of nside 2 is the first of ring 2: z = 2/3, phi = pi/8; pixel 12 begins ring 3 on the meridian. *)
Example C116_example : ring_place 2 4 2 1 /\ (ring_height 2 2 = 2 / 3)%R /\ (ring_longitude_of 2 2 1 = PI / 8)%R
  /\ ring_place 2 12 3 1 /\ (ring_height 2 3 = 1 / 3)%R /\ (ring_longitude_of 2 3 1 = 0)%R.
Proof.
  assert (R1 : (ring_height 2 2 = 2 / 3)%R) by (unfold ring_height; cbn; field). assert (R2 : (ring_height 2 3 = 1 / 3)%R) by (unfold ring_height; cbn; field).
  assert (L1 : (ring_longitude_of 2 2 1 = PI / 8)%R) by (unfold ring_longitude_of, ring_length; cbn; field). assert (L2 : (ring_longitude_of 2 3 1 = 0)%R) by (unfold ring_longitude_of, ring_length; cbn; field).
  repeat split; try assumption; unfold ring_length; cbn; lia.
Qed.
