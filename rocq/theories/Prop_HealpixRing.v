(** Property theorems C118: pixel numbers of the ring scheme for all directions in double arithmetic. *)
From Coq Require Import ZArith List Bool Reals Lia Lra.
From Flocq Require Import Core IEEE754.BinarySingleNaN.
From Verif Require Import CLib FloatModel HealpixModel HealpixAngModel HealpixFloatModel HealpixAng64Model HealpixSpec FloatLemmas HealpixAng64Spec HealpixProofs24.
Import ListNotations.
Open Scope Z_scope.

(** C118: for every nside but 2, every height from -1 to 1 and every finite longitude there is a pixel number, and it is one of the 12 nside^2, with 32-bit... *)
Theorem C118_valid_ring : forall n z phi, 1 <= n -> 12 * n * n < 2147483648 -> n <> 2 -> fin z -> fin phi -> (Rabs (toR z) <= 1)%R ->
  exists p, ang2pix_ring_z_phi n z phi = Ok p /\ valid_pixel n p.
Proof. exact ring_valid. Qed.
Print Assumptions C118_valid_ring.
(** ... and with 64-bit numbers; the sine of the colatitude is -5 for "not given", or from 0 to 1/5 near the poles. *)
Theorem C118_valid_ring64 : forall n z s phi, 1 <= n <= 2 ^ 29 -> n <> 2 -> fin z -> fin phi -> (Rabs (toR z) <= 1)%R ->
  s = of_int (-5) \/ (fin s /\ (0 <= toR s <= 1 / 5)%R) -> exists p, ang2pix_ring_z_phi64 n z s phi = Ok p /\ valid_pixel n p.
Proof. exact ring_valid64. Qed.
Print Assumptions C118_valid_ring64.
(** The function a program calls, with any [cos] whose values from 0 to pi are from -1 to 1. *)
Theorem C118_public : forall fc n theta phi, (forall x, fin x -> (0 <= toR x <= toR hp_pi)%R -> fin (fc x) /\ (Rabs (toR (fc x)) <= 1)%R) -> 1 <= n -> 12 * n * n < 2147483648 -> n <> 2 ->
  fin theta -> (0 <= toR theta <= toR hp_pi)%R -> fin phi -> exists p, ang2pix_ring fc n theta phi = Ok (Some p) /\ valid_pixel n p.
Proof. exact ring_public. Qed.
Print Assumptions C118_public.
(** With nside 2 the number is at most four outside the range. *)
Theorem C118_two : forall z phi, fin z -> fin phi -> (Rabs (toR z) <= 1)%R -> exists p, ang2pix_ring_z_phi 2 z phi = Ok p /\ -4 <= p < 52.
Proof. exact ring_two. Qed.
Print Assumptions C118_two.
(** nside 2: negative pixel numbers and numbers beyond the last pixel. *)
Theorem C118_negative_refuted : exists z phi, fin z /\ fin phi /\ (Rabs (toR z) <= 1)%R /\ ang2pix_ring_z_phi 2 z phi = Ok (-3) /\ ang2pix_ring_z_phi64 2 z (of_int (-5)) phi = Ok (-3) /\ ~ valid_pixel 2 (-3).
Proof. exact minus_three. Qed.
Print Assumptions C118_negative_refuted.
Theorem C118_beyond_refuted : exists z phi, fin z /\ fin phi /\ (Rabs (toR z) <= 1)%R /\ ang2pix_ring_z_phi 2 z phi = Ok 51 /\ ang2pix_ring_z_phi64 2 z (of_int (-5)) phi = Ok 51 /\ ~ valid_pixel 2 51.
Proof. exact fifty_one. Qed.
Print Assumptions C118_beyond_refuted.
(** nside 4: a pixel whose centre is more than 2 radians of longitude from the direction, both ways round. *)
Theorem C118_far_refuted : exists z phi p i j, fin z /\ fin phi /\ (0 <= toR z <= 1)%R /\ (0 <= toR phi <= 1)%R /\ ang2pix_ring_z_phi 4 z phi = Ok p /\ ang2pix_ring_z_phi64 4 z (of_int (-5)) phi = Ok p /\
  ring_place 4 p i j /\ (3 < ring_longitude_of 4 i j - toR phi < 4)%R.
Proof. exact far_away. Qed.
Print Assumptions C118_far_refuted.
(** The north pole, a point of the belt and a point of the southern cap, nside 1, 4 and 8. *)
Example C118_pole : map (fun n => ang2pix_ring_z_phi n (of_int 1) (of_int 6)) [1; 4; 8] = [Ok 3; Ok 3; Ok 3].
Proof. vm_compute. reflexivity. Qed.
Example C118_belt : map (fun n => ang2pix_ring_z_phi n (lit 1 2) (of_int (-1))) [1; 4; 8] = [Ok 3; Ok 53; Ok 202].
Proof. vm_compute. reflexivity. Qed.
Example C118_south : map (fun n => ang2pix_ring_z_phi64 n (lit (-9) 10) (of_int (-5)) (of_int 3)) [1; 4; 8] = [Ok 9; Ok 183; Ok 735].
Proof. vm_compute. reflexivity. Qed.
