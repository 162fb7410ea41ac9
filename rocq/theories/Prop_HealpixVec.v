(** Property theorems C117: vectors, angles and pixels in double arithmetic. *)
From Coq Require Import ZArith List Bool Reals Lia Lra.
From Flocq Require Import Core IEEE754.BinarySingleNaN.
From Verif Require Import CLib FloatModel HealpixModel HealpixAngModel HealpixVecModel HealpixSpec FloatLemmas HealpixFloatSpec HealpixAng64Spec HealpixVecSpec HealpixProofs22 HealpixProofs23.
Import ListNotations.
Open Scope Z_scope.

(** C117: the vector of a pixel leads back to the pixel, with any [cos], [sin] and [atan2] correct to 10^-12: every nside whose pixel numbers fit into 31 bits... *)
Theorem C117_ring : forall fc fs ft n p, good_cos_turn fc -> good_sin_turn fs -> good_angle ft -> 1 <= n -> 12 * n * n < 2147483648 -> valid_pixel n p ->
  exists x y z, pix2vec_ring fc fs n p = Ok (x, y, z) /\ vec2pix_ring ft n x y z = Ok p.
Proof. exact trip_ring. Qed.
Print Assumptions C117_ring.
Theorem C117_nest : forall fc fs ft n p, good_cos_turn fc -> good_sin_turn fs -> good_angle ft -> power_of_two_upto 13 n -> valid_pixel n p ->
  exists x y z, pix2vec_nest fc fs n p = Ok (x, y, z) /\ vec2pix_nest ft n x y z = Ok p.
Proof. exact trip_nest. Qed.
Print Assumptions C117_nest.
(** ... and every nside of the 64-bit functions. *)
Theorem C117_ring64 : forall fc fs ft n p, good_cos_turn fc -> good_sin_turn fs -> good_angle ft -> 1 <= n <= 2 ^ 29 -> valid_pixel n p ->
  exists x y z, pix2vec_ring64 fc fs n p = Ok (x, y, z) /\ vec2pix_ring64 ft n x y z = Ok p.
Proof. exact trip_ring64. Qed.
Print Assumptions C117_ring64.
Theorem C117_nest64 : forall fc fs ft n p, good_cos_turn fc -> good_sin_turn fs -> good_angle ft -> power_of_two_upto 29 n -> valid_pixel n p ->
  exists x y z, pix2vec_nest64 fc fs n p = Ok (x, y, z) /\ vec2pix_nest64 ft n x y z = Ok p.
Proof. exact trip_nest64. Qed.
Print Assumptions C117_nest64.
Example C117_library_exists : exists fc fs ft, good_cos_turn fc /\ good_sin_turn fs /\ good_angle ft.
Proof. exact good_vectors. Qed.

(** Vectors of any length from 2^-300 to 2^300 close to the centre of a pixel. *)
Theorem C117_near_ring : forall ft n p i j x y z, good_angle ft -> 1 <= n -> 12 * n * n < 2147483648 -> ring_place n p i j ->
  close_vector x y z (ring_height n i) (ring_longitude_of n i j) -> vec2pix_ring ft n x y z = Ok p.
Proof. exact vec_ring. Qed.
Print Assumptions C117_near_ring.
Theorem C117_near_nest : forall ft n p q i j x y z, good_angle ft -> power_of_two_upto 13 n -> valid_pixel n p -> nest2ring n p = Ok q -> ring_place n q i j ->
  close_vector x y z (ring_height n i) (ring_longitude_of n i j) -> vec2pix_nest ft n x y z = Ok p.
Proof. exact vec_nest. Qed.
Print Assumptions C117_near_nest.
Theorem C117_near_ring64 : forall ft n p i j x y z, good_angle ft -> 1 <= n <= 2 ^ 29 -> ring_place n p i j ->
  close_vector x y z (ring_height n i) (ring_longitude_of n i j) -> vec2pix_ring64 ft n x y z = Ok p.
Proof. exact vec_ring64. Qed.
Print Assumptions C117_near_ring64.
Theorem C117_near_nest64 : forall ft n p q i j x y z, good_angle ft -> power_of_two_upto 29 n -> valid_pixel n p -> nest2ring64 n p = Ok q -> ring_place n q i j ->
  close_vector x y z (ring_height n i) (ring_longitude_of n i j) -> vec2pix_nest64 ft n x y z = Ok p.
Proof. exact vec_nest64. Qed.
Print Assumptions C117_near_nest64.
(** The vector (3, 0, 0) is the centre of pixel 4 of nside 1, the first of the equator. *)
Example C117_example : ring_place 1 4 2 1 /\ close_vector (of_int 3) (of_int 0) (of_int 0) (ring_height 1 2) (ring_longitude_of 1 2 1)
  /\ vec2pix_ring (fun _ _ => of_int 0) 1 (of_int 3) (of_int 0) (of_int 0) = Ok 4.
Proof.
  split; [repeat split; unfold ring_length; cbn; lia|]. split; [|vm_compute; reflexivity]. assert (H : (ring_height 1 2 = 0)%R) by (unfold ring_height; cbn; field). assert (L : (ring_longitude_of 1 2 1 = 0)%R) by (unfold ring_longitude_of, ring_length; cbn; field). rewrite H, L.
  assert (T : forall k, -100 <= k <= 100 -> fin (of_int k) /\ (toR (of_int k) = IZR k)%R) by (intros k K; apply of_int_R; lia). destruct (T 3 ltac:(lia)) as [F3 E3]. destruct (T 0 ltac:(lia)) as [F0 E0].
  unfold close_vector. rewrite E3, E0, cos_0, sin_0, Rmult_0_l, Rminus_0_r, sqrt_1. split; [exact F3|]. split; [exact F0|]. split; [exact F0|]. exists 3%R. split; [|split; [|split]; rewrite ?Rmult_1_r, ?Rmult_1_l, ?Rmult_0_r, ?Rminus_0_r, ?Rminus_eq_0, Rabs_R0; lra].
  split; [apply Rle_trans with (bpow radix2 1); [apply bpow_le; lia|change (bpow radix2 1) with 2%R; lra]|apply Rle_trans with (bpow radix2 2); [change (bpow radix2 2) with 4%R; lra|apply bpow_le; lia]].
Qed.

(** Angles to a vector and back, at least 10^-9 away from the poles: the colatitude to 2 parts in 10^11, the longitude up to whole turns to 10^-11 and between 0 and the double [twopi]. *)
Theorem C117_angles : forall fc fs ft theta phi, good_cos_turn fc -> good_sin_turn fs -> good_angle ft -> fin theta -> fin phi ->
  (0 <= toR theta <= PI -> 1 / 10 ^ 9 <= sin (toR theta) -> Rabs (toR phi) <= 7 ->
  let '(x, y, z) := ang2vec fc fs theta phi in let '(theta', phi') := vec2ang ft x y z in
  fin theta' /\ Rabs (toR theta' - toR theta) <= 2 / 10 ^ 11 /\ fin phi' /\ 0 <= toR phi' <= toR twopi /\ exists k : Z, Rabs (toR phi' - (toR phi + IZR k * (2 * PI))) <= 1 / 10 ^ 11)%R.
Proof. exact there_and_back. Qed.
Print Assumptions C117_angles.
(** A function returning -pi/2 for (-1, 0): the longitude 3 pi / 2. *)
Example C117_wraps : exists phi, vec2ang (fun y x => if flt y (of_int 0) then dyadic (-7074237752028440) (-52) else of_int 0) (of_int 0) (of_int (-1)) (of_int 0) = (of_int 0, phi)
  /\ flt (lit 47 10) phi = true /\ flt phi (lit 472 100) = true.
Proof. eexists. split; [reflexivity|]. split; vm_compute; reflexivity. Qed.

(** Finding: the length of the vector is computed without scaling.  A short vector has length 0 and the quotient is infinite or not a number: undefined conversion to an integer.
    A long one has infinite length and is taken for a vector of the equator: of (0, 0, 2^600), the north pole, pixel 88 of nside 4 instead of pixel 0. *)
Theorem C117_length_refuted : exists x y z x' y' z' : b64, fin x /\ fin y /\ fin z /\ (0 < toR z)%R /\ fin x' /\ fin y' /\ fin z' /\ (0 < toR z')%R /\ toR x' = 0%R /\ toR y' = 0%R
  /\ forall ft, ft y x = of_int 0 -> ft y' x' = of_int 0 ->
     vec2pix_ring ft 4 x y z = UB Overflow /\ vec2pix_nest ft 4 x y z = UB Overflow /\ vec2pix_ring64 ft 4 x y z = UB Overflow /\ vec2pix_nest64 ft 4 x y z = UB Overflow
     /\ vec2pix_ring ft 4 x' y' z' = Ok 88 /\ vec2pix_ring64 ft 4 x' y' z' = Ok 88 /\ vec2pix_ring ft 4 x' y' (of_int 1) = Ok 0 /\ vec2pix_ring64 ft 4 x' y' (of_int 1) = Ok 0.
Proof. exact length_unscaled. Qed.
Print Assumptions C117_length_refuted.
