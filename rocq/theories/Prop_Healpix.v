(** Property theorems C18-C24: HEALPix pixel numbering. *)
From Coq Require Import ZArith List Bool Reals Lia.
From Flocq Require Import IEEE754.BinarySingleNaN.
From Verif Require Import CLib FloatModel HealpixModel HealpixAngModel HealpixRealModel HealpixFloatModel HealpixSpec FloatLemmas HealpixFloatSpec.
From Verif Require Import HealpixProofs1 HealpixProofs2 HealpixProofs6 HealpixProofs7 HealpixProofs8 HealpixProofs9 HealpixProofs14.
Import ListNotations.
Open Scope Z_scope.

(** C18: the nested number of (x, y, face) is face * nside^2 plus the interleaved bits of x and y; both directions are
    inverse to one another.  32-bit routines up to nside 2^13, 64-bit ones up to 2^29 (the largest without overflow). *)
Theorem C18_nest_encode : forall nside x y f, power_of_two_upto 13 nside -> on_grid nside x y f ->
  exists q, xyf2nest nside x y f = Ok (f * nside * nside + q) /\ interleaved q x y /\
    valid_pixel nside (f * nside * nside + q) /\ nest2xyf nside (f * nside * nside + q) = Ok (x, y, f).
Proof. exact nest_encode. Qed.
Print Assumptions C18_nest_encode.
Theorem C18_nest_decode : forall nside p, power_of_two_upto 13 nside -> valid_pixel nside p ->
  exists x y f, nest2xyf nside p = Ok (x, y, f) /\ on_grid nside x y f /\ xyf2nest nside x y f = Ok p.
Proof. exact nest_decode. Qed.
Print Assumptions C18_nest_decode.
Theorem C18_nest_encode64 : forall nside x y f, power_of_two_upto 29 nside -> on_grid nside x y f ->
  exists q, xyf2nest64 nside x y f = Ok (f * nside * nside + q) /\ interleaved q x y /\
    valid_pixel nside (f * nside * nside + q) /\ nest2xyf64 nside (f * nside * nside + q) = Ok (x, y, f).
Proof. exact nest_encode64. Qed.
Print Assumptions C18_nest_encode64.
Theorem C18_nest_decode64 : forall nside p, power_of_two_upto 29 nside -> valid_pixel nside p ->
  exists x y f, nest2xyf64 nside p = Ok (x, y, f) /\ on_grid nside x y f /\ xyf2nest64 nside x y f = Ok p.
Proof. exact nest_decode64. Qed.
Print Assumptions C18_nest_decode64.
Example C18_example : power_of_two_upto 13 256 /\ on_grid 256 37 201 7 /\
  xyf2nest 256 37 201 7 = Ok 500883 /\ nest2xyf 256 500883 = Ok (37, 201, 7) /\
  xyf2nest64 536870912 123456789 98765432 11 = Ok 3186219011697879953 /\
  nest2xyf64 536870912 3186219011697879953 = Ok (123456789, 98765432, 11).
Proof.
  split; [exists 8; split; [lia|reflexivity]|]. split; [unfold on_grid; lia|]. vm_compute. repeat split.
Qed.

(** C19: ring numbers.  Pixels of ring 1 come first, then those of ring 2 ...; every number of the ring is used once. *)
Theorem C19_ring_encode : forall n x y f, 1 <= n -> on_grid n x y f ->
  exists p, xyf2ring n x y f = Ok p /\ valid_pixel n p /\
    1 <= ring_of n x y f < 4 * n /\
    pixels_before n (Z.to_nat (ring_of n x y f - 1)) <= p
      < pixels_before n (Z.to_nat (ring_of n x y f - 1)) + ring_length n (ring_of n x y f).
Proof. exact ring_encode. Qed.
Print Assumptions C19_ring_encode.
Theorem C19_ring_roundtrip : forall n x y f, 1 <= n -> 12 * n * n < 2147483648 -> on_grid n x y f ->
  forall p, xyf2ring n x y f = Ok p -> ring2xyf n p = Ok (x, y, f).
Proof. exact ring_roundtrip. Qed.
Print Assumptions C19_ring_roundtrip.
Theorem C19_ring_decode : forall n p, 1 <= n -> 12 * n * n < 2147483648 -> valid_pixel n p ->
  exists x y f, ring2xyf n p = Ok (x, y, f) /\ on_grid n x y f /\ xyf2ring n x y f = Ok p.
Proof. exact ring_decode. Qed.
Print Assumptions C19_ring_decode.
Theorem C19_ring_roundtrip64 : forall n x y f, 1 <= n <= 2 ^ 29 -> on_grid n x y f ->
  forall p, xyf2ring64 n x y f = Ok p -> ring2xyf64 n p = Ok (x, y, f).
Proof. exact ring_roundtrip64. Qed.
Print Assumptions C19_ring_roundtrip64.
Theorem C19_ring_decode64 : forall n p, 1 <= n <= 2 ^ 29 -> valid_pixel n p ->
  exists x y f, ring2xyf64 n p = Ok (x, y, f) /\ on_grid n x y f /\ xyf2ring64 n x y f = Ok p.
Proof. exact ring_decode64. Qed.
Print Assumptions C19_ring_decode64.
Example C19_example : on_grid 3 2 1 5 /\ ring_of 3 2 1 5 = 5 /\ pixels_before 3 4 = 36 /\ ring_length 3 5 = 12 /\
  xyf2ring 3 2 1 5 = Ok 39 /\ ring2xyf 3 39 = Ok (2, 1, 5) /\ xyf2ring 3 0 0 11 = Ok 107 /\ ring2xyf 3 107 = Ok (0, 0, 11).
Proof. split; [unfold on_grid; lia|]. vm_compute. repeat split. Qed.

(** C20 *)
Theorem C20_nest_ring_nest : forall n p, power_of_two_upto 13 n -> valid_pixel n p ->
  exists q, nest2ring n p = Ok q /\ valid_pixel n q /\ ring2nest n q = Ok p.
Proof. exact nest_ring_nest. Qed.
Print Assumptions C20_nest_ring_nest.
Theorem C20_ring_nest_ring : forall n q, power_of_two_upto 13 n -> valid_pixel n q ->
  exists p, ring2nest n q = Ok p /\ valid_pixel n p /\ nest2ring n p = Ok q.
Proof. exact ring_nest_ring. Qed.
Print Assumptions C20_ring_nest_ring.
Theorem C20_nest_ring_nest64 : forall n p, power_of_two_upto 29 n -> valid_pixel n p ->
  exists q, nest2ring64 n p = Ok q /\ valid_pixel n q /\ ring2nest64 n q = Ok p.
Proof. exact nest_ring_nest64. Qed.
Print Assumptions C20_nest_ring_nest64.
Theorem C20_ring_nest_ring64 : forall n q, power_of_two_upto 29 n -> valid_pixel n q ->
  exists p, ring2nest64 n q = Ok p /\ valid_pixel n p /\ nest2ring64 n p = Ok q.
Proof. exact ring_nest_ring64. Qed.
Print Assumptions C20_ring_nest_ring64.
Theorem C20_not_power_of_two : forall n p, 1 <= n -> (forall a, 0 <= a -> n <> 2 ^ a) -> 
  nest2ring n p = Ok (-1) /\ ring2nest n p = Ok (-1) /\ nest2ring64 n p = Ok (-1) /\ ring2nest64 n p = Ok (-1).
Proof. exact not_power. Qed.
Print Assumptions C20_not_power_of_two.
Example C20_example : nest2ring 4 100 = Ok 113 /\ ring2nest 4 113 = Ok 100 /\ nest2ring 6 100 = Ok (-1) /\
  nest2ring64 536870912 3186219011697879953 = Ok 3359999082264985371 /\ ring2nest64 536870912 3359999082264985371 = Ok 3186219011697879953.
Proof. vm_compute. repeat split. Qed.

(** C21: within the range of [int], the answer is the root or -1 as stated. *)
Theorem C21_npix_to_nside : forall npix, 0 <= npix < 12 * 2147483648 ->
  exists r, npix2nside npix = Ok r /\ ((0 <= r /\ npix = 12 * r * r) \/ (r = -1 /\ forall n, npix <> 12 * n * n)).
Proof. exact npix_ok. Qed.
Print Assumptions C21_npix_to_nside.
Theorem C21_npix_to_nside64 : forall npix, 0 <= npix <= 2 ^ 55 ->
  exists r, npix2nside64 npix = Ok r /\ ((0 <= r /\ npix = 12 * r * r) \/ (r = -1 /\ forall n, npix <> 12 * n * n)).
Proof. exact npix_ok64. Qed.
Print Assumptions C21_npix_to_nside64.
Theorem C21_powers64 : forall n, power_of_two_upto 29 n -> npix2nside64 (nside2npix64 n) = Ok n.
Proof. exact npix_power64. Qed.
Print Assumptions C21_powers64.
(** The argument is a [long], the square root takes an [int]: 12 * 65536^2 is not recognised, larger counts and negative
    ones make the conversion of a NaN to an integer (undefined). *)
Theorem C21_npix_truncated_refuted : exists n, npix2nside (nside2npix n) = Ok (-1) /\ nside2npix n = 12 * n * n.
Proof. exists 65536. vm_compute. split; reflexivity. Qed.
Print Assumptions C21_npix_truncated_refuted.
Theorem C21_npix_undefined_refuted : exists n m, (exists r, npix2nside (nside2npix n) = UB r) /\ m < 0 /\ exists r, npix2nside m = UB r.
Proof. exists 46341, (-24). split; [eexists; vm_compute; reflexivity|]. split; [reflexivity|]. eexists; vm_compute; reflexivity. Qed.
Print Assumptions C21_npix_undefined_refuted.
(** 64-bit version: the quotient is rounded to a double, so a genuine pixel count is rejected. *)
Theorem C21_npix64_rounded_refuted : exists n, npix2nside64 (nside2npix64 n) = Ok (-1) /\ nside2npix64 n = 12 * n * n /\ 1 <= n < 2 ^ 29.
Proof. exists 536870911. vm_compute. repeat split; discriminate. Qed.
Print Assumptions C21_npix64_rounded_refuted.
Example C21_example : npix2nside 786432 = Ok 256 /\ npix2nside 786433 = Ok (-1) /\ nside2npix 256 = 786432 /\
  npix2nside64 (nside2npix64 1000003) = Ok 1000003.
Proof. vm_compute. repeat split. Qed.

(** C22: every direction gets a valid pixel, unless phi reduces to the last double below 2 pi and z is within 1e-14 of the
    lower limit of the belt or beyond. *)
Theorem C22_valid_pixel : forall nside z phi, power_of_two_upto 13 nside -> is_finite z = true -> is_finite phi = true ->
  (Rabs (B2R z) <= 1)%R ->
  ~ (B2R (fmodulo phi twopi) = B2R last_phi /\ (B2R z < - (66666666666666 / 100000000000000))%R) ->
  exists p, ang2pix_nest_z_phi nside z phi = Ok p /\ valid_pixel nside p.
Proof. exact pixel_ok. Qed.
Print Assumptions C22_valid_pixel.
(** At that corner the face number 12 is produced: pixel 830122 of 786432. *)
Theorem C22_pixel_out_of_range_refuted : exists z phi p, B2SF z = B2SF (Bopp twothird) /\ B2SF phi = B2SF last_phi /\
  ang2pix_nest_z_phi 256 z phi = Ok p /\ ~ valid_pixel 256 p.
Proof.
  exists (Bopp twothird), (dyadic 7074237752028439 (-50)), 830122. split; [reflexivity|]. split; [vm_compute; reflexivity|].
  split; [vm_compute; reflexivity|]. unfold valid_pixel. lia.
Qed.
Print Assumptions C22_pixel_out_of_range_refuted.
Example C22_example : ang2pix_nest_z_phi 256 (lit 5 10) (lit 21 10) = Ok 99734 /\
  ang2pix_nest_z_phi 256 (lit (-9) 10) (lit (-3) 10) = Ok 726921.
Proof. vm_compute. split; reflexivity. Qed.

(** C23: the functions a program calls, with any [cos] and [acos] correct to 10^-12, in double arithmetic. *)
Theorem C23_ring : forall fc fa n p, good_cos fc -> good_acos fa -> 1 <= n -> 12 * n * n < 2147483648 -> valid_pixel n p ->
  exists theta phi, pix2ang_ring fa n p = Ok (theta, phi) /\ ang2pix_ring fc n theta phi = Ok (Some p).
Proof. exact public_ring. Qed.
Print Assumptions C23_ring.
Theorem C23_nest : forall fc fa n p, good_cos fc -> good_acos fa -> power_of_two_upto 13 n -> valid_pixel n p ->
  exists theta phi, pix2ang_nest fa n p = Ok (theta, phi) /\ ang2pix_nest fc n theta phi = Ok (Some p).
Proof. exact public_nest. Qed.
Print Assumptions C23_nest.
Example C23_library_exists : exists fc fa, good_cos fc /\ good_acos fa.
Proof. exact good_library. Qed.
(** The doubles of the centres are those of the exact centres, and lead back without any library function. *)
Theorem C23_centre_ring : forall n p, 1 <= n -> 12 * n * n < 2147483648 -> valid_pixel n p ->
  exists z phi z0 phi0, pix2ang_ring_z_phi n p = Ok (z, phi) /\ pix2ang_ring_real n p = Ok (z0, phi0)
    /\ fin z /\ fin phi /\ (Rabs (toR z - z0) <= 1 / 10 ^ 11)%R /\ (Rabs (toR phi - phi0) <= 1 / 10 ^ 7)%R /\ ang2pix_ring_z_phi n z phi = Ok p.
Proof. exact roundtrip_ring. Qed.
Print Assumptions C23_centre_ring.
Theorem C23_centre_nest : forall n p, power_of_two_upto 13 n -> valid_pixel n p ->
  exists z phi z0 phi0, pix2ang_nest_z_phi n p = Ok (z, phi) /\ pix2ang_nest_real n p = Ok (z0, phi0)
    /\ fin z /\ fin phi /\ (Rabs (toR z - z0) <= 1 / 10 ^ 11)%R /\ (Rabs (toR phi - phi0) <= 1 / 10 ^ 7)%R /\ ang2pix_nest_z_phi n z phi = Ok p.
Proof. exact roundtrip_nest. Qed.
Print Assumptions C23_centre_nest.
(** Every direction close to the centre is in the pixel. *)
Theorem C23_near_ring : forall n p z0 phi0 z phi, 1 <= n -> 12 * n * n < 2147483648 -> valid_pixel n p -> pix2ang_ring_real n p = Ok (z0, phi0) ->
  close_direction z phi z0 phi0 -> ang2pix_ring_z_phi n z phi = Ok p.
Proof. exact lookup_ring. Qed.
Print Assumptions C23_near_ring.
Theorem C23_near_nest : forall n p z0 phi0 z phi, power_of_two_upto 13 n -> valid_pixel n p -> pix2ang_nest_real n p = Ok (z0, phi0) ->
  close_direction z phi z0 phi0 -> ang2pix_nest_z_phi n z phi = Ok p.
Proof. exact lookup_nest. Qed.
Print Assumptions C23_near_nest.
(** The same in exact arithmetic. *)
Theorem C23_exact_ring : forall n p, 1 <= n -> 12 * n * n < 2147483648 -> valid_pixel n p ->
  exists z phi, pix2ang_ring_real n p = Ok (z, phi) /\ ang2pix_ring_real n z phi = p.
Proof. exact centre_roundtrip_ring. Qed.
Print Assumptions C23_exact_ring.
Theorem C23_exact_nest : forall n p, power_of_two_upto 13 n -> valid_pixel n p ->
  exists z phi, pix2ang_nest_real n p = Ok (z, phi) /\ ang2pix_nest_real n z phi = Ok p.
Proof. exact centre_roundtrip_nest. Qed.
Print Assumptions C23_exact_nest.
(** In doubles: the last pixel but one of nside 1024 (nested), and pixel 7 of nside 13377 (ring), a ring of 8 pixels next to the pole. *)
Example C23_doubles : match pix2ang_nest_z_phi 1024 12582910 with Ok (z, phi) => ang2pix_nest_z_phi 1024 z phi | UB r => UB r end = Ok 12582910
  /\ match pix2ang_ring_z_phi 13377 7 with Ok (z, phi) => ang2pix_ring_z_phi 13377 z phi | UB r => UB r end = Ok 7.
Proof. vm_compute. split; reflexivity. Qed.
(** Pixel 4 of the 48 of nside 2 (ring 2, first position) has its centre at z = 2/3, phi = pi/8. *)
Example C23_example : exists z phi, pix2ang_ring_real 2 4 = Ok (z, phi) /\ (z = 2 / 3 /\ phi = PI / 8)%R.
Proof.
  unfold pix2ang_ring_real. cbn. eexists. eexists. split; [reflexivity|]. split; field.
Qed.

(** C24 *)
Theorem C24_nest_agree : forall n x y f, power_of_two_upto 13 n -> on_grid n x y f -> xyf2nest64 n x y f = xyf2nest n x y f.
Proof. exact nest_agree. Qed.
Print Assumptions C24_nest_agree.
Theorem C24_unnest_agree : forall n p, power_of_two_upto 13 n -> valid_pixel n p -> nest2xyf64 n p = nest2xyf n p.
Proof. exact unnest_agree. Qed.
Print Assumptions C24_unnest_agree.
Theorem C24_ring_agree : forall n x y f, xyf2ring64 n x y f = xyf2ring n x y f.
Proof. exact xyf2ring_same. Qed.
Print Assumptions C24_ring_agree.
Theorem C24_unring_agree : forall n p, 1 <= n -> 12 * n * n < 2147483648 -> valid_pixel n p -> ring2xyf64 n p = ring2xyf n p.
Proof. exact unring_agree. Qed.
Print Assumptions C24_unring_agree.
Theorem C24_permutations_agree : forall n p, power_of_two_upto 13 n -> valid_pixel n p ->
  nest2ring64 n p = nest2ring n p /\ ring2nest64 n p = ring2nest n p.
Proof. exact nest2ring_agree. Qed.
Print Assumptions C24_permutations_agree.
Example C24_example : nest2ring 4 100 = Ok 113 /\ nest2ring64 4 100 = Ok 113 /\ ring2xyf 3 39 = Ok (2, 1, 5) /\ ring2xyf64 3 39 = Ok (2, 1, 5).
Proof. vm_compute. repeat split. Qed.
