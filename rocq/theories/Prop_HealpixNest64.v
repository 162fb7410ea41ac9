(** Property theorems C22 for the 64-bit routines: pixel numbers of the nested scheme for all directions in double arithmetic. *)
From Coq Require Import ZArith List Bool Reals Lia Lra.
From Flocq Require Import Core IEEE754.BinarySingleNaN.
From Verif Require Import CLib FloatModel HealpixModel HealpixAngModel HealpixFloatModel HealpixAng64Model HealpixSpec FloatLemmas HealpixAng64Spec HealpixProofs8 HealpixProofs25.
Import ListNotations.
Open Scope Z_scope.

(** C22 with 64-bit numbers, up to nside 2^29; the sine of the colatitude is -5 for "not given", or from 0 to 1/5 near the poles. *)
Theorem C22_valid_pixel64 : forall nside z s phi, power_of_two_upto 29 nside -> fin z -> fin phi -> (Rabs (toR z) <= 1)%R ->
  s = of_int (-5) \/ (fin s /\ (0 <= toR s <= 1 / 5)%R) ->
  ~ (toR (fmodulo phi twopi) = toR last_phi /\ (toR z < - (66666666666666 / 100000000000000))%R) ->
  exists p, ang2pix_nest_z_phi64 nside z s phi = Ok p /\ valid_pixel nside p.
Proof. exact pixel_ok64. Qed.
Print Assumptions C22_valid_pixel64.
(** The function a program calls, with any [cos] and [sin] that stay in their ranges. *)
Theorem C22_public64 : forall (fc fs : b64 -> b64) n theta phi, (forall x, fin x -> (0 <= toR x <= toR hp_pi)%R -> fin (fc x) /\ (Rabs (toR (fc x)) <= 1)%R) ->
  (forall x, fin x -> (0 <= toR x <= toR hp_pi)%R -> (98 / 100 <= Rabs (toR (fc x)))%R -> fin (fs x) /\ (0 <= toR (fs x) <= 1 / 5)%R) -> power_of_two_upto 29 n ->
  fin theta -> (0 <= toR theta <= toR hp_pi)%R -> fin phi -> ~ (toR (fmodulo phi twopi) = toR last_phi /\ (toR (fc theta) < - (66666666666666 / 100000000000000))%R) ->
  exists p, ang2pix_nest64 fc fs n theta phi = Ok (Some p) /\ valid_pixel n p.
Proof. exact nest_public64. Qed.
Print Assumptions C22_public64.
(** At that corner the number is beyond the last pixel at every resolution. *)
Theorem C22_out_of_range64_refuted : (fin (Bopp twothird) /\ (Rabs (toR (Bopp twothird)) <= 1)%R /\ fin last_phi) /\
  forall n, power_of_two_upto 29 n -> exists p, ang2pix_nest_z_phi64 n (Bopp twothird) (of_int (-5)) last_phi = Ok p /\ 12 * n * n <= p.
Proof. exact (conj (conj (proj1 corner_here) (conj (proj1 (proj2 corner_here)) (proj1 (proj2 (proj2 corner_here))))) corner_always). Qed.
Print Assumptions C22_out_of_range64_refuted.
Example C22_example64 : ang2pix_nest_z_phi64 536870912 (lit 5 10) (of_int (-5)) (lit 21 10) = Ok 438637611164722597 /\
  ang2pix_nest_z_phi64 536870912 (lit (-999) 1000) (lit 4 100) (lit (-3) 10) = Ok 3170869148751004668.
Proof. vm_compute. split; reflexivity. Qed.
