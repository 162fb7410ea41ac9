(** Model of the conversions between vectors and pixels of /repo/HealpixC/chealpix.c in double arithmetic, with the library's [cos], [sin] and [atan2]. *)
From Coq Require Import ZArith List Bool.
From Flocq Require Import IEEE754.BinarySingleNaN.
From Verif Require Import CLib FloatModel HealpixModel HealpixAngModel HealpixRealModel HealpixFloatModel HealpixAng64Model.
Open Scope Z_scope.

(** chealpix.c:430, 435, 844, 851: the length of a vector; chealpix.c:404, 846, 853: the distance from the axis. *)
Definition axis_square (x y : b64) : b64 := fadd (fmul x x) (fmul y y).
Definition vec_length (x y z : b64) : b64 := fsqrt (fadd (axis_square x y) (fmul z z)).

Section Vectors.
Context (cos sin : b64 -> b64) (atan2 : b64 -> b64 -> b64).
(** chealpix.c:394-400 [ang2vec], 402-407 [vec2ang]. *)
Definition ang2vec (theta phi : b64) : b64 * b64 * b64 := let sz := sin theta in (fmul sz (cos phi), fmul sz (sin phi), cos theta).
Definition vec2ang (x y z : b64) : b64 * b64 :=
  let theta := atan2 (fsqrt (axis_square x y)) z in
  let phi := atan2 y x in
  (theta, if flt phi (of_int 0) then fadd phi twopi else phi).
(** chealpix.c:428-437 [vec2pix_ring], [vec2pix_nest]. *)
Definition vec2pix_ring (nside : Z) (x y z : b64) : res Z := ang2pix_ring_z_phi nside (fdiv z (vec_length x y z)) (atan2 y x).
Definition vec2pix_nest (nside : Z) (x y z : b64) : res Z := ang2pix_nest_z_phi nside (fdiv z (vec_length x y z)) (atan2 y x).
(** chealpix.c:454-457, 463-466, 872-875, 881-884: the vector of a height, a sine of the colatitude and a longitude. *)
Definition sine_of (z : b64) : b64 := fsqrt (fmul (fsub (of_int 1) z) (fadd (of_int 1) z)).
Definition make_vec (z s phi : b64) : b64 * b64 * b64 := (fmul s (cos phi), fmul s (sin phi), z).
(** chealpix.c:450-467 [pix2vec_ring], [pix2vec_nest]. *)
Definition pix2vec_ring (nside pix : Z) : res (b64 * b64 * b64) := t <- pix2ang_ring_z_phi nside pix ;; let '(z, phi) := t in Ok (make_vec z (sine_of z) phi).
Definition pix2vec_nest (nside pix : Z) : res (b64 * b64 * b64) := t <- pix2ang_nest_z_phi nside pix ;; let '(z, phi) := t in Ok (make_vec z (sine_of z) phi).
(** chealpix.c:842-855 [vec2pix_ring64], [vec2pix_nest64]. *)
Definition vec_sine64 (x y z : b64) : b64 := let len := vec_length x y z in if flt (lit 99 100) (Babs (fdiv z len)) then fdiv (fsqrt (axis_square x y)) len else of_int (-5).
Definition vec2pix_ring64 (nside : Z) (x y z : b64) : res Z := ang2pix_ring_z_phi64 nside (fdiv z (vec_length x y z)) (vec_sine64 x y z) (atan2 y x).
Definition vec2pix_nest64 (nside : Z) (x y z : b64) : res Z := ang2pix_nest_z_phi64 nside (fdiv z (vec_length x y z)) (vec_sine64 x y z) (atan2 y x).
(** chealpix.c:868-885 [pix2vec_ring64], [pix2vec_nest64]. *)
Definition vec_of64 (t : b64 * b64 * b64) : b64 * b64 * b64 := let '(z, s, phi) := t in make_vec z (if flt s (of_int (-2)) then sine_of z else s) phi.
Definition pix2vec_ring64 (nside pix : Z) : res (b64 * b64 * b64) := t <- pix2ang_ring_z_phi64 nside pix ;; Ok (vec_of64 t).
Definition pix2vec_nest64 (nside pix : Z) : res (b64 * b64 * b64) := t <- pix2ang_nest_z_phi64 nside pix ;; Ok (vec_of64 t).
End Vectors.
