(** Independent specification of the HEALPix numbering. *)
From Coq Require Import ZArith List Bool.
Open Scope Z_scope.

(** [p] carries the bits of [x] at its even and those of [y] at its odd positions. *)
Definition interleaved (p x y : Z) : Prop :=
  0 <= p /\ forall j, 0 <= j -> Z.testbit p (2 * j) = Z.testbit x j /\ Z.testbit p (2 * j + 1) = Z.testbit y j.

(** Pixel coordinates on one of the twelve faces. *)
Definition on_grid (nside x y f : Z) : Prop := 0 <= x < nside /\ 0 <= y < nside /\ 0 <= f < 12.
Definition valid_pixel (nside p : Z) : Prop := 0 <= p < 12 * nside * nside.

(** Resolutions of the nested scheme. *)
Definition power_of_two_upto (k : Z) (nside : Z) : Prop := exists a, 0 <= a <= k /\ nside = 2 ^ a.

(** The ring scheme: ring [i] (1 <= i < 4 nside, counted from the north pole) has [ring_length] pixels; the pixels of all
    rings before it come first. *)
Definition ring_length (nside i : Z) : Z := 4 * Z.min nside (Z.min i (4 * nside - i)).
Fixpoint pixels_before (nside : Z) (rings : nat) : Z :=
  match rings with
  | O => 0
  | S k => pixels_before nside k + ring_length nside (Z.of_nat k + 1)
  end.
(** Ring through the point (x, y) of a face: the rows of face centres are the rings nside, 2 nside, 3 nside. *)
Definition face_row (f : Z) : Z := f / 4 + 1.
Definition ring_of (nside x y f : Z) : Z := face_row f * nside + (nside - 1 - x) + (nside - 1 - y) - (nside - 1).
