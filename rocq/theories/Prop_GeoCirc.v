(** Property theorems C126: atan_circ in binary64. *)
From Coq Require Import ZArith Reals.
From Flocq Require Import IEEE754.BinarySingleNaN.
From Verif Require Import CLib FloatModel FloatLemmas ArithModel GeoModel GeoNadirSpec GeoCirc.
Open Scope R_scope.

(** C126: for all finite x and y, including those whose quotient overflows, the angle is between 0 and TWOPI ... *)
Theorem C126_range : forall m x y, quarter_turn (m_atan m) PI64 -> fin x -> fin y ->
  fin (atan_circ (machine m) x y) /\ 0 <= toR (atan_circ (machine m) x y) <= toR TWOPI64.
Proof. exact circ_range. Qed.
Print Assumptions C126_range.
Example C126_example : forall m, B2SF (atan_circ (machine m) (round_ratio 0 1) (round_ratio (-5) 1)) = SpecFloat.S754_finite false 5305678314021330 (-50).
Proof. exact ex_circ64. Qed.
(** ... and TWOPI itself occurs, just below the x axis. *)
Theorem C126_below_whole_turn_refuted : exists x y, fin x /\ fin y /\ 0 < toR x /\ toR y < 0 /\
  forall m, fin (m_atan m (fdiv y x)) -> - / 2 ^ 52 <= toR (m_atan m (fdiv y x)) < 0 -> toR (atan_circ (machine m) x y) = toR TWOPI64.
Proof. exact circ_whole_turn. Qed.
Print Assumptions C126_below_whole_turn_refuted.
