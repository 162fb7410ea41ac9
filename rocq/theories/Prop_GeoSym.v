(** Property theorems C127, in binary64: the separation of two directions. *)
From Coq Require Import ZArith Reals.
From Flocq Require Import IEEE754.BinarySingleNaN.
From Verif Require Import CLib FloatModel FloatLemmas ArithModel GeoModel GeoSym GeoSymRuns.
Open Scope R_scope.

(** C127: the separation does not depend on the order of the directions, to the last bit and for all doubles (infinities and NaN
    included), whatever <math.h> returns, if only its sine is odd ... *)
Theorem C127_symmetric64 : forall m t1 p1 t2 p2, (forall x, m_sin m (fopp x) = fopp (m_sin m x)) ->
  skysep_h (machine m) t1 p1 t2 p2 = skysep_h (machine m) t2 p2 t1 p1.
Proof. exact skysep_swap. Qed.
Print Assumptions C127_symmetric64.
(** ... and it is zero for equal directions, exactly. *)
Theorem C127_self64 : forall m (t p : b64), Rabs (toR t) <= 1000 -> fin t -> fin p -> fin (m_cos m p) -> Rabs (toR (m_cos m p)) <= 1 ->
  m_sin m (B754_zero false) = B754_zero false -> m_asin m (B754_zero false) = B754_zero false -> skysep_h (machine m) t p t p = B754_zero false.
Proof. exact skysep_self. Qed.
Print Assumptions C127_self64.
(** The sine has to be odd: with one that is 0 at 1/2 and 1 at -1/2 the order matters. *)
Example C127_odd_sine_needed : exists m, B2SF (skysep_h (machine m) (round_ratio 0 1) (round_ratio 0 1) (round_ratio 0 1) (round_ratio 1 1)) <>
  B2SF (skysep_h (machine m) (round_ratio 0 1) (round_ratio 1 1) (round_ratio 0 1) (round_ratio 0 1)).
Proof. exact odd_needed. Qed.
Example C127_example64 : exists m, (forall x, m_sin m (fopp x) = fopp (m_sin m x)) /\ m_sin m (B754_zero false) = B754_zero false /\
  B2SF (skysep_h (machine m) (round_ratio 0 1) (round_ratio 0 1) (round_ratio 0 1) (round_ratio 1 1)) <> B2SF (B754_zero false : b64).
Proof. exact odd_library. Qed.
