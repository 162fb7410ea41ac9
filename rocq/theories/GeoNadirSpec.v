(** What is asked of sine and cosine in the best of cases, without reference to the model. *)
From Coq Require Import ZArith Reals.
From Flocq Require Import IEEE754.BinarySingleNaN.
From Verif Require Import CLib FloatModel FloatLemmas.
Open Scope R_scope.

(** A function of <math.h> that returns the double nearest to the true value. *)
Definition correctly_rounded (f : b64 -> b64) (g : R -> R) : Prop := forall x, fin x -> fin (f x) /\ toR (f x) = RN (g (toR x)).

(** What is asked of atan: an angle of at most a quarter of a turn, as a double, for every argument but a NaN. *)
Definition quarter_turn (atan : b64 -> b64) (half : b64) : Prop :=
  forall z, z <> B754_nan -> fin (atan z) /\ Rabs (toR (atan z)) <= toR half / 2.

(** A sine or cosine that is right to a unit in the sixteenth decimal place and never beyond 1. *)
Definition accurate (f : b64 -> b64) (g : R -> R) : Prop :=
  forall x, fin x -> fin (f x) /\ Rabs (toR (f x)) <= 1 /\ Rabs (toR (f x) - g (toR x)) <= / 2 ^ 53.
