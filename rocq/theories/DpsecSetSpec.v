(** The Taylor series of the resonance equations, and histories of calls with given settings. *)
From Coq Require Import ZArith List Reals.
From Coquelicot Require Import Coquelicot.
From Verif Require Import CLib ArithModel OrbModel DeepModel DpsecSetModel.
Import ListNotations.
Open Scope R_scope.

(** F 0 + ... + F (m - 1) *)
Fixpoint sums (m : nat) (F : nat -> R) : R := match m with O => 0 | S m => sums m F + F m end.
(** The equations are lambda' = n + c and n' = f lambda, and in the derivatives of f lambda the rate n + c is held: the k-th derivative of
    f lambda in the time is f^(k) lambda (n + c)^k.  The speed n and the angle lambda after the time h, by the series of order N. *)
Definition taylor_speed (f : R -> R) (N : nat) (c h n lambda : R) : R :=
  n + sums N (fun k => h ^ (k + 1) / INR (fact (k + 1)) * (Derive_n f k lambda * (n + c) ^ k)).
Definition taylor_angle (f : R -> R) (N : nat) (c h n lambda : R) : R :=
  lambda + h * (n + c) + sums (N - 1) (fun k => h ^ (k + 2) / INR (fact (k + 2)) * (Derive_n f k lambda * (n + c) ^ k)).

(** The fields that survive a call (deep.c:184, 431-433) after calls of SDP4 for the times [ts], each ended and without undefined behaviour,
    following SDP4_init, with the same settings. *)
Inductive called_with (A : arith) (z : settings A) (t : dorb A) (g : deep A) : list (num A) -> dstate A -> Prop :=
| called_with_0 : called_with A z t g [] (fresh A g)
| called_with_1 : forall ts n s v v' out, called_with A z t g ts v -> SDP4_deep_with A n z s t g v = Ok (Some (v', out)) ->
    called_with A z t g (s :: ts) v'.
