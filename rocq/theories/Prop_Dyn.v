(** C109 - the loader of the library of propagators (dynamic.c). *)
From Coq Require Import ZArith List Bool.
From Verif Require Import CLib DynModel DynSpec DynProofs1.
Import ListNotations.
Open Scope Z_scope.

(** Without an unloading: the library is asked for once, every operation calls the function of its ordinal exactly once, and -2 and -1 tell a
    missing library from a missing function. *)
Theorem C109_loader : forall o ops, Forall numbered ops -> Forall no_unload ops -> run o dyn0 ops = Ok (ideal_run o 0 None ops).
Proof. exact dyn_no_unload. Qed.
Print Assumptions C109_loader.

(** With unloadings, provided the library can always be loaded and no propagator has been called before the last unloading. *)
Theorem C109_reload : forall o a b, (forall k, loads o k = true) -> Forall numbered (a ++ b) -> Forall no_call a -> Forall no_unload b ->
  run o dyn0 (a ++ b) = Ok (ideal_run o 0 None (a ++ b)).
Proof. exact dyn_unload. Qed.
Print Assumptions C109_reload.

(** A propagator called both before and after an unloading is called through the pointer into the unloaded library, ... *)
Theorem C109_stale_call : forall o n, 0 <= n < 5 -> loads o 0%nat = true -> exports o 0%nat (n + 6) = true -> run o dyn0 [Call n; Unload; Call n] = UB OutOfBounds.
Proof. exact dyn_stale_call. Qed.
Print Assumptions C109_stale_call.

(** ... and an initialisation is, if the library is gone from the disk by then: -2 is not returned. *)
Theorem C109_stale_init : forall o n, 0 <= n < 5 -> loads o 0%nat = true -> loads o 1%nat = false -> exports o 0%nat (n + 1) = true -> run o dyn0 [Init n; Unload; Init n] = UB OutOfBounds.
Proof. exact dyn_stale_init. Qed.
Print Assumptions C109_stale_init.

(** So the loader does not keep its promise for all programs, even with a library that can always be loaded and has every function. *)
Theorem C109_unload_refuted : exists o ops, (forall k, loads o k = true) /\ (forall k i, exports o k i = true) /\ Forall numbered ops /\ run o dyn0 ops <> Ok (ideal_run o 0 None ops).
Proof. exact dyn_refuted. Qed.
Print Assumptions C109_unload_refuted.

(** A propagator number outside 0-4 indexes outside the tables. *)
Theorem C109_numbered : forall o s n, ~ 0 <= n < 5 -> SXPX_init o s n = UB OutOfBounds /\ SXPX o s n = UB OutOfBounds.
Proof. exact dyn_out_of_range. Qed.
Print Assumptions C109_numbered.

(** A library without SGP8 (ordinals 3 and 8); the second load fails. *)
Definition some_os : os := mk_os (fun k => negb (Nat.eqb k 1)) (fun _ i => negb (i =? 3) && negb (i =? 8)) (fun _ i => 100 + i).
Example C109_example : run some_os dyn0 [Version; Init 1; Call 1; Init 2; Call 2; Call 1]
  = Ok [(120, Some (0%nat, 20)); (0, Some (0%nat, 2)); (107, Some (0%nat, 7)); (-1, None); (-1, None); (107, Some (0%nat, 7))].
Proof. vm_compute. reflexivity. Qed.
Example C109_stale : run some_os dyn0 [Init 1; Unload; Init 1] = UB OutOfBounds.
Proof. vm_compute. reflexivity. Qed.
Example C109_missing : run some_os dyn0 [Init 1; Unload; Call 1; Version] = Ok [(0, Some (0%nat, 2)); (0, None); (-2, None); (-2, None)].
Proof. vm_compute. reflexivity. Qed.
