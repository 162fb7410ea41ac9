(** Specification of a loader: which function is called, and what is returned, without any table. *)
From Coq Require Import ZArith List Bool.
From Verif Require Import CLib DynModel.
Import ListNotations.
Open Scope Z_scope.

(** The ordinal an operation stands for: 1-5 the initialisations, 6-10 the propagators, 20 the version. *)
Definition ordinal (a : op) : Z := match a with Unload => 0 | Init n => n + 1 | Call n => n + 6 | Version => 20 end.
(** What an operation returns when the library of load [k] is in memory (or none is): -2 without a library, -1 without the function. *)
Definition outcome (o : os) (lib : option nat) (a : op) : Z * option (nat * Z) :=
  match lib with
  | None => (-2, None)
  | Some k => if exports o k (ordinal a) then (match a with Init _ => 0 | _ => answer o k (ordinal a) end, Some (k, ordinal a)) else (-1, None)
  end.
(** [asked]: load attempts so far; [lib]: [None] before an attempt, else the outcome of the last one. *)
Fixpoint ideal_run (o : os) (asked : nat) (lib : option (option nat)) (ops : list op) : list (Z * option (nat * Z)) :=
  match ops with
  | [] => []
  | Unload :: ops => (0, None) :: ideal_run o asked None ops
  | a :: ops =>
      match lib with
      | Some l => outcome o l a :: ideal_run o asked lib ops
      | None => let l := if loads o asked then Some asked else None in outcome o l a :: ideal_run o (S asked) (Some l) ops
      end
  end.
(** Propagators are numbered 0-4 (norad.h: SGP, SGP4, SGP8, SDP4, SDP8). *)
Definition numbered (a : op) : Prop := match a with Init n | Call n => 0 <= n < 5 | _ => True end.
Definition no_unload (a : op) : Prop := a <> Unload.
Definition no_call (a : op) : Prop := match a with Call _ => False | _ => True end.
