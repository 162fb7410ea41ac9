(** Small model of the C abstract machine used by all areas of the development.

    A [char] is a [Z] in -128..127 (signed char), a pointer into a character
    buffer is the list of bytes from the pointed-to position to the END OF THE
    OBJECT (not to the NUL), so a read past the list is a read outside the
    object. *)
From Coq Require Import String Ascii ZArith List Bool.
Import ListNotations.
Open Scope Z_scope.

(** Ways in which an execution leaves the defined behaviour of C. *)
Inductive reason : Set :=
| OutOfBounds   (* access outside an object *)
| Overflow      (* signed integer overflow, or atoi/cast out of range *)
| NullDeref     (* access through a null pointer *)
| Uninit        (* use of an indeterminate value *)
| AssertFail    (* failed assert(): the process aborts *)
| Stuck.        (* fuel of the model exhausted *)

Inductive res (A : Type) : Type :=
| Ok (a : A)
| UB (r : reason).
Arguments Ok {A} a.
Arguments UB {A} r.

Definition bind {A B : Type} (m : res A) (k : A -> res B) : res B :=
  match m with Ok a => k a | UB r => UB r end.

Notation "x <- m ;; k" := (bind m (fun x => k))
  (at level 61, m at next level, right associativity).

(** [p[i]] *)
Definition rd (p : list Z) (i : nat) : res Z :=
  match nth_error p i with Some c => Ok c | None => UB OutOfBounds end.

(** [p + k] (pointer arithmetic inside the object). *)
Definition adv (p : list Z) (k : nat) : list Z := skipn k p.

(** Range of a 32-bit [int] and of a 64-bit [long]. *)
Definition int_min : Z := -2147483648.
Definition int_max : Z := 2147483647.
Definition in_int (z : Z) : bool := (int_min <=? z) && (z <=? int_max).
Definition chk_int (z : Z) : res Z := if in_int z then Ok z else UB Overflow.

(** Character classes of <ctype.h> in the "C" locale. *)
Definition is_digit (c : Z) : bool := (48 <=? c) && (c <=? 57).
Definition is_space (c : Z) : bool := (c =? 32) || ((9 <=? c) && (c <=? 13)).

(** atoi (C11 7.22.1.2): skip white space, optional sign, digits; the result
    must be representable in [int].  Reading stops at the first byte that is
    not part of the number; it never looks further. *)
Fixpoint c_digits (acc : Z) (p : list Z) : res Z :=
  match p with
  | [] => UB OutOfBounds
  | c :: p' => if is_digit c then c_digits (acc * 10 + (c - 48)) p' else Ok acc
  end.

Fixpoint c_skip_space (p : list Z) : list Z :=
  match p with
  | c :: p' => if is_space c then c_skip_space p' else p
  | [] => []
  end.

Definition c_strtol (p : list Z) : res Z :=
  match c_skip_space p with
  | [] => UB OutOfBounds
  | c :: p' =>
      if c =? 45 then v <- c_digits 0 p' ;; Ok (- v)
      else if c =? 43 then c_digits 0 p'
      else c_digits 0 (c :: p')
  end.

Definition c_atoi (p : list Z) : res Z := v <- c_strtol p ;; chk_int v.

(** memcpy(dst, p, n): the first [n] bytes from [p], which must exist. *)
Definition c_take (p : list Z) (n : nat) : res (list Z) :=
  if (n <=? length p)%nat then Ok (firstn n p) else UB OutOfBounds.

(** Literal text as bytes (used in concrete instances only). *)
Definition bytes (s : string) : list Z :=
  map (fun a => let n := Z.of_N (N_of_ascii a) in if n <? 128 then n else n - 256)
      (list_ascii_of_string s).

(** A line read into a 100-byte buffer whose remaining bytes are 0. *)
Definition buffer100 (s : string) : list Z :=
  firstn 100 (bytes s ++ [10] ++ repeat 0 100).
