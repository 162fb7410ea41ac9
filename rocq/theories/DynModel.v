(** The loader of the library of propagators: dynamic.c (32-bit Windows; not compiled by the Makefile). *)
From Coq Require Import ZArith List Bool.
From Verif Require Import CLib.
Import ListNotations.
Open Scope Z_scope.

(** The operating system: whether the [k]-th call of LoadLibrary succeeds, which ordinals the library loaded by it exports, and what
    the functions of the library return. *)
Record os := mk_os { loads : nat -> bool; exports : nat -> Z -> bool; answer : nat -> Z -> Z }.

(** A function pointer from GetProcAddress: the load it belongs to, and the ordinal. *)
Definition fptr : Type := nat * Z.

(** The static variables of dynamic.c: 30-31 (library handle, first_time), 54-55 (tables of SXPX_init), 88-89 (tables of SXPX).  The tables are
    arrays of five; [upd] is an assignment to an element.  [tries] counts the calls of LoadLibrary. *)
Record dyn := mk_dyn { handle : option nat; first_time : bool; tries : nat;
  ifunc : Z -> option fptr; idone : Z -> bool; cfunc : Z -> option fptr; cdone : Z -> bool }.
Definition dyn0 : dyn := mk_dyn None true 0 (fun _ => None) (fun _ => false) (fun _ => None) (fun _ => false).
Definition upd {T} (f : Z -> T) (i : Z) (v : T) : Z -> T := fun j => if j =? i then v else f j.

(** dynamic.c:28-46 [load_sat_code_lib]. *)
Definition load_lib (o : os) (s : dyn) : dyn :=
  if first_time s then mk_dyn (if loads o (tries s) then Some (tries s) else None) false (S (tries s)) (ifunc s) (idone s) (cfunc s) (cdone s) else s.
Definition unload_lib (s : dyn) : dyn := mk_dyn None true (tries s) (ifunc s) (idone s) (cfunc s) (cdone s).

(** Calling through a pointer: the code it points to is there only while that very load of the library is; otherwise undefined. *)
Definition call_through (s : dyn) (f : fptr) : res fptr :=
  match handle s with Some k => if Nat.eqb k (fst f) then Ok f else UB OutOfBounds | None => UB OutOfBounds end.
Definition get_proc (o : os) (k : nat) (ord : Z) : option fptr := if exports o k ord then Some (k, ord) else None.

(** dynamic.c:52-83 [SXPX_init] with non-null params, 59-67 with null ones; the value returned, the function called, the statics. *)
Definition SXPX_init (o : os) (s : dyn) (n : Z) : res (Z * option fptr * dyn) :=
  let s := load_lib o s in
  if (0 <=? n) && (n <? 5) then
    let s := if idone s n then s
             else mk_dyn (handle s) (first_time s) (tries s)
                         (match handle s with Some k => upd (ifunc s) n (get_proc o k (n + 1)) | None => ifunc s end)
                         (upd (idone s) n true) (cfunc s) (cdone s) in
    called <- (match ifunc s n with Some f => g <- call_through s f ;; Ok (Some g) | None => Ok None end) ;;
    let rval := match called with Some _ => 0 | None => -1 end in
    let rval := match handle s with Some _ => rval | None => -2 end in
    Ok (rval, called, s)
  else UB OutOfBounds.
Definition SXPX_unload (s : dyn) : dyn :=
  let s := unload_lib s in mk_dyn (handle s) (first_time s) (tries s) (ifunc s) (fun i => if (0 <=? i) && (i <? 5) then false else idone s i) (cfunc s) (cdone s).

(** dynamic.c:85-107 [SXPX]. *)
Definition SXPX (o : os) (s : dyn) (n : Z) : res (Z * option fptr * dyn) :=
  let s := load_lib o s in
  if (0 <=? n) && (n <? 5) then
    let s := if cdone s n then s
             else mk_dyn (handle s) (first_time s) (tries s) (ifunc s) (idone s)
                         (match handle s with Some k => upd (cfunc s) n (get_proc o k (n + 6)) | None => cfunc s end)
                         (upd (cdone s) n true) in
    called <- (match cfunc s n with Some f => g <- call_through s f ;; Ok (Some g) | None => Ok None end) ;;
    let rval := match called with Some (k, ord) => answer o k ord | None => -1 end in
    let rval := match handle s with Some _ => rval | None => -2 end in
    Ok (rval, called, s)
  else UB OutOfBounds.

(** dynamic.c:109-127 [get_sat_code_lib_version]. *)
Definition lib_version (o : os) (s : dyn) : Z * option fptr * dyn :=
  let s := load_lib o s in
  match handle s with
  | None => (-2, None, s)
  | Some k => match get_proc o k 20 with None => (-1, None, s) | Some f => (answer o (fst f) (snd f), Some f, s) end
  end.

(** A program's use of the loader. *)
Inductive op := Unload | Init (n : Z) | Call (n : Z) | Version.
Definition step (o : os) (s : dyn) (a : op) : res (Z * option fptr * dyn) :=
  match a with
  | Unload => Ok (0, None, SXPX_unload s)
  | Init n => SXPX_init o s n
  | Call n => SXPX o s n
  | Version => Ok (lib_version o s)
  end.
Fixpoint run (o : os) (s : dyn) (ops : list op) : res (list (Z * option fptr)) :=
  match ops with
  | [] => Ok []
  | a :: ops => t <- step o s a ;; let '(v, c, s) := t in rest <- run o s ops ;; Ok ((v, c) :: rest)
  end.
