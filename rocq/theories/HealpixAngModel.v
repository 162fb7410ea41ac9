(** Model of the direction -> pixel conversions of /repo/HealpixC/chealpix.c in double arithmetic. *)
From Coq Require Import ZArith List Bool.
From Flocq Require Import IEEE754.BinarySingleNaN.
From Verif Require Import CLib FloatModel HealpixModel.
Open Scope Z_scope.

(** Constants of chealpix.c:35-39, as the doubles the compiler produces for the decimal literals. *)
Definition dyadic (m e : Z) : b64 := binary_normalize 53 1024 prec64_gt0 prec64_lt mode_NE m e false.
Definition twothird : b64 := fdiv (of_int 2) (of_int 3).
Definition twopi : b64 := dyadic 7074237752028440 (-50).
Definition inv_halfpi : b64 := dyadic 5734161139222659 (-53).

(** C [fmod] for finite arguments and a non-zero divisor: the exact remainder of the truncated quotient. *)
Definition fparts (x : b64) : option (Z * Z) :=
  match x with
  | B754_zero _ => Some (0, 0)
  | B754_finite s m e _ => Some (if s then Zneg m else Zpos m, e)
  | _ => None
  end.
Definition fmod (x y : b64) : b64 :=
  match fparts x, fparts y with
  | Some (mx, ex), Some (my, ey) =>
    if (my =? 0) then B754_nan
    else let e := Z.min ex ey in
         let X := mx * 2 ^ (ex - e) in let Y := my * 2 ^ (ey - e) in
         dyadic (Z.rem X Y) e
  | _, _ => B754_nan
  end.

(** chealpix.c:61-67 [fmodulo]. *)
Definition fmodulo (v1 v2 : b64) : b64 :=
  if fle (of_int 0) v1 then (if flt v1 v2 then v1 else fmod v1 v2)
  else let tmp := fadd (fmod v1 v2) v2 in if feq tmp v2 then of_int 0 else tmp.

(** chealpix.c:232-278 [ang2pix_nest_z_phi]; [nside_] is converted to double in the products. *)
Definition ang2xyf (nside : Z) (z phi : b64) : res (Z * Z * Z) :=
  let n := of_int nside in
  let za := Babs z in
  let tt := fmul (fmodulo phi twopi) inv_halfpi in
  if fle za twothird then
    let temp1 := fmul n (fadd (lit 1 2) tt) in
    let temp2 := fmul n (fmul z (lit 3 4)) in
    jp <- to_int (fsub temp1 temp2) ;;
    jm <- to_int (fadd temp1 temp2) ;;
    let ifp := Z.quot jp nside in
    let ifm := Z.quot jm nside in
    Ok (Z.land jm (nside - 1), nside - Z.land jp (nside - 1) - 1, face_of ifp ifm)
  else
    ntt <- to_int tt ;;
    let ntt := if 4 <=? ntt then 3 else ntt in
    let tp := fsub tt (of_int ntt) in
    let tmp := fmul n (fsqrt (fmul (of_int 3) (fsub (of_int 1) za))) in
    jp <- to_int (fmul tp tmp) ;;
    jm <- to_int (fmul (fsub (of_int 1) tp) tmp) ;;
    let jp := if nside <=? jp then nside - 1 else jp in
    let jm := if nside <=? jm then nside - 1 else jm in
    if fle (of_int 0) z then Ok (nside - jm - 1, nside - jp - 1, ntt) else Ok (jp, jm, ntt + 8).
Definition ang2pix_nest_z_phi (nside : Z) (z phi : b64) : res Z :=
  t <- ang2xyf nside z phi ;; let '(ix, iy, f) := t in xyf2nest nside ix iy f.
