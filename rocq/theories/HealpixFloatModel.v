(** Model of the remaining direction <-> pixel conversions of /repo/HealpixC/chealpix.c in double arithmetic (32-bit pixel numbers). *)
From Coq Require Import ZArith List Bool.
From Flocq Require Import IEEE754.BinarySingleNaN.
From Verif Require Import CLib FloatModel HealpixModel HealpixAngModel HealpixRealModel.
Open Scope Z_scope.

(** Constants of chealpix.c:36, 38. *)
Definition hp_pi : b64 := dyadic 7074237752028440 (-51).
Definition halfpi : b64 := dyadic 7074237752028440 (-52).

(** chealpix.c:280-318 [ang2pix_ring_z_phi]; [nside_] is a [long], so the products of the result are computed in 64 bits. *)
Definition ang2pix_ring_z_phi (nside : Z) (z phi : b64) : res Z :=
  let n := of_int nside in
  let za := Babs z in
  let tt := fmul (fmodulo phi twopi) inv_halfpi in
  if fle za twothird then
    let temp1 := fmul n (fadd (lit 1 2) tt) in
    let temp2 := fmul (fmul n z) (lit 3 4) in
    jp <- to_int (fsub temp1 temp2) ;;
    jm <- to_int (fadd temp1 temp2) ;;
    let ir := nside + 1 + jp - jm in
    let kshift := 1 - Z.land ir 1 in
    let ip := imodulo (Z.quot (jp + jm - nside + kshift + 1) 2) (4 * nside) in
    Ok (nside * (nside - 1) * 2 + (ir - 1) * 4 * nside + ip)
  else
    ntt <- to_int tt ;;
    let tp := fsub tt (of_int ntt) in
    let tmp := fmul n (fsqrt (fmul (of_int 3) (fsub (of_int 1) za))) in
    jp <- to_int (fmul tp tmp) ;;
    jm <- to_int (fmul (fsub (of_int 1) tp) tmp) ;;
    let ir := jp + jm + 1 in
    ip <- to_int (fmul tt (of_int ir)) ;;
    let ip := imodulo ip (4 * ir) in
    Ok (if flt (of_int 0) z then 2 * ir * (ir - 1) + ip else 12 * nside * nside - 2 * ir * (ir + 1) + ip).

(** chealpix.c:320-355 [pix2ang_ring_z_phi]. *)
Definition pix2ang_ring_z_phi (nside pix : Z) : res (b64 * b64) :=
  let ncap := nside * (nside - 1) * 2 in
  npix <- chk_int (12 * nside * nside) ;;
  let fact2 := fdiv (of_int 4) (of_int npix) in
  if pix <? ncap then
    s <- isqrt (1 + 2 * pix) ;;
    let iring := Z.shiftr (1 + s) 1 in
    let iphi := (pix + 1) - 2 * iring * (iring - 1) in
    Ok (fsub (of_int 1) (fmul (of_int (iring * iring)) fact2),
        fdiv (fmul (fsub (of_int iphi) (lit 1 2)) halfpi) (of_int iring))
  else if pix <? npix - ncap then
    let fact1 := fmul (of_int (Z.shiftl nside 1)) fact2 in
    let ip := pix - ncap in
    let iring := Z.quot ip (4 * nside) + nside in
    let iphi := Z.rem ip (4 * nside) + 1 in
    let fodd := if Z.land (iring + nside) 1 =? 0 then lit 1 2 else of_int 1 in
    let nl2 := 2 * nside in
    Ok (fmul (of_int (nl2 - iring)) fact1, fdiv (fmul (fsub (of_int iphi) fodd) hp_pi) (of_int nl2))
  else
    let ip := npix - pix in
    s <- isqrt (2 * ip - 1) ;;
    let iring := Z.shiftr (1 + s) 1 in
    let iphi := 4 * iring + 1 - (ip - 2 * iring * (iring - 1)) in
    Ok (fadd (of_int (-1)) (fmul (of_int (iring * iring)) fact2),
        fdiv (fmul (fsub (of_int iphi) (lit 1 2)) halfpi) (of_int iring)).

(** chealpix.c:357-392 [pix2ang_nest_z_phi]. *)
Definition pix2ang_nest_z_phi (nside pix : Z) : res (b64 * b64) :=
  let nl4 := nside * 4 in
  npix <- chk_int (12 * nside * nside) ;;
  let fact2 := fdiv (of_int 4) (of_int npix) in
  t <- nest2xyf nside pix ;;
  let '(ix, iy, face) := t in
  fr <- at_ jrll face ;;
  fp <- at_ jpll face ;;
  let jr := fr * nside - ix - iy - 1 in
  let '(nr, z, kshift) :=
    if jr <? nside then (jr, fsub (of_int 1) (fmul (of_int (jr * jr)) fact2), 0)
    else if 3 * nside <? jr then (nl4 - jr, fsub (fmul (of_int ((nl4 - jr) * (nl4 - jr))) fact2) (of_int 1), 0)
    else (nside, fmul (of_int (2 * nside - jr)) (fmul (of_int (Z.shiftl nside 1)) fact2), Z.land (jr - nside) 1) in
  let jp := Z.quot (fp * nr + ix - iy + 1 + kshift) 2 in
  let jp := if nl4 <? jp then jp - nl4 else jp in
  let jp := if jp <? 1 then jp + nl4 else jp in
  Ok (z, fmul (fsub (of_int jp) (fmul (of_int (kshift + 1)) (lit 1 2))) (fdiv halfpi (of_int nr))).

(** chealpix.c:418-449: the functions a program calls, with the library's [acos] and [cos]; [None] when the assertion on theta
    stops the program. *)
Section Public.
Context (cos acos : b64 -> b64).
Definition ang2pix_ring (nside : Z) (theta phi : b64) : res (option Z) :=
  if fle (of_int 0) theta && fle theta hp_pi then p <- ang2pix_ring_z_phi nside (cos theta) phi ;; Ok (Some p) else Ok None.
Definition ang2pix_nest (nside : Z) (theta phi : b64) : res (option Z) :=
  if fle (of_int 0) theta && fle theta hp_pi then p <- ang2pix_nest_z_phi nside (cos theta) phi ;; Ok (Some p) else Ok None.
Definition pix2ang_ring (nside pix : Z) : res (b64 * b64) := t <- pix2ang_ring_z_phi nside pix ;; let '(z, phi) := t in Ok (acos z, phi).
Definition pix2ang_nest (nside pix : Z) : res (b64 * b64) := t <- pix2ang_nest_z_phi nside pix ;; let '(z, phi) := t in Ok (acos z, phi).
End Public.
