(** Model of the direction <-> pixel conversions with 64-bit pixel numbers of /repo/HealpixC/chealpix.c in double arithmetic.
    Sums and products of [int64_t] are exact integers here; for nside <= 2^29 they stay below 2^62. *)
From Coq Require Import ZArith List Bool.
From Flocq Require Import IEEE754.BinarySingleNaN.
From Verif Require Import CLib FloatModel HealpixModel HealpixAngModel HealpixRealModel HealpixFloatModel.
Open Scope Z_scope.

(** chealpix.c:659-662 and 715: the distance from the pole in rings; the sine of the colatitude is used when it was given. *)
Definition cap_rings64 (n z s : b64) : b64 :=
  if flt (of_int (-2)) s then fdiv (fmul n s) (fsqrt (fdiv (fadd (of_int 1) (Babs z)) (of_int 3)))
  else fmul n (fsqrt (fmul (of_int 3) (fsub (of_int 1) (Babs z)))).

(** chealpix.c:639-689 [ang2pix_nest_z_phi64]; [jp], [jm] of the caps are [int]: the [int64_t] is converted modulo 2^32. *)
Definition ang2xyf64 (nside : Z) (z s phi : b64) : res (Z * Z * Z) :=
  let n := of_int nside in
  let za := Babs z in
  let tt := fmul (fmodulo phi twopi) inv_halfpi in
  if fle za twothird then
    let temp1 := fmul n (fadd (lit 1 2) tt) in
    let temp2 := fmul n (fmul z (lit 3 4)) in
    jp <- to_long (fsub temp1 temp2) ;;
    jm <- to_long (fadd temp1 temp2) ;;
    let ifp := Z.quot jp nside in
    let ifm := Z.quot jm nside in
    Ok (Z.land jm (nside - 1), nside - Z.land jp (nside - 1) - 1, face_of ifp ifm)
  else
    ntt <- to_int tt ;;
    let ntt := if 4 <=? ntt then 3 else ntt in
    let tp := fsub tt (of_int ntt) in
    let tmp := cap_rings64 n z s in
    jp <- to_long (fmul tp tmp) ;;
    jm <- to_long (fmul (fsub (of_int 1) tp) tmp) ;;
    let jp := wrap_int jp in
    let jm := wrap_int jm in
    let jp := if nside <=? jp then nside - 1 else jp in
    let jm := if nside <=? jm then nside - 1 else jm in
    if fle (of_int 0) z then Ok (nside - jm - 1, nside - jp - 1, ntt) else Ok (jp, jm, ntt + 8).
Definition ang2pix_nest_z_phi64 (nside : Z) (z s phi : b64) : res Z :=
  t <- ang2xyf64 nside z s phi ;; let '(ix, iy, f) := t in xyf2nest64 nside ix iy f.

(** chealpix.c:485-486 [imodulo64] has the same text as [imodulo]; chealpix.c:691-730 [ang2pix_ring_z_phi64]. *)
Definition ang2pix_ring_z_phi64 (nside : Z) (z s phi : b64) : res Z :=
  let n := of_int nside in
  let za := Babs z in
  let tt := fmul (fmodulo phi twopi) inv_halfpi in
  if fle za twothird then
    let temp1 := fmul n (fadd (lit 1 2) tt) in
    let temp2 := fmul (fmul n z) (lit 3 4) in
    jp <- to_long (fsub temp1 temp2) ;;
    jm <- to_long (fadd temp1 temp2) ;;
    let ir := nside + 1 + jp - jm in
    let kshift := 1 - Z.land ir 1 in
    let ip := imodulo (Z.quot (jp + jm - nside + kshift + 1) 2) (4 * nside) in
    Ok (nside * (nside - 1) * 2 + (ir - 1) * 4 * nside + ip)
  else
    ntt <- to_int tt ;;
    let tp := fsub tt (of_int ntt) in
    let tmp := cap_rings64 n z s in
    jp <- to_long (fmul tp tmp) ;;
    jm <- to_long (fmul (fsub (of_int 1) tp) tmp) ;;
    let ir := jp + jm + 1 in
    ip <- to_long (fmul tt (of_int ir)) ;;
    let ip := imodulo ip (4 * ir) in
    Ok (if flt (of_int 0) z then 2 * ir * (ir - 1) + ip else 12 * nside * nside - 2 * ir * (ir + 1) + ip).

(** chealpix.c:745-747, 769-771, 791-793, 800-802: height and sine of the colatitude of ring [i] from the pole. *)
Definition cap_height64 (fact2 : b64) (i : Z) (north : bool) : b64 * b64 :=
  let tmp := fmul (of_int (i * i)) fact2 in
  let z := if north then fsub (of_int 1) tmp else fsub tmp (of_int 1) in
  let polar := if north then flt (lit 99 100) z else flt z (lit (-99) 100) in
  (z, if polar then fsqrt (fmul tmp (fsub (of_int 2) tmp)) else of_int (-5)).

(** chealpix.c:732-773 [pix2ang_ring_z_phi64]: height, sine of the colatitude (or -5), longitude. *)
Definition pix2ang_ring_z_phi64 (nside pix : Z) : res (b64 * b64 * b64) :=
  let ncap := nside * (nside - 1) * 2 in
  let npix := 12 * nside * nside in
  let fact2 := fdiv (of_int 4) (of_int npix) in
  if pix <? ncap then
    r <- isqrt64 (1 + 2 * pix) ;;
    let iring := Z.shiftr (1 + r) 1 in
    let iphi := (pix + 1) - 2 * iring * (iring - 1) in
    Ok (cap_height64 fact2 iring true, fdiv (fmul (fsub (of_int iphi) (lit 1 2)) halfpi) (of_int iring))
  else if pix <? npix - ncap then
    let fact1 := fmul (of_int (Z.shiftl nside 1)) fact2 in
    let ip := pix - ncap in
    let iring := Z.quot ip (4 * nside) + nside in
    let iphi := Z.rem ip (4 * nside) + 1 in
    let fodd := if Z.land (iring + nside) 1 =? 0 then lit 1 2 else of_int 1 in
    let nl2 := 2 * nside in
    Ok (fmul (of_int (nl2 - iring)) fact1, of_int (-5), fdiv (fmul (fsub (of_int iphi) fodd) hp_pi) (of_int nl2))
  else
    let ip := npix - pix in
    r <- isqrt64 (2 * ip - 1) ;;
    let iring := Z.shiftr (1 + r) 1 in
    let iphi := 4 * iring + 1 - (ip - 2 * iring * (iring - 1)) in
    Ok (cap_height64 fact2 iring false, fdiv (fmul (fsub (of_int iphi) (lit 1 2)) halfpi) (of_int iring)).

(** chealpix.c:775-819 [pix2ang_nest_z_phi64]. *)
Definition pix2ang_nest_z_phi64 (nside pix : Z) : res (b64 * b64 * b64) :=
  let nl4 := nside * 4 in
  let npix := 12 * nside * nside in
  let fact2 := fdiv (of_int 4) (of_int npix) in
  t <- nest2xyf64 nside pix ;;
  let '(ix, iy, face) := t in
  fr <- at_ jrll face ;;
  fp <- at_ jpll face ;;
  let jr := fr * nside - ix - iy - 1 in
  let '(nr, zs, kshift) :=
    if jr <? nside then (jr, cap_height64 fact2 jr true, 0)
    else if 3 * nside <? jr then (nl4 - jr, cap_height64 fact2 (nl4 - jr) false, 0)
    else (nside, (fmul (of_int (2 * nside - jr)) (fmul (of_int (Z.shiftl nside 1)) fact2), of_int (-5)), Z.land (jr - nside) 1) in
  let jp := Z.quot (fp * nr + ix - iy + 1 + kshift) 2 in
  let jp := if nl4 <? jp then jp - nl4 else jp in
  let jp := if jp <? 1 then jp + nl4 else jp in
  Ok (zs, fmul (fsub (of_int jp) (fmul (of_int (kshift + 1)) (lit 1 2))) (fdiv halfpi (of_int nr))).

(** chealpix.c:830-841, 856-867: the functions a program calls, with the library's [cos], [sin], [acos] and [atan2]; [None] when
    the assertion on theta stops the program. *)
Section Public.
Context (cos sin acos : b64 -> b64) (atan2 : b64 -> b64 -> b64).
Definition sine64 (cth theta : b64) : b64 := if flt (lit 99 100) (Babs cth) then sin theta else of_int (-5).
Definition ang2pix_ring64 (nside : Z) (theta phi : b64) : res (option Z) :=
  if fle (of_int 0) theta && fle theta hp_pi then let cth := cos theta in p <- ang2pix_ring_z_phi64 nside cth (sine64 cth theta) phi ;; Ok (Some p) else Ok None.
Definition ang2pix_nest64 (nside : Z) (theta phi : b64) : res (option Z) :=
  if fle (of_int 0) theta && fle theta hp_pi then let cth := cos theta in p <- ang2pix_nest_z_phi64 nside cth (sine64 cth theta) phi ;; Ok (Some p) else Ok None.
Definition colatitude64 (z s : b64) : b64 := if flt s (of_int (-2)) then acos z else atan2 s z.
Definition pix2ang_ring64 (nside pix : Z) : res (b64 * b64) := t <- pix2ang_ring_z_phi64 nside pix ;; let '(z, s, phi) := t in Ok (colatitude64 z s, phi).
Definition pix2ang_nest64 (nside pix : Z) : res (b64 * b64) := t <- pix2ang_nest_z_phi64 nside pix ;; let '(z, s, phi) := t in Ok (colatitude64 z s, phi).
End Public.
