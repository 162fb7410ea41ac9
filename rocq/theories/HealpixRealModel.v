(** The direction <-> pixel conversions of /repo/HealpixC/chealpix.c with the floating point operations replaced by exact real
    ones (a simplification: rounding, and the [acos]/[cos] pair between [z] and [theta], are left out). *)
From Coq Require Import ZArith List Bool Reals.
From Flocq Require Import Core.
From Verif Require Import CLib FloatModel HealpixModel.
Open Scope Z_scope.

Definition rmodulo (x y : R) : R := (x - IZR (Zfloor (x / y)) * y)%R.      (* chealpix.c:61-67 *)
Definition rtrunc (x : R) : Z := Ztrunc x.

(** chealpix.c:232-278. *)
Definition ang2xyf_real (nside : Z) (z phi : R) : Z * Z * Z :=
  let n := IZR nside in
  let za := Rabs z in
  let tt := (rmodulo phi (2 * PI) * (2 / PI))%R in
  if Rle_dec za (2 / 3) then
    let temp1 := (n * (1 / 2 + tt))%R in
    let temp2 := (n * (z * (3 / 4)))%R in
    let jp := rtrunc (temp1 - temp2) in
    let jm := rtrunc (temp1 + temp2) in
    (Z.land jm (nside - 1), nside - Z.land jp (nside - 1) - 1, face_of (Z.quot jp nside) (Z.quot jm nside))
  else
    let ntt := rtrunc tt in
    let ntt := if 4 <=? ntt then 3 else ntt in
    let tp := (tt - IZR ntt)%R in
    let tmp := (n * sqrt (3 * (1 - za)))%R in
    let jp := rtrunc (tp * tmp) in
    let jm := rtrunc ((1 - tp) * tmp) in
    let jp := if nside <=? jp then nside - 1 else jp in
    let jm := if nside <=? jm then nside - 1 else jm in
    if Rle_dec 0 z then (nside - jm - 1, nside - jp - 1, ntt) else (jp, jm, ntt + 8).
Definition ang2pix_nest_real (nside : Z) (z phi : R) : res Z :=
  let '(ix, iy, f) := ang2xyf_real nside z phi in xyf2nest nside ix iy f.

(** chealpix.c:70-74 [imodulo]. *)
Definition imodulo (v1 v2 : Z) : Z := let v := Z.rem v1 v2 in if 0 <=? v then v else v + v2.

(** chealpix.c:280-318. *)
Definition ang2pix_ring_real (nside : Z) (z phi : R) : Z :=
  let n := IZR nside in
  let za := Rabs z in
  let tt := (rmodulo phi (2 * PI) * (2 / PI))%R in
  if Rle_dec za (2 / 3) then
    let temp1 := (n * (1 / 2 + tt))%R in
    let temp2 := (n * z * (3 / 4))%R in
    let jp := rtrunc (temp1 - temp2) in
    let jm := rtrunc (temp1 + temp2) in
    let ir := nside + 1 + jp - jm in
    let kshift := 1 - Z.land ir 1 in
    let ip := imodulo (Z.quot (jp + jm - nside + kshift + 1) 2) (4 * nside) in
    nside * (nside - 1) * 2 + (ir - 1) * 4 * nside + ip
  else
    let tp := (tt - IZR (rtrunc tt))%R in
    let tmp := (n * sqrt (3 * (1 - za)))%R in
    let jp := rtrunc (tp * tmp) in
    let jm := rtrunc ((1 - tp) * tmp) in
    let ir := jp + jm + 1 in
    let ip := imodulo (rtrunc (tt * IZR ir)) (4 * ir) in
    if Rlt_dec 0 z then 2 * ir * (ir - 1) + ip else 12 * nside * nside - 2 * ir * (ir + 1) + ip.

(** chealpix.c:320-355 and 357-392: the centre of the pixel at position [iphi] of ring [iring] / of the nested pixel. *)
Definition pix2ang_ring_real (nside pix : Z) : res (R * R) :=
  let ncap := nside * (nside - 1) * 2 in
  let npix := 12 * nside * nside in
  let fact2 := (4 / IZR npix)%R in
  if pix <? ncap then
    s <- isqrt (1 + 2 * pix) ;;
    let iring := Z.shiftr (1 + s) 1 in
    let iphi := (pix + 1) - 2 * iring * (iring - 1) in
    Ok ((1 - IZR (iring * iring) * fact2)%R, ((IZR iphi - 1 / 2) * (PI / 2) / IZR iring)%R)
  else if pix <? npix - ncap then
    let fact1 := (IZR (Z.shiftl nside 1) * fact2)%R in
    let ip := pix - ncap in
    let iring := Z.quot ip (4 * nside) + nside in
    let iphi := Z.rem ip (4 * nside) + 1 in
    let fodd := (if Z.land (iring + nside) 1 =? 0 then 1 / 2 else 1)%R in
    let nl2 := 2 * nside in
    Ok ((IZR (nl2 - iring) * fact1)%R, ((IZR iphi - fodd) * PI / IZR nl2)%R)
  else
    let ip := npix - pix in
    s <- isqrt (2 * ip - 1) ;;
    let iring := Z.shiftr (1 + s) 1 in
    let iphi := 4 * iring + 1 - (ip - 2 * iring * (iring - 1)) in
    Ok ((-1 + IZR (iring * iring) * fact2)%R, ((IZR iphi - 1 / 2) * (PI / 2) / IZR iring)%R).

Definition pix2ang_nest_real (nside pix : Z) : res (R * R) :=
  let nl4 := nside * 4 in
  let npix := 12 * nside * nside in
  let fact2 := (4 / IZR npix)%R in
  t <- nest2xyf nside pix ;;
  let '(ix, iy, face) := t in
  fr <- at_ jrll face ;;
  fp <- at_ jpll face ;;
  let jr := fr * nside - ix - iy - 1 in
  let '(nr, z, kshift) :=
    if jr <? nside then (jr, (1 - IZR (jr * jr) * fact2)%R, 0)
    else if 3 * nside <? jr then (nl4 - jr, (IZR ((nl4 - jr) * (nl4 - jr)) * fact2 - 1)%R, 0)
    else (nside, (IZR (2 * nside - jr) * (IZR (Z.shiftl nside 1) * fact2))%R, Z.land (jr - nside) 1) in
  let jp := Z.quot (fp * nr + ix - iy + 1 + kshift) 2 in
  let jp := if nl4 <? jp then jp - nl4 else jp in
  let jp := if jp <? 1 then jp + nl4 else jp in
  Ok (z, ((IZR jp - (IZR kshift + 1) * (1 / 2)) * (PI / 2 / IZR nr))%R).
