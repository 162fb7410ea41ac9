(** Model of the pixel numbering of /repo/HealpixC/chealpix.c (the variant without BMI2 instructions, which is the one the
    Makefile builds).  Integer arithmetic is on Z; the range of the intermediate results is a separate matter stated in the
    theorems (nside <= 8192 for [int], nside <= 2^29 for [int64_t]). *)
From Coq Require Import ZArith List Bool.
From Flocq Require Import IEEE754.BinarySingleNaN.
From Verif Require Import CLib FloatModel.
Import ListNotations.
Open Scope Z_scope.

(** Subscript of a constant table. *)
Definition at_ (t : list Z) (i : Z) : res Z :=
  if i <? 0 then UB OutOfBounds else match nth_error t (Z.to_nat i) with Some v => Ok v | None => UB OutOfBounds end.

(** chealpix.c:76-87 [ctab], with its macros. *)
Definition ctab : list Z :=
  let z a := [a; a + 1; a + 256; a + 257] in
  let y a := z a ++ z (a + 2) ++ z (a + 512) ++ z (a + 514) in
  let x a := y a ++ y (a + 4) ++ y (a + 1024) ++ y (a + 1028) in
  x 0 ++ x 8 ++ x 2048 ++ x 2056.
(** chealpix.c:91-99 [utab]: the macros paste hexadecimal digits. *)
Definition utab : list Z :=
  let z a := [16 * a; 16 * a + 1; 16 * a + 4; 16 * a + 5] in
  let y a := z (16 * a) ++ z (16 * a + 1) ++ z (16 * a + 4) ++ z (16 * a + 5) in
  let x a := y (16 * a) ++ y (16 * a + 1) ++ y (16 * a + 4) ++ y (16 * a + 5) in
  x 0 ++ x 1 ++ x 4 ++ x 5.

(** chealpix.c:101-102. *)
Definition jrll : list Z := [2; 2; 2; 2; 3; 3; 3; 3; 4; 4; 4; 4].
Definition jpll : list Z := [1; 3; 5; 7; 0; 2; 4; 6; 1; 3; 5; 7].

(** chealpix.c:106-111. *)
Definition xyf2nest (nside ix iy face : Z) : res Z :=
  a <- at_ utab (Z.land ix 255) ;; b <- at_ utab (Z.shiftr ix 8) ;;
  c <- at_ utab (Z.land iy 255) ;; d <- at_ utab (Z.shiftr iy 8) ;;
  Ok (face * nside * nside +
      Z.lor (Z.lor (Z.lor a (Z.shiftl b 16)) (Z.shiftl c 1)) (Z.shiftl d 17)).

(** chealpix.c:117, 120: the bits at even positions, squeezed for the table. *)
Definition raw_bits (pix : Z) : Z := Z.lor (Z.land pix 21845) (Z.shiftr (Z.land pix 1431633920) 15).
Definition compress (raw : Z) : res Z :=
  a <- at_ ctab (Z.land raw 255) ;; b <- at_ ctab (Z.shiftr raw 8) ;; Ok (Z.lor a (Z.shiftl b 4)).
(** chealpix.c:112-122. *)
Definition nest2xyf (nside pix : Z) : res (Z * Z * Z) :=
  let npface := nside * nside in
  let face := Z.quot pix npface in
  let pix := Z.land pix (npface - 1) in
  ix <- compress (raw_bits pix) ;;
  let pix := Z.shiftr pix 1 in
  iy <- compress (raw_bits pix) ;;
  Ok (ix, iy, face).

(** chealpix.c:73-74 [isqrt]: [(int)(sqrt(v+0.5))]. *)
Definition isqrt (v : Z) : res Z := to_int (fsqrt (fadd (of_int v) (lit 1 2))).

(** chealpix.c:144-149. *)
Definition special_div (a b : Z) : Z :=
  let t := if 2 * b <=? a then 1 else 0 in
  let a := a - t * (2 * b) in
  2 * t + (if b <=? a then 1 else 0).

(** chealpix.c:151-184.  [/ 2] is C division of a non-negative or small negative number. *)
Definition xyf2ring (nside ix iy face : Z) : res Z :=
  let nl4 := 4 * nside in
  fr <- at_ jrll face ;;
  fp <- at_ jpll face ;;
  let jr := fr * nside - ix - iy - 1 in
  let '(nr, n_before, kshift) :=
    if jr <? nside then (jr, 2 * jr * (jr - 1), 0)
    else if 3 * nside <? jr then
      let nr := nl4 - jr in (nr, 12 * nside * nside - 2 * (nr + 1) * nr, 0)
    else
      (nside, 2 * nside * (nside - 1) + (jr - nside) * nl4, Z.land (jr - nside) 1) in
  let jp := Z.quot (fp * nr + ix - iy + 1 + kshift) 2 in
  let jp := if nl4 <? jp then jp - nl4 else if jp <? 1 then jp + nl4 else jp in
  Ok (n_before + jp - 1).

(** Face of an equatorial pixel, chealpix.c:213, 246, 619, 655. *)
Definition face_of (ifp ifm : Z) : Z :=
  if ifp =? ifm then Z.lor ifp 4 else if ifp <? ifm then ifp else ifm + 8.

(** Reduction to [unsigned int]. *)
Definition u32 (z : Z) : Z := z mod 4294967296.

(** chealpix.c:224-229, common end. *)
Definition ring_end (nside iring iphi kshift nr face : Z) : res (Z * Z * Z) :=
  let nl2 := 2 * nside in
  fr <- at_ jrll face ;;
  fp <- at_ jpll face ;;
  let irt := iring - fr * nside + 1 in
  let ipt := 2 * iphi - fp * nr - kshift - 1 in
  let ipt := if nl2 <=? ipt then ipt - 8 * nside else ipt in
  Ok (Z.shiftr (ipt - irt) 1, Z.shiftr (- (ipt + irt)) 1, face).

(** chealpix.c:185-230. *)
Definition ring2xyf (nside pix : Z) : res (Z * Z * Z) :=
  let ncap := 2 * nside * (nside - 1) in
  let npix := 12 * nside * nside in
  let nl2 := 2 * nside in
  if pix <? ncap then
    s <- isqrt (1 + 2 * pix) ;;
    let iring := Z.shiftr (1 + s) 1 in
    let iphi := (pix + 1) - 2 * iring * (iring - 1) in
    ring_end nside iring iphi 0 iring (special_div (iphi - 1) iring)
  else if pix <? npix - ncap then
    let ip := pix - ncap in
    let iring := Z.quot ip (4 * nside) + nside in
    let iphi := Z.rem ip (4 * nside) + 1 in
    let kshift := Z.land (iring + nside) 1 in
    let ire := u32 (iring - nside + 1) in
    let irm := u32 (nl2 + 2 - ire) in
    let ifm := Z.quot (u32 (iphi - Z.quot ire 2 + nside - 1)) nside in
    let ifp := Z.quot (u32 (iphi - Z.quot irm 2 + nside - 1)) nside in
    ring_end nside iring iphi kshift nside (face_of ifp ifm)
  else
    let ip := npix - pix in
    s <- isqrt (2 * ip - 1) ;;
    let iring := Z.shiftr (1 + s) 1 in
    let iphi := 4 * iring + 1 - (ip - 2 * iring * (iring - 1)) in
    ring_end nside (2 * nl2 - iring) iphi 0 iring (8 + special_div (iphi - 1) iring).

(** chealpix.c:468-481. *)
Definition nest2ring (nside ipnest : Z) : res Z :=
  if negb (Z.land nside (nside - 1) =? 0) then Ok (-1)
  else t <- nest2xyf nside ipnest ;; let '(ix, iy, f) := t in xyf2ring nside ix iy f.
Definition ring2nest (nside ipring : Z) : res Z :=
  if negb (Z.land nside (nside - 1) =? 0) then Ok (-1)
  else t <- ring2xyf nside ipring ;; let '(ix, iy, f) := t in xyf2nest nside ix iy f.

(** chealpix.c:409-416: [isqrt] takes an [int], so [npix/12] is converted (modulo 2^32 on this target). *)
Definition wrap_int (z : Z) : Z := (z + 2147483648) mod 4294967296 - 2147483648.
Definition npix2nside (npix : Z) : res Z :=
  r <- isqrt (wrap_int (Z.quot npix 12)) ;;
  Ok (if r * r * 12 =? npix then r else -1).
Definition nside2npix (nside : Z) : Z := 12 * nside * nside.

(** ** 64-bit functions *)

(** chealpix.c:487-496. *)
Definition isqrt64 (v : Z) : res Z :=
  r <- to_long (fsqrt (fadd (of_int v) (lit 1 2))) ;;
  if v <? 2 ^ 50 then Ok r
  else if v <? r * r then Ok (r - 1)
  else if (r + 1) * (r + 1) <=? v then Ok (r + 1) else Ok r.

(** chealpix.c:499-505; the shift amounts are below the width of [int64_t]. *)
Definition spread_bits64 (v : Z) : res Z :=
  a <- at_ utab (Z.land v 255) ;; b <- at_ utab (Z.land (Z.shiftr v 8) 255) ;;
  c <- at_ utab (Z.land (Z.shiftr v 16) 255) ;; d <- at_ utab (Z.land (Z.shiftr v 24) 255) ;;
  Ok (Z.lor (Z.lor (Z.lor a (Z.shiftl b 16)) (Z.shiftl c 32)) (Z.shiftl d 48)).
(** chealpix.c:507-513. *)
Definition compress_bits64 (v : Z) : res Z :=
  let raw := Z.land v 6148914691236517205 in
  let raw := Z.lor raw (Z.shiftr raw 15) in
  a <- at_ ctab (Z.land raw 255) ;; b <- at_ ctab (Z.land (Z.shiftr raw 8) 255) ;;
  c <- at_ ctab (Z.land (Z.shiftr raw 32) 255) ;; d <- at_ ctab (Z.land (Z.shiftr raw 40) 255) ;;
  Ok (Z.lor (Z.lor (Z.lor a (Z.shiftl b 4)) (Z.shiftl c 16)) (Z.shiftl d 20)).
(** chealpix.c:515-528. *)
Definition xyf2nest64 (nside ix iy face : Z) : res Z :=
  a <- spread_bits64 ix ;; b <- spread_bits64 iy ;; Ok (face * nside * nside + a + Z.shiftl b 1).
Definition nest2xyf64 (nside pix : Z) : res (Z * Z * Z) :=
  let npface := nside * nside in
  let face := Z.quot pix npface in
  let pix := Z.land pix (npface - 1) in
  ix <- compress_bits64 pix ;; iy <- compress_bits64 (Z.shiftr pix 1) ;; Ok (ix, iy, face).

(** chealpix.c:550-555. *)
Definition special_div64 (a b : Z) : Z :=
  let t := if 2 * b <=? a then 1 else 0 in
  let a := a - t * (2 * b) in
  2 * t + (if b <=? a then 1 else 0).

(** chealpix.c:557-590. *)
Definition xyf2ring64 (nside ix iy face : Z) : res Z :=
  let nl4 := 4 * nside in
  fr <- at_ jrll face ;;
  fp <- at_ jpll face ;;
  let jr := fr * nside - ix - iy - 1 in
  let '(nr, n_before, kshift) :=
    if jr <? nside then (jr, 2 * jr * (jr - 1), 0)
    else if 3 * nside <? jr then
      let nr := nl4 - jr in (nr, 12 * nside * nside - 2 * (nr + 1) * nr, 0)
    else
      (nside, 2 * nside * (nside - 1) + (jr - nside) * nl4, Z.land (jr - nside) 1) in
  let jp := Z.quot (fp * nr + ix - iy + 1 + kshift) 2 in
  let jp := if nl4 <? jp then jp - nl4 else if jp <? 1 then jp + nl4 else jp in
  Ok (n_before + jp - 1).

(** chealpix.c:591-637 (signed arithmetic here). *)
Definition ring2xyf64 (nside pix : Z) : res (Z * Z * Z) :=
  let ncap := 2 * nside * (nside - 1) in
  let npix := 12 * nside * nside in
  let nl2 := 2 * nside in
  if pix <? ncap then
    s <- isqrt64 (1 + 2 * pix) ;;
    let iring := Z.shiftr (1 + s) 1 in
    let iphi := (pix + 1) - 2 * iring * (iring - 1) in
    ring_end nside iring iphi 0 iring (special_div64 (iphi - 1) iring)
  else if pix <? npix - ncap then
    let ip := pix - ncap in
    let iring := Z.quot ip (4 * nside) + nside in
    let iphi := Z.rem ip (4 * nside) + 1 in
    let kshift := Z.land (iring + nside) 1 in
    let ire := iring - nside + 1 in
    let irm := nl2 + 2 - ire in
    let ifm := Z.quot (iphi - Z.quot ire 2 + nside - 1) nside in
    let ifp := Z.quot (iphi - Z.quot irm 2 + nside - 1) nside in
    ring_end nside iring iphi kshift nside (face_of ifp ifm)
  else
    let ip := npix - pix in
    s <- isqrt64 (2 * ip - 1) ;;
    let iring := Z.shiftr (1 + s) 1 in
    let iphi := 4 * iring + 1 - (ip - 2 * iring * (iring - 1)) in
    ring_end nside (2 * nl2 - iring) iphi 0 iring (8 + special_div64 (iphi - 1) iring).

(** chealpix.c:821-828, 886-899. *)
Definition nest2ring64 (nside ipnest : Z) : res Z :=
  if negb (Z.land nside (nside - 1) =? 0) then Ok (-1)
  else t <- nest2xyf64 nside ipnest ;; let '(ix, iy, f) := t in xyf2ring64 nside ix iy f.
Definition ring2nest64 (nside ipring : Z) : res Z :=
  if negb (Z.land nside (nside - 1) =? 0) then Ok (-1)
  else t <- ring2xyf64 nside ipring ;; let '(ix, iy, f) := t in xyf2nest64 nside ix iy f.
(** [isqrt64(npix/12.)]: a double quotient truncated to [int64_t]. *)
Definition npix2nside64 (npix : Z) : res Z :=
  v <- to_long (fdiv (of_int npix) (of_int 12)) ;;
  r <- isqrt64 v ;;
  Ok (if r * r * 12 =? npix then r else -1).
Definition nside2npix64 (nside : Z) : Z := 12 * nside * nside.
