(** Model of /repo/src/date2mjd_nf.c and /repo/src/mjd2date.c. *)
From Coq Require Import ZArith List Bool.
From Flocq Require Import IEEE754.BinarySingleNaN.
From Verif Require Import CLib FloatModel.
Import ListNotations.
Open Scope Z_scope.

(** sscanf conversion "%<w>d" (C11 7.21.6.2): skip white space, then at most [w] characters of an optionally
    signed decimal number.  [None] is an input or matching failure.  The text is the list of bytes before the NUL. *)
Fixpoint scan_digits (w : nat) (acc : Z) (p : list Z) : Z * list Z :=
  match w, p with
  | S w', c :: p' => if is_digit c then scan_digits w' (acc * 10 + (c - 48)) p' else (acc, p)
  | _, _ => (acc, p)
  end.
Definition scan_unsigned (w : nat) (p : list Z) : option (Z * list Z) :=
  match w, p with
  | S _, c :: _ => if is_digit c then Some (scan_digits w 0 p) else None
  | _, _ => None
  end.
Definition scan_int (w : nat) (p : list Z) : option (Z * list Z) :=
  match c_skip_space p with
  | [] => None
  | c :: p' =>
      if c =? 45 then
        match scan_unsigned (pred w) p' with Some (v, q) => Some (- v, q) | None => None end
      else if c =? 43 then scan_unsigned (pred w) p'
      else scan_unsigned w (c :: p')
  end.
(** A literal character of the format. *)
Definition scan_char (c : Z) (p : list Z) : option (list Z) :=
  match p with d :: p' => if d =? c then Some p' else None | [] => None end.

(** date2mjd_nf.c:22 [sscanf( date, "%4d-%2d-%2dT%2d:%2d:%2d", ...) == 6]. *)
Definition scan_date (p : list Z) : option (Z * Z * Z * Z * Z * Z) :=
  match scan_int 4 p with None => None | Some (y, p) =>
  match scan_char 45 p with None => None | Some p =>
  match scan_int 2 p with None => None | Some (m, p) =>
  match scan_char 45 p with None => None | Some p =>
  match scan_int 2 p with None => None | Some (d, p) =>
  match scan_char 84 p with None => None | Some p =>
  match scan_int 2 p with None => None | Some (h, p) =>
  match scan_char 58 p with None => None | Some p =>
  match scan_int 2 p with None => None | Some (mm, p) =>
  match scan_char 58 p with None => None | Some p =>
  match scan_int 2 p with None => None | Some (s, _) => Some (y, m, d, h, mm, s)
  end end end end end end end end end end end.

(** date2mjd_nf.c:25-31, the day part in double arithmetic. *)
Definition jd_of_date (y m d : Z) : b64 :=
  let '(y, m) := if m <=? 2 then (y - 1, m + 12) else (y, m) in
  let a := Z.quot y 100 in
  let b := 2 - a + Z.quot a 4 in
  fadd (fadd (fadd (fadd (of_int b) (ffloor (fmul (lit 36525 100) (of_int y))))
                   (ffloor (fmul (lit 306001 10000) (of_int (m + 1)))))
             (of_int d))
       (lit 17209945 10).

(** date2mjd_nf.c:34 [roundf((s + 60 * (mm + 60 * h)) / 86400. * 100000) / 100000]; the argument of roundf is
    converted to float, the quotient is a float division. *)
Definition day_fraction (h mm s : Z) : b32 :=
  fdiv32 (froundf (narrow (fmul (fdiv (of_int (s + 60 * (mm + 60 * h))) (of_int 86400)) (of_int 100000))))
         (of_int32 100000).

(** date2mjd_nf.c:15 JD_OFF; mjd2date.c:17-20. *)
Definition JD_OFF : b64 := lit 24000005 10.
Definition DJMIN : b64 := lit (-685695) 10.
Definition DJMAX : b64 := of_int 1000000000.
Definition HALF_S_IN_DAYS : b64 := lit 5787037037037037 1000000000000000000000.

(** date2mjd_nf.c:17-48: return code and [*mjd]. *)
Definition date2mjd_nf (text : list Z) : Z * b64 :=
  match scan_date text with
  | Some (y, m, d, h, mm, s) =>
      (0, fsub (fadd (jd_of_date y m d) (widen (day_fraction h mm s))) JD_OFF)
  | None => (-1, of_int 0)
  end.

(** mjd2date.c:31-51, splitting into day number [jd] and day fraction [f]; [None] = [return 0]. *)
Definition mjd_split (mjd : b64) : res (option (Z * b64)) :=
  let dj := fadd JD_OFF mjd in
  if flt dj DJMIN || flt DJMAX dj then Ok None
  else
    let '(d1, d2) := if fle mjd JD_OFF then (JD_OFF, fadd mjd HALF_S_IN_DAYS)
                     else (fadd mjd HALF_S_IN_DAYS, JD_OFF) in
    let d2 := fsub d2 (lit 1 2) in
    let f1 := fmod1 d1 in
    let f2 := fmod1 d2 in
    let f := fmod1 (fadd f1 f2) in
    let f := if flt f (of_int 0) then fadd f (of_int 1) else f in
    let d := fadd (fadd (ffloor (fsub d1 f1)) (ffloor (fsub d2 f2))) (ffloor (fsub (fadd f1 f2) f)) in
    j <- to_long (ffloor d) ;;
    Ok (Some (j + 1, f)).

(** mjd2date.c:54-63, the calendar date of [jd] ([long] arithmetic, C division). *)
Definition gregorian (jd : Z) : Z * Z * Z :=
  let l := jd + 68569 in
  let n := Z.quot (4 * l) 146097 in
  let l := l - Z.quot (146097 * n + 3) 4 in
  let i := Z.quot (4000 * (l + 1)) 1461001 in
  let l := l - (Z.quot (1461 * i) 4 - 31) in
  let k := Z.quot (80 * l) 2447 in
  let id := l - Z.quot (2447 * k) 80 in
  let l := Z.quot k 11 in
  let im := k + 2 - 12 * l in
  let iy := 100 * (n - 49) + i + l in
  (iy, im, id).

(** mjd2date.c:64-68, clock fields. *)
Definition clock (f : b64) : res (Z * Z * Z) :=
  h <- to_int (fmul f (of_int 24)) ;;
  let f := fsub f (fdiv (of_int h) (of_int 24)) in
  mm <- to_int (fmul f (of_int 1440)) ;;
  let f := fsub f (fdiv (of_int mm) (of_int 1440)) in
  s <- to_int (fmul f (of_int 86400)) ;;
  Ok (h, mm, s).

(** printf conversion of an [int]: decimal digits with at least [prec] of them, then padded on the left with
    blanks to [width]. *)
Fixpoint digits_rev (fuel : nat) (z : Z) : list Z :=
  match fuel with
  | O => []
  | S fuel' => (48 + z mod 10) :: (if z <? 10 then [] else digits_rev fuel' (z / 10))
  end.
Definition print_int (width prec : nat) (z : Z) : list Z :=
  let ds := rev (digits_rev 20 (Z.abs z)) in
  let ds := repeat 48 (prec - length ds) ++ ds in
  let t := if z <? 0 then 45 :: ds else ds in
  repeat 32 (width - length t) ++ t.

(** mjd2date.c:70 format "%4d-%2.2d-%2.2dT%2.2d:%2.2d:%2.2d". *)
Definition print_date (y m d h mm s : Z) : list Z :=
  print_int 4 1 y ++ [45] ++ print_int 2 2 m ++ [45] ++ print_int 2 2 d ++ [84] ++
  print_int 2 2 h ++ [58] ++ print_int 2 2 mm ++ [58] ++ print_int 2 2 s.

(** mjd2date.c:23-73.  [Ok None] is the null pointer; the buffer has 20 bytes including the NUL. *)
Definition mjd2date (mjd : b64) : res (option (list Z)) :=
  r <- mjd_split mjd ;;
  match r with
  | None => Ok None
  | Some (jd, f) =>
      let '(y, m, d) := gregorian jd in
      t <- clock f ;;
      let '(h, mm, s) := t in
      let text := print_date y m d h mm s in
      if (length text <? 20)%nat then Ok (Some text) else UB OutOfBounds
  end.
