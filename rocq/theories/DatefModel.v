(** Model of the dates with milliseconds of /repo/src/mjd2date.c and of the program /repo/src/mjdnow.c. *)
From Coq Require Import ZArith List Bool.
From Flocq Require Import IEEE754.BinarySingleNaN.
From Verif Require Import CLib FloatModel CalendarModel IoModel.
Import ListNotations.
Open Scope Z_scope.

(** mjd2date.c:86-107, splitting into day number [jd] and day fraction [f]; [None] = [return 0]. *)
Definition mjdf_split (mjd : b64) : res (option (Z * b64)) :=
  let dj := fadd JD_OFF mjd in
  if flt dj DJMIN || flt DJMAX dj then Ok None
  else
    let '(d1, d2) := if fle mjd JD_OFF then (JD_OFF, mjd) else (mjd, JD_OFF) in
    let d2 := fsub d2 (lit 1 2) in
    let f1 := fmod1 d1 in
    let f2 := fmod1 d2 in
    let f := fmod1 (fadd f1 f2) in
    let f := if flt f (of_int 0) then fadd f (of_int 1) else f in
    let d := fadd (fadd (ffloor (fsub d1 f1)) (ffloor (fsub d2 f2))) (ffloor (fsub (fadd f1 f2) f)) in
    j <- to_long (ffloor d) ;;
    Ok (Some (j + 1, f)).

(** mjd2date.c:119-125, clock fields and milliseconds; 8.64e7 is the double 86400000. *)
Definition clockf (f : b64) : res (Z * Z * Z * Z) :=
  h <- to_int (fmul f (of_int 24)) ;;
  let f := fsub f (fdiv (of_int h) (of_int 24)) in
  mm <- to_int (fmul f (of_int 1440)) ;;
  let f := fsub f (fdiv (of_int mm) (of_int 1440)) in
  s <- to_int (fmul f (of_int 86400)) ;;
  let f := fsub f (fdiv (of_int s) (of_int 86400)) in
  fs <- to_int (fmul f (of_int 86400000)) ;;
  Ok (h, mm, s, fs).

(** mjd2date.c:127 format "%4d-%2.2d-%2.2dT%2.2d:%2.2d:%2.2d.%3.3d". *)
Definition print_datef (y m d h mm s fs : Z) : list Z := print_date y m d h mm s ++ [46] ++ print_int 3 3 fs.

(** mjd2date.c:77-129; lines 109-118 are the same text as lines 54-63.  [Ok None] is the null pointer; the buffer has 24 bytes including the NUL. *)
Definition mjd2datef (mjd : b64) : res (option (list Z)) :=
  r <- mjdf_split mjd ;;
  match r with
  | None => Ok None
  | Some (jd, f) =>
      let '(y, m, d) := gregorian jd in
      t <- clockf f ;;
      let '(h, mm, s, fs) := t in
      let text := print_datef y m d h mm s fs in
      if (length text <? 24)%nat then Ok (Some text) else UB OutOfBounds
  end.

(** mjdnow.c:13-14: the MJD of the system time [now] in seconds and the line printed ("%lf\n"). *)
Definition mjd_of_time (now : Z) : b64 := fadd (of_int 40587) (fdiv (of_int now) (of_int 86400)).
Definition mjdnow (now : Z) : list Z := print_f 0 6 (mjd_of_time now) ++ [10].
