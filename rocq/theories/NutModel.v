(** Nutation and obliquity (earthtilt.c), sidereal time and the zenith (zenith_site_ra.c).  Neither of the two programs
    calls these functions; they are part of the library (Makefile:28). *)
From Coq Require Import ZArith List Bool.
From Verif Require Import CLib ArithModel.
Import ListNotations.
Open Scope Z_scope.

(** ** The tables *)
(** earthtilt.c:78-93: whole numbers. *)
Definition clng : list Z :=
   [1; 1; -1; -1; 1; -1; -1; -1; -1; -1; -1; 1; -1; 1; -1; 1; 1; -1; -1; 1; 1; -1; 1; -1; 1; -1; -1; -1; 1; -1; -1; 1; -1; 1; 2; 2; 2; 2; 2;
   -2; 2; 2; 2; 3; -3; -3; 3; -3; 3; -3; 3; 4; 4; -4; -4; 4; -4; 5; 5; 5; -5; 6; 6; 6; -6; 6; -7; 7; 7; -7; -8; 10; 11; 12; -13; -15; -16;
   -16; 17; -21; -22; 26; 29; 29; -31; -38; -46; 48; -51; 58; 59; 63; 63; -123; 129; -158; -217; -301; -386; -517; 712; 1426; 2062; -2274;
   -13187; -171996].
(** earthtilt.c:94-95, in tenths. *)
Definition clngx10 : list Z :=
   [1; -1; 1; 1; 1; 1; 2; -2; -4; 5; 12; -16; -34; -1742].
(** earthtilt.c:96-106. *)
Definition cobl : list Z :=
   [1; 1; 1; -1; -1; -1; 1; 1; 1; 1; 1; -1; 1; -1; 1; -1; -1; -1; 1; -1; 1; 1; -1; -2; -2; -2; 3; 3; -3; 3; 3; -3; 3; 3; -3; 3; 3; 5; 6; 7;
   -7; 7; -8; 9; -10; -12; 13; 16; -24; 26; 27; 32; -33; -53; 54; -70; -95; 129; 200; 224; -895; 977; 5736; 92025].
(** earthtilt.c:107, in tenths. *)
Definition coblx10 : list Z :=
   [-1; -1; 3; 5; -5; -6; -31; 89].
(** earthtilt.c:110. *)
Definition nav1 : list Z :=
   [0; 0; 1; 0; 2; 1; 3; 0; 4; 0].
(** earthtilt.c:111. *)
Definition nav2 : list Z :=
   [0; 0; 0; 5; 1; 1; 3; 3; 4; 4].
(** earthtilt.c:112-122. *)
Definition nav : list Z :=
   [2; 0; 1; 1; 5; 2; 2; 0; 2; 1; 0; 3; 2; 5; 8; 1; 17; 8; 1; 18; 0; 2; 0; 8; 0; 1; 3; 2; 1; 8; 0; 17; 1; 1; 15; 1; 2; 21; 1; 1; 2; 8; 2; 0;
   29; 1; 21; 2; 2; 1; 29; 2; 0; 9; 2; 5; 4; 2; 0; 4; 0; 1; 9; 2; 1; 4; 0; 2; 9; 2; 2; 4; 1; 14; 44; 2; 0; 45; 2; 5; 44; 2; 50; 0; 1; 36; 2;
   2; 5; 45; 1; 37; 2; 2; 1; 45; 2; 1; 44; 2; 53; 1; 2; 8; 4; 1; 40; 3; 2; 17; 4; 2; 0; 64; 1; 39; 8; 2; 27; 4; 1; 50; 18; 1; 21; 47; 2; 44;
   3; 2; 44; 8; 2; 45; 8; 1; 46; 8; 0; 67; 2; 1; 5; 74; 1; 0; 74; 2; 50; 8; 1; 5; 78; 2; 17; 53; 2; 53; 8; 2; 0; 80; 2; 0; 81; 0; 7; 79; 1;
   7; 81; 2; 1; 81; 2; 24; 44; 1; 1; 79; 2; 27; 44].
(** earthtilt.c:123-131. *)
Definition llng : list Z :=
   [57; 25; 82; 34; 41; 66; 33; 36; 19; 88; 18; 104; 93; 84; 47; 28; 83; 86; 69; 75; 89; 30; 58; 73; 46; 77; 23; 32; 59; 72; 31; 16; 74; 22;
   98; 38; 62; 96; 37; 35; 6; 76; 85; 51; 26; 10; 13; 63; 105; 52; 102; 67; 99; 15; 24; 14; 3; 100; 65; 11; 55; 68; 20; 87; 64; 95; 27; 60;
   61; 80; 91; 94; 12; 43; 71; 42; 97; 70; 7; 49; 29; 2; 5; 92; 50; 78; 56; 17; 48; 40; 90; 8; 39; 54; 81; 21; 103; 53; 45; 101; 0; 1; 9;
   44; 79; 4].
(** earthtilt.c:132. *)
Definition llngx : list Z :=
   [81; 7; 97; 0; 39; 40; 9; 44; 45; 103; 101; 79; 1; 4].
(** earthtilt.c:133-137. *)
Definition lobl : list Z :=
   [51; 98; 17; 21; 5; 2; 63; 105; 38; 52; 102; 62; 96; 37; 35; 76; 36; 88; 85; 104; 93; 84; 83; 67; 99; 8; 68; 100; 60; 61; 91; 87; 64; 80;
   95; 65; 55; 94; 43; 97; 0; 71; 70; 42; 49; 92; 50; 78; 56; 90; 48; 40; 39; 54; 1; 81; 103; 53; 45; 101; 9; 44; 79; 4].
(** earthtilt.c:138. *)
Definition loblx : list Z :=
   [53; 1; 103; 9; 44; 101; 79; 4].

(** Reading an element of a constant table. *)
Definition tab (t : list Z) (i : Z) : res Z :=
  if 0 <=? i then match nth_error t (Z.to_nat i) with Some v => Ok v | None => UB OutOfBounds end else UB OutOfBounds.
(** An array of [double] on the stack; [None] is an element that has not been written. *)
Definition arr_get {T : Type} (a : list (option T)) (i : Z) : res T :=
  if 0 <=? i then match nth_error a (Z.to_nat i) with Some (Some v) => Ok v | Some None => UB Uninit | None => UB OutOfBounds end else UB OutOfBounds.
Definition arr_set {T : Type} (a : list (option T)) (i : Z) (v : T) : res (list (option T)) :=
  if (0 <=? i) && (i <? Z.of_nat (length a)) then Ok (firstn (Z.to_nat i) a ++ Some v :: skipn (S (Z.to_nat i)) a) else UB OutOfBounds.

(** for (ii = i; ii < lim; ii += step); the body also says whether it leaves the loop; [n] bounds the number of turns. *)
Fixpoint for_ {S : Type} (n : nat) (i lim step : Z) (body : Z -> S -> res (S * bool)) (s : S) : res S :=
  if i <? lim then
    match n with
    | O => UB Stuck
    | S n => r <- body i s ;; let '(s, leave) := r in if leave : bool then Ok s else for_ n (i + step) lim step body s
    end
  else Ok s.

Section Nutation.
Context (A : arith).
Let D := num A.
Local Infix "+." := (add A) (at level 50, left associativity).
Local Infix "-." := (sub A) (at level 50, left associativity).
Local Infix "*." := (mul A) (at level 40, left associativity).
Local Infix "/." := (div A) (at level 40, left associativity).
Local Infix "<." := (ltn A) (at level 70).
Local Infix "<=." := (len A) (at level 70).
Local Notation "# n" := (int A n) (at level 1).

(** earthtilt.c:145-159: a[0] to a[4]. *)
Definition arguments (t : D) : list (option D) :=
  [Some (cst A (23555483935439407) 10000000000000000 +. t *. (cst A (8328691422883896) 1000000000000
     +. t *. (cst A (1517951635553957) 10000000000000000000 +. cst A (31028075591010306) 100000000000000000000000 *. t)));
   Some (cst A (6240035939326023) 1000000000000000 +. t *. (cst A (6283019560241842) 10000000000000
     +. t *. (cst A (-27973749400020225) 10000000000000000000000 -. cst A (5817764173314431) 100000000000000000000000 *. t)));
   Some (cst A (16279019339719611) 10000000000000000 +. t *. (cst A (8433466158318453) 1000000000000
     +. t *. (cst A (-6427174970469119) 100000000000000000000 +. cst A (5332950492204896) 100000000000000000000000 *. t)));
   Some (cst A (5198469513579922) 1000000000000000 +. t *. (cst A (7771377146170642) 1000000000000
     +. t *. (cst A (-3340851076525812) 100000000000000000000 +. cst A (9211459941081184) 100000000000000000000000 *. t)));
   Some (cst A (21824386243609943) 10000000000000000 +. t *. (cst A (-3375704593375351) 100000000000000
     +. t *. (cst A (3614285992671591) 100000000000000000000 +. cst A (3878509448876288) 100000000000000000000000 *. t)))].

(** The index and the arrays c and s. *)
Definition tables : Type := (Z * list (option D) * list (option D))%type.
(** c[i] and s[i] are written and i is increased. *)
Definition put (st : tables) (cv sv : D) : res tables :=
  let '(i, c, s) := st in
  c <- arr_set c i cv ;; s <- arr_set s i sv ;; Ok (i + 1, c, s).

(** earthtilt.c:161-168: the body of the first loop. *)
Definition turn1 (a : list (option D)) (ii : Z) (st : tables) : res (tables * bool) :=
  k <- tab nav1 ii ;; m <- tab nav1 (1 + ii) ;; x <- arr_get a k ;;
  let angle := x *. c_real A (m + 1) in
  st <- put st (c_cos A angle) (c_sin A angle) ;; Ok (st, false).
(** The cosine and sine of a sum; of a difference. *)
Definition products (st : tables) (i1 i2 : Z) : res (D * D * D * D) :=
  let '(_, c, s) := st in
  c1 <- arr_get c i1 ;; c2 <- arr_get c i2 ;; s1 <- arr_get s i1 ;; s2 <- arr_get s i2 ;;
  Ok (c1 *. c2, s1 *. s2, s1 *. c2, c1 *. s2).
(** earthtilt.c:170-179: the body of the second loop. *)
Definition turn2 (ii : Z) (st : tables) : res (tables * bool) :=
  i1 <- tab nav2 ii ;; i2 <- tab nav2 (1 + ii) ;;
  p <- products st i1 i2 ;; let '(cc, ss, sc, cs) := p in
  st <- put st (cc -. ss) (sc +. cs) ;; Ok (st, false).
(** earthtilt.c:181-214: the body of the third loop.  (The order in which the operands are read is of no consequence.) *)
Definition turn3 (ii : Z) (st : tables) : res (tables * bool) :=
  iop <- tab nav ii ;; i1 <- tab nav (1 + ii) ;; i2 <- tab nav (2 + ii) ;;
  st <- (if iop =? 0 then p <- products st i1 i2 ;; let '(cc, ss, sc, cs) := p in put st (cc -. ss) (sc +. cs)
         else if iop =? 1 then p <- products st i1 i2 ;; let '(cc, ss, sc, cs) := p in put st (cc +. ss) (sc -. cs)
         else if iop =? 2 then
           p <- products st i1 i2 ;; let '(cc, ss, sc, cs) := p in
           st <- put st (cc -. ss) (sc +. cs) ;; put st (cc +. ss) (sc -. cs)
         else Ok st) ;;
  Ok (st, iop =? 3).
(** earthtilt.c:140, 145-214: the arrays c and s. *)
Definition fill (t : D) : res tables :=
  st <- for_ 5 0 10 2 (turn1 (arguments t)) (0, repeat None 106, repeat None 106) ;;
  let '(_, c, s) := st in
  st <- for_ 5 0 10 2 turn2 (5, c, s) ;;
  let '(_, c, s) := st in
  for_ 61 0 183 3 turn3 (10, c, s).
(** earthtilt.c:216-230: the sum of [n] products. *)
Definition total (n : nat) (coef : Z -> D) (cs ix : list Z) (v : list (option D)) : res D :=
  for_ n 0 (Z.of_nat n) 1 (fun i sum => k <- tab cs i ;; j <- tab ix i ;; x <- arr_get v j ;; Ok (sum +. coef k *. x, false)) #0.
(** earthtilt.c:17-236: the nutation in longitude and in obliquity. *)
Definition calcnutation (t : D) : res (D * D) :=
  st <- fill t ;; let '(_, c, s) := st in
  lng <- total 106 (fun k => #k) clng llng s ;;
  lngx <- total 14 (fun k => cst A k 10) clngx10 llngx s ;;
  obl <- total 64 (fun k => #k) cobl lobl c ;;
  oblx <- total 8 (fun k => cst A k 10) coblx10 loblx c ;;
  Ok ((lng +. t *. lngx) /. #10000, (obl +. t *. oblx) /. #10000).

(** earthtilt.c:305: what the function keeps from call to call, 0 at first. *)
Record tilt := mk_tilt { tjd_last : D; d_psi : D; d_eps : D; mean_obliq : D; true_obliq : D; eq_eq : D }.
Definition tilt0 : tilt := mk_tilt #0 #0 #0 #0 #0 #0.
(** earthtilt.c:238-353.  The five results are those kept: mobl, tobl, eq, dpsi, deps. *)
Definition earthtilt (st : tilt) (tjd : D) : res (tilt * (D * D * D * D * D)) :=
  st <- (if cst A 1 100 <. c_fabs A (tjd -. tjd_last st) then
           let t := (tjd -. #2451545) /. #36525 in
           n <- calcnutation t ;; let '(psi, eps) := n in
           let mean := cst A 843814480 10000 -. cst A 468150 10000 *. t -. cst A 59 100000 *. c_pow A t #2 +. cst A 1813 1000000 *. c_pow A t #3 in
           let true_ := mean +. eps in
           let eqeq := psi /. #15 *. c_cos A (true_ *. cst A 4848136811095359936 1000000000000000000000000) in
           Ok (mk_tilt tjd psi eps (mean /. #3600) (true_ /. #3600) eqeq)
         else Ok st) ;;
  Ok (st, (mean_obliq st, true_obliq st, eq_eq st, d_psi st, d_eps st)).

(** earthtilt.c:305: what is kept after calls for these dates, the latest first. *)
Fixpoint tilt_after (dates : list D) : res tilt :=
  match dates with
  | [] => Ok tilt0
  | d :: before => st <- tilt_after before ;; r <- earthtilt st d ;; Ok (fst r)
  end.

(** zenith_site_ra.c:16-55.  8640184.7942063F and 24110.54841F are constants of type [float]: 8640185 and 12344601/512. *)
Definition ut2gmst (ut1 : D) : D :=
  let jd0 := c_floor A ut1 in
  let secs := ut1 -. jd0 in
  let '(jd0, secs) := if secs <. cst A 5 10 then (jd0 -. cst A 5 10, secs +. cst A 5 10) else (jd0 +. cst A 5 10, secs -. cst A 5 10) in
  let secs := secs *. #86400 in
  let T0 := (jd0 -. #2451545) /. #36525 in
  let c1 := opp A (cst A 20 10000000) in
  let gmst := (((c1 *. T0 -. cst A 3 10000000) *. T0 +. cst A 927701 10000000) *. T0 +. #8640185) *. T0 +. cst A 12344601 512 in
  let msday := ((((opp A (#4 *. cst A 20 10000000)) *. T0 -. #3 *. cst A 3 10000000) *. T0 +. #2 *. cst A 927701 10000000) *. T0 +. #8640185)
               /. (#86400 *. #36525) +. #1 in
  let gmst := gmst +. msday *. secs in
  let gmst := gmst -. #86400 *. c_floor A (gmst /. #86400) in
  let gmst := gmst /. #3600 in
  if gmst <. #0 then gmst +. #24 else if #24 <=. gmst then gmst -. #24 else gmst.
(** zenith_site_ra.c:58-73. *)
Definition ut2gast (st : tilt) (ut1 : D) : res (tilt * D) :=
  let gmst := ut2gmst ut1 in
  r <- earthtilt st ut1 ;; let '(st, (_, _, eqeq, _, _)) := r in
  Ok (st, gmst +. eqeq /. #3600).
(** zenith_site_ra.c:83-88 and 107-110: one turn at most. *)
Definition into_day (h : D) : D := if h <. #0 then h +. #24 else if #24 <=. h then h -. #24 else h.
(** zenith_site_ra.c:76-90. *)
Definition ut2last (st : tilt) (ut1 lon : D) : res (tilt * D) :=
  r <- ut2gast st ut1 ;; let '(st, gast) := r in
  Ok (st, into_day (gast +. lon /. #15)).
(** zenith_site_ra.c:95-115: the right ascension in degrees. *)
Definition zenith_site_ra (ut1 lon : D) : D :=
  let ut1 := ut1 +. cst A 24000005 10 in
  into_day (ut2gmst ut1 +. lon /. #15) *. #15.
(** zenith_site_ra.c:118-129. *)
Definition zenith_site_ra_last (st : tilt) (ut1 lon : D) : res (tilt * D) :=
  let ut1 := ut1 +. cst A 24000005 10 in
  r <- ut2last st ut1 lon ;; let '(st, last) := r in
  Ok (st, last *. #15).
(** zenith_site_ra.c:137-147. *)
Definition sph2v (ra dec : D) : D * D * D :=
  let rarad := ra *. c_deg A in let decrad := dec *. c_deg A in
  let cosd := c_cos A decrad in
  (c_cos A rarad *. cosd, c_sin A rarad *. cosd, c_sin A decrad).
(** zenith_site_ra.c:156-177. *)
Definition slaDh2e (az el phi : D) : D * D :=
  let sa := c_sin A az in let ca := c_cos A az in
  let se := c_sin A el in let ce := c_cos A el in
  let sp := c_sin A phi in let cp := c_cos A phi in
  let x := opp A ca *. ce *. sp +. se *. cp in
  let y := opp A sa *. ce in
  let z := ca *. ce *. cp +. se *. sp in
  let r := c_sqrt A (x *. x +. y *. y) in
  (if eqn A r #0 then #0 else c_atan2 A y x, c_atan2 A z r).
End Nutation.
