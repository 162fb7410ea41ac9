(** Sidereal time: lmst_hr.c. *)
From Coq Require Import ZArith List Bool.
From Verif Require Import CLib ArithModel.
Open Scope Z_scope.

Section Time.
Context (A : arith).
Let D := num A.
Local Infix "+." := (add A) (at level 50, left associativity).
Local Infix "-." := (sub A) (at level 50, left associativity).
Local Infix "*." := (mul A) (at level 40, left associativity).
Local Infix "/." := (div A) (at level 40, left associativity).
Local Infix "<." := (ltn A) (at level 70).
Local Notation "# n" := (int A n) (at level 1).

(** lmst_hr.c:44-45: the loop; more than [n] turns are [Stuck] (4 turns suffice, see the proofs). *)
Fixpoint reduce24 (n : nat) (g : D) : res D :=
  if #24 <. g then match n with O => UB Stuck | S n => reduce24 n (g -. #24) end else Ok g.
(** lmst_hr.c:18-53: the value returned and the value stored in *gmst. *)
Definition lmst_hr (jd longit : D) : res (D * D) :=
  jdin <- c_long A jd ;;
  let jdint := c_real A jdin in
  let jdfrac := jd -. jdint in
  let '(jdmid, ut) := if jdfrac <. cst A 5 10 then (jdint -. cst A 5 10, jdfrac +. cst A 5 10) else (jdint +. cst A 5 10, jdfrac -. cst A 5 10) in
  let t := (jdmid -. #2451545) /. #36525 in
  let sid_g := (cst A 2411054841 100000 +. t *. (cst A 8640184812866 1000000 +. t *. (cst A 93104 1000000 -. t *. cst A 62 10000000))) /. #86400 in
  sid_int <- c_long A sid_g ;;
  let sid_g := sid_g -. c_real A sid_int in
  let gmst := sid_g +. cst A 100273790934 100000000000 *. ut in
  let sid_g := gmst +. longit /. #360 in
  gmst <- reduce24 4 (gmst *. #24) ;;
  sid_int <- c_long A sid_g ;;
  let sid_g := (sid_g -. c_real A sid_int) *. #24 in
  Ok (if sid_g <. #0 then sid_g +. #24 else sid_g, gmst).
End Time.
