(** Texts on which the decoding of TLE lines is defined: numbers that fit an int, angles, exponents, state vectors. *)
From Coq Require Import ZArith List.
From Verif Require Import TleSpec.
Import ListNotations.
Open Scope Z_scope.

Definition white (c : Z) : Prop := c = 32 \/ 9 <= c <= 13.
Definition decimal (ds : list Z) : Z := fold_left (fun v c => 10 * v + (c - 48)) ds 0.
(** White space, a sign or none, the digits of a number whose value fits an int, and a character that ends it; there may be no digits. *)
Definition number (p : list Z) (v : Z) : Prop :=
  exists b sg ds c rest, p = b ++ sg ++ ds ++ c :: rest /\ Forall white b /\ (sg = [] \/ sg = [43] \/ sg = [45]) /\ Forall digit ds /\ ~ digit c
  /\ (sg = [] -> ds = [] -> ~ white c /\ c <> 43 /\ c <> 45)
  /\ v = (if list_eq_dec Z.eq_dec sg [45] then - decimal ds else decimal ds) /\ - 2 ^ 31 <= v < 2 ^ 31.
Definition a_number (p : list Z) : Prop := exists v, number p v.
(** Blanks, up to nine digits with or without points, and a blank. *)
Definition an_angle (p : list Z) : Prop :=
  exists k tok rest, p = repeat 32 k ++ tok ++ 32 :: rest /\ tok <> [] /\ Forall (fun c => digit c \/ c = 46) tok /\ (length (filter (fun c => negb (c =? 46)%Z) tok) <= 9)%nat.
(** A number in the notation with an exponent: nothing (a blank after the sign), or a mantissa and an exponent digit in its column. *)
Definition a_sci (p : list Z) : Prop := col p 1 = 32 \/ a_number p /\ 48 <= col p 7.
(** A sign and eight digits of base 36. *)
Definition digit36 (c : Z) : Prop := digit c \/ 65 <= c <= 90.
Definition a_high (p : list Z) : Prop := (col p 0 = 43 \/ col p 0 = 45) /\ Forall digit36 (firstn 8 (skipn 1 p)).
(** The fields read from two lines that pass the checks. *)
(** (the number of the bulletin, the revolution number and the decimals of the mean motion are read from copies of 4, 5 and 8 characters and always fit) *)
Definition numbers_fit (l1 : list Z) : Prop :=
  (exists v, number (skipn 3 l1) v /\ Z.abs v <= 2147000000) /\ a_number (skipn 20 l1) /\ a_number (skipn 24 l1).
Definition high_fits (l1 l2 : list Z) : Prop := Forall (fun k => a_high (skipn k l1) /\ a_high (skipn k l2)) [33; 43; 53]%nat.
Definition mean_fits (l1 l2 : list Z) : Prop :=
  Forall (fun k => an_angle (skipn k l2)) [8; 17; 34; 43]%nat /\ a_number (skipn 26 l2)
  /\ a_number (firstn 12 (skipn 51 l2) ++ [0])
  /\ a_number (skipn 35 l1) /\ a_sci (skipn 44 l1) /\ a_sci (skipn 53 l1).
