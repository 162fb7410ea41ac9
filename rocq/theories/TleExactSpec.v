(** The pairs of lines whose decoding is defined: exactly. *)
From Coq Require Import ZArith List.
From Verif Require Import TleSpec TleSafeSpec.
Import ListNotations.
Open Scope Z_scope.

Definition fits (v : Z) : Prop := - 2 ^ 31 <= v < 2 ^ 31.
(** Two lines that are decoded at all: numbered 1 and 2, data columns of allowed characters, nothing visible after the check digit. *)
Definition tle_pair (l1 l2 : list Z) : Prop :=
  (col l1 0 = 49 /\ col l1 1 = 32 /\ data_ok l1 /\ col l1 69 <= 32) /\ (col l2 0 = 50 /\ col l2 1 = 32 /\ data_ok l2 /\ col l2 69 <= 32).
(** An angle: blanks, characters other than blanks, a blank; whatever the characters are, points are dropped and the others count as digits,
    and every partial value fits an int, before and after the new digit is added. *)
Definition undotted (t : list Z) : list Z := filter (fun c => negb (c =? 46)) t.
Definition some_angle (p : list Z) (v : Z) : Prop :=
  exists k tok rest, p = repeat 32 k ++ tok ++ 32 :: rest /\ tok <> [] /\ ~ In 32 tok /\ v = decimal (undotted tok)
  /\ forall a c b, undotted tok = a ++ c :: b -> fits (10 * decimal a) /\ fits (decimal (a ++ [c])).
(** A number with an exponent: a blank after the sign, or a mantissa; the exponent is looked at only if the mantissa is not zero. *)
Definition some_sci (p : list Z) : Prop := col p 1 = 32 \/ exists v, number p v /\ (v = 0 \/ 48 <= col p 7).
(** The catalogue number: read as a decimal number only if the first character is a blank or one of the 34 symbols and the four others are blanks or digits. *)
Definition plain (c : Z) : Prop := c = 32 \/ digit c.
Definition some_catalogue (p : list Z) : Prop :=
  forall d, (col p 0 = 32 /\ d = 0 \/ 0 <= d < 34 /\ col p 0 = sym d) -> Forall plain (firstn 4 (skipn 1 p)) ->
  exists v, number (skipn 1 p) v /\ fits (10000 * d + v).
(** All fields. *)
Definition fields_defined (l1 l2 : list Z) : Prop :=
  a_number (skipn 20 l1) /\ a_number (skipn 24 l1) /\ some_catalogue (skipn 2 l1)
  /\ (col l1 62 = 72 -> high_fits l1 l2)
  /\ (col l1 62 <> 72 -> Forall (fun k => exists v, some_angle (skipn k l2) v) [8; 17; 34; 43]%nat /\ a_number (skipn 26 l2)
      /\ a_number (firstn 12 (skipn 51 l2) ++ [0]) /\ a_number (skipn 35 l1) /\ some_sci (skipn 44 l1) /\ some_sci (skipn 53 l1)).
(** The first character of a catalogue number counts d ten thousands. *)
Definition leads (c d : Z) : Prop := c = 32 /\ d = 0 \/ 0 <= d < 34 /\ c = sym d.
