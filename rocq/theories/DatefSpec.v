(** Specification: date-times with milliseconds, and decimal numbers as printed. *)
From Coq Require Import ZArith List Bool Reals.
From Verif Require Import CalendarSpec.
Import ListNotations.
Open Scope Z_scope.

(** ISO text with three digits after the seconds. *)
Definition three (n : Z) : list Z := [48 + n / 100; 48 + n / 10 mod 10; 48 + n mod 10].
Definition iso_ms (t : date) (h mi s ms : Z) : list Z := iso t h mi s ++ [46] ++ three ms.
(** Milliseconds since the start of 17 November 1858. *)
Definition instant_ms (n h mi s ms : Z) : Z := 86400000 * n + 1000 * second_of_day h mi s + ms.

(** A text of digits, a point and [k] digits, and the number it stands for. *)
Definition all_digits (t : list Z) : Prop := Forall (fun c => 48 <= c <= 57) t.
Definition digits_value (t : list Z) : Z := fold_left (fun v c => 10 * v + (c - 48)) t 0.
Definition decimal (k : nat) (text : list Z) (v : R) : Prop :=
  exists a b, text = a ++ [46] ++ b /\ a <> [] /\ all_digits a /\ all_digits b /\ length b = k /\ (v = IZR (digits_value (a ++ b)) / 10 ^ k)%R.
