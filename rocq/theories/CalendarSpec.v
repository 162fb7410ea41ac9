(** Independent specification: the Gregorian calendar by its day-to-day rule, clock times, and the ISO text. *)
From Coq Require Import ZArith List Bool Reals.
Import ListNotations.
Open Scope Z_scope.

Definition leap (y : Z) : bool :=
  (y mod 4 =? 0) && (negb (y mod 100 =? 0) || (y mod 400 =? 0)).

Definition month_length (y m : Z) : Z :=
  match m with
  | 1 => 31 | 2 => if leap y then 29 else 28 | 3 => 31 | 4 => 30 | 5 => 31 | 6 => 30
  | 7 => 31 | 8 => 31 | 9 => 30 | 10 => 31 | 11 => 30 | 12 => 31 | _ => 0
  end.

Definition date : Set := (Z * Z * Z)%type.   (* year, month, day *)

Definition valid_date (t : date) : Prop :=
  let '(y, m, d) := t in 1 <= m <= 12 /\ 1 <= d <= month_length y m.

(** The following day. *)
Definition tomorrow (t : date) : date :=
  let '(y, m, d) := t in
  if d <? month_length y m then (y, m, d + 1)
  else if m <? 12 then (y, m + 1, 1) else (y + 1, 1, 1).

(** [day_number n t]: [t] is the [n]-th day after 17 November 1858 (before it for negative [n]). *)
Inductive day_number : Z -> date -> Prop :=
| day_zero : day_number 0 (1858, 11, 17)
| day_after : forall n t, day_number n t -> day_number (n + 1) (tomorrow t)
| day_before : forall n t, valid_date t -> day_number n (tomorrow t) -> day_number (n - 1) t.

(** Clock time and its second of the day. *)
Definition valid_time (h mi s : Z) : Prop := 0 <= h <= 23 /\ 0 <= mi <= 59 /\ 0 <= s <= 59.
Definition second_of_day (h mi s : Z) : Z := 3600 * h + 60 * mi + s.

(** ISO text of a date-time with a four-digit year. *)
Definition two (n : Z) : list Z := [48 + n / 10; 48 + n mod 10].
Definition four (n : Z) : list Z := [48 + n / 1000; 48 + n / 100 mod 10; 48 + n / 10 mod 10; 48 + n mod 10].
Definition iso (t : date) (h mi s : Z) : list Z :=
  let '(y, m, d) := t in
  four y ++ [45] ++ two m ++ [45] ++ two d ++ [84] ++ two h ++ [58] ++ two mi ++ [58] ++ two s.
