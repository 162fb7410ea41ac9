(** Property theorems C119-C120: dates with milliseconds (mjd2datef) and the program mjdnow. *)
From Coq Require Import ZArith String Ascii List Bool Reals Lra Lia.
From Flocq Require Import IEEE754.BinarySingleNaN.
From Verif Require Import CLib FloatModel CalendarModel CalendarSpec CalendarProofs1 CalendarProofs2 DatefModel DatefSpec CalendarProofs8 CalendarProofs9 TleSpec.
Import ListNotations.
Open Scope R_scope.

(** C119: for every double from the year 1000 to the year 9999, the text is a valid date-time with three digits of milliseconds, and
    the instant lies in the millisecond printed, up to 2e-8 ms (a tenth of a millisecond before 18 November 1858). *)
Theorem C119_close : forall mjd : b64, is_finite mjd = true -> -313697 <= B2R mjd < 2973484 ->
  exists n t h mi s ms, mjd2datef mjd = Ok (Some (iso_ms t h mi s ms)) /\ day_number n t /\ valid_time h mi s /\ (0 <= ms <= 999)%Z /\
    let e := if Rle_dec 1 (B2R mjd) then / 50000000 else / 10 in
    IZR (instant_ms n h mi s ms) <= 86400000 * B2R mjd + e /\ 86400000 * B2R mjd < IZR (instant_ms n h mi s ms) + 1 + e.
Proof. exact datef_close. Qed.
Print Assumptions C119_close.
(** The text fits the 24-byte buffer exactly for the years -999 to 9999; other accepted dates overrun it. *)
Theorem C119_exactly : forall mjd : b64, is_finite mjd = true -> -2468570 <= B2R mjd <= 997599999.5 ->
  (-1043818 <= B2R mjd < 2973484 -> exists text, mjd2datef mjd = Ok (Some text) /\ List.length text = 23%nat) /\
  (~ (-1043818 <= B2R mjd < 2973484) -> mjd2datef mjd = UB OutOfBounds).
Proof. exact datef_exact. Qed.
Print Assumptions C119_exactly.
Theorem C119_null : forall mjd : b64, is_finite mjd = true -> B2R mjd < -2468570 \/ 997599999.5 < B2R mjd -> mjd2datef mjd = Ok None.
Proof. exact datef_refused. Qed.
Print Assumptions C119_null.
(** 60000 + 28/128 day is 05:15:00 exactly and a double; the millisecond before is printed. *)
Theorem C119_whole_second_refuted : exists mjd : b64, B2SF mjd = B2SF (lit 7680028 128) /\
  mjd2datef mjd = Ok (Some (bytes "2023-02-25T05:14:59.999")).
Proof. exists (lit 7680028 128). vm_compute. split; reflexivity. Qed.
Print Assumptions C119_whole_second_refuted.
Theorem C119_overruns_refuted : mjd2datef (of_int 2973484) = UB OutOfBounds.
Proof. vm_compute. reflexivity. Qed.
Print Assumptions C119_overruns_refuted.
Example C119_example : mjd2datef (lit 6000021885 100000) = Ok (Some (bytes "2023-02-25T05:15:08.639")) /\
  iso_ms (2023, 2, 25)%Z 5 15 8 639 = bytes "2023-02-25T05:15:08.639" /\ day_number 60000 (2023, 2, 25)%Z /\
  is_finite (lit 6000021885 100000) = true /\ mjd2datef (of_int (-313697)) = Ok (Some (bytes "1000-01-02T00:00:00.000")) /\
  mjd2datef (of_int (-1043818)) = Ok (Some (bytes "-999-01-01T00:00:00.000")) /\ mjd2datef (of_int (-1043819)) = UB OutOfBounds /\
  mjd2datef (of_int (-2468571)) = Ok None.
Proof.
  split; [vm_compute; reflexivity|]. split; [reflexivity|]. split; [apply day_number_iff; split; [split; vm_compute; split; discriminate|reflexivity]|].
  vm_compute. repeat split.
Qed.

(** C120: for every system time from 1970 to 9999, the line printed is a decimal number with six places within 0.0433 s
    (5.01e-7 day) of the Modified Julian Day of that date and time. *)
Theorem C120_mjdnow : forall n t h mi s, day_number n t -> (1970 <= fst (fst t) <= 9999)%Z -> valid_time h mi s ->
  exists text v, mjdnow (86400 * (n - 40587) + second_of_day h mi s) = text ++ [10%Z] /\ decimal 6 text v /\
    Rabs (v - (IZR n + IZR (second_of_day h mi s) / 86400)) <= 501 / 10 ^ 9.
Proof. exact mjdnow_ok. Qed.
Print Assumptions C120_mjdnow.
(** The zero of the system time is the start of 1 January 1970; 1677302107 is 25 February 2023, 05:15:07 (0.218831018...). *)
Example C120_example : day_number 40587 (1970, 1, 1)%Z /\ mjdnow 0 = bytes "40587.000000" ++ [10%Z] /\
  (86400 * (60000 - 40587) + second_of_day 5 15 7 = 1677302107)%Z /\ mjdnow 1677302107 = bytes "60000.218831" ++ [10%Z] /\
  decimal 6 (bytes "60000.218831") (60000218831 / 1000000).
Proof.
  split; [apply day_number_iff; split; [split; vm_compute; split; discriminate|reflexivity]|].
  split; [vm_compute; reflexivity|]. split; [reflexivity|]. split; [vm_compute; reflexivity|].
  exists [54; 48; 48; 48; 48]%Z, [50; 49; 56; 56; 51; 49]%Z. split; [reflexivity|]. split; [discriminate|].
  split; [|split; [|split; [reflexivity|]]]; [unfold all_digits; repeat (apply Forall_cons; [lia|]); apply Forall_nil..|].
  replace (digits_value _) with 60000218831%Z by (vm_compute; reflexivity). lra.
Qed.
