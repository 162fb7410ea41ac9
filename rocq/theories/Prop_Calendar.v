(** Property theorems C14-C17: dates and Modified Julian Days. *)
From Coq Require Import ZArith String Ascii List Bool Reals Lra Lia.
From Flocq Require Import IEEE754.BinarySingleNaN.
From Verif Require Import CLib FloatModel CalendarModel CalendarSpec CalendarProofs1 CalendarProofs2 CalendarProofs6 CalendarProofs7 TleSpec.
Import ListNotations.
Open Scope R_scope.

(** C14: the MJD is the day number plus the time of day rounded to k/100000 day (|k/100000 - T/86400| <= 1/200000, that is
    |108 k - 125 T| <= 54), up to 2^-24 day of float rounding; at midnight it is exactly the day number. *)
Theorem C14_date_to_mjd : forall n t h mi s rest, day_number n t -> (0 <= fst (fst t) <= 9999)%Z -> valid_time h mi s ->
  exists k mjd, date2mjd_nf (iso t h mi s ++ rest) = (0%Z, mjd) /\ is_finite mjd = true /\
    (Z.abs (108 * k - 125 * second_of_day h mi s) <= 54)%Z /\
    Rabs (B2R mjd - (IZR n + IZR k / 100000)) <= / IZR (2 ^ 24).
Proof. exact date2mjd_ok. Qed.
Print Assumptions C14_date_to_mjd.
Theorem C14_midnight : forall n t rest, day_number n t -> (0 <= fst (fst t) <= 9999)%Z ->
  exists mjd, date2mjd_nf (iso t 0 0 0 ++ rest) = (0%Z, mjd) /\ is_finite mjd = true /\ B2R mjd = IZR n.
Proof. exact date2mjd_midnight. Qed.
Print Assumptions C14_midnight.
(** Every valid date has exactly one day number, and every day number one date. *)
Theorem C14_calendar_complete : forall t, valid_date t -> exists n, day_number n t /\ forall n', day_number n' t -> n' = n.
Proof. exact day_number_total. Qed.
Print Assumptions C14_calendar_complete.
Example C14_example : day_number 60000 (2023, 2, 25)%Z /\ valid_time 5 15 7 /\
  bytes "2023-02-25T05:15:07" = iso (2023, 2, 25)%Z 5 15 7 /\
  B2SF (snd (date2mjd_nf (bytes "2024-02-29T00:00:00"))) = B2SF (of_int 60369) /\
  day_number 60369 (2024, 2, 29)%Z.
Proof.
  split; [apply day_number_iff; split; [split; vm_compute; split; discriminate|reflexivity]|].
  split; [unfold valid_time; lia|]. split; [reflexivity|]. split; [vm_compute; reflexivity|].
  apply day_number_iff; split; [split; vm_compute; split; discriminate|reflexivity].
Qed.

(** C15: for every double from the year 1000 to the year 9999, the date-time printed is a valid one and is the whole second
    nearest to the instant (within 0.0002 s for the rounding of the double sum, so ties may go either way). *)
Theorem C15_mjd_to_date : forall mjd : b64, is_finite mjd = true -> -313697 <= B2R mjd <= 2973483.9999 ->
  exists n t h mi s, mjd2date mjd = Ok (Some (iso t h mi s)) /\ day_number n t /\ valid_time h mi s /\
    Rabs (86400 * B2R mjd - (86400 * IZR n + IZR (second_of_day h mi s))) <= 0.5 + / 5000.
Proof. exact mjd2date_nearest. Qed.
Print Assumptions C15_mjd_to_date.
(** The clock is the floor of the instant advanced by half a second (in double arithmetic), except that a whole second may be
    printed as the second before.  Missing: the statement's plain floor, which the refutation below excludes. *)
Theorem C15_floor_partial : forall mjd : b64, is_finite mjd = true -> 257 <= B2R mjd <= 2973483.9999 ->
  exists n t h mi s, mjd2date mjd = Ok (Some (iso t h mi s)) /\ day_number n t /\ valid_time h mi s /\
    IZR n <= B2R (fadd mjd HALF_S_IN_DAYS) < IZR n + 1 /\
    IZR (second_of_day h mi s) <= 86400 * (B2R (fadd mjd HALF_S_IN_DAYS) - IZR n) <= IZR (second_of_day h mi s) + 1.
Proof. exact mjd2date_floor. Qed.
Print Assumptions C15_floor_partial.
(** 60000 + 28/128 day is 05:15:00 exactly; 05:14:59 is printed. *)
Theorem C15_floor_refuted : exists mjd : b64,
  B2SF (fadd mjd HALF_S_IN_DAYS) = B2SF (lit 7680028 128) /\ mjd2date mjd = Ok (Some (bytes "2023-02-25T05:14:59")).
Proof. exists (fsub (lit 7680028 128) HALF_S_IN_DAYS). vm_compute. split; reflexivity. Qed.
Print Assumptions C15_floor_refuted.
Example C15_example : is_finite (lit 6000021885 100000) = true /\ -313697 <= B2R (lit 6000021885 100000) <= 2973483.9999 /\
  257 <= B2R (lit 6000021885 100000) /\
  mjd2date (lit 6000021885 100000) = Ok (Some (bytes "2023-02-25T05:15:09")) /\
  mjd2date (of_int (-313697)) = Ok (Some (bytes "1000-01-02T00:00:00")).
Proof.
  split; [vm_compute; reflexivity|].
  assert (E: B2SF (lit 6000021885 100000) = SpecFloat.S754_finite false 8246367286834967 (-37)) by (vm_compute; reflexivity).
  rewrite <- (SF2R_B2SF _ _ (lit 6000021885 100000)), E. unfold SF2R, Defs.F2R, Zaux.cond_Zopp, Defs.Fnum, Defs.Fexp.
  change (Raux.bpow Zaux.radix2 (-37)) with (/ 137438953472).
  split; [lra|]. split; [lra|]. vm_compute. split; reflexivity.
Qed.

(** C16: dates of the years 1000-9999 survive the round trip to the second. *)
Theorem C16_roundtrip : forall n t h mi s rest, day_number n t -> (1000 <= fst (fst t) <= 9999)%Z -> valid_time h mi s ->
  exists mjd, date2mjd_nf (iso t h mi s ++ rest) = (0%Z, mjd) /\ mjd2date mjd = Ok (Some (iso t h mi s)).
Proof. exact date_roundtrip. Qed.
Print Assumptions C16_roundtrip.
Example C16_example : day_number 60369 (2024, 2, 29)%Z /\ valid_time 23 59 59 /\
  mjd2date (snd (date2mjd_nf (bytes "2024-02-29T23:59:59"))) = Ok (Some (bytes "2024-02-29T23:59:59")).
Proof.
  split; [apply day_number_iff; split; [split; vm_compute; split; discriminate|reflexivity]|].
  split; [unfold valid_time; lia|]. vm_compute. reflexivity.
Qed.
(** For a year below 1000 the text differs: the year is padded with blanks, not zeros. *)
Theorem C16_small_years_refuted : exists t h mi s, valid_date t /\ (0 <= fst (fst t) <= 9999)%Z /\ valid_time h mi s /\
  mjd2date (snd (date2mjd_nf (iso t h mi s))) <> Ok (Some (iso t h mi s)).
Proof.
  exists (987, 7, 3)%Z, 12%Z, 0%Z, 0%Z. split; [split; vm_compute; split; discriminate|].
  split; [vm_compute; split; discriminate|]. split; [unfold valid_time; lia|].
  assert (E: mjd2date (snd (date2mjd_nf (iso (987, 7, 3)%Z 12 0 0))) = Ok (Some (bytes " 987-07-03T12:00:00"))) by (vm_compute; reflexivity).
  rewrite E. vm_compute. discriminate.
Qed.
Print Assumptions C16_small_years_refuted.

(** C17: of all finite doubles that the function accepts, exactly those whose rounded sum with half a second lies in the years
    -999 to 9999 (MJD -1043818 up to 2973484) give a text of 19 characters that fits the 20-byte buffer; all others overrun it. *)
Theorem C17_exactly : forall mjd : b64, is_finite mjd = true -> -2468570 <= B2R mjd <= 997599999.5 ->
  (-1043818 <= B2R (fadd mjd HALF_S_IN_DAYS) < 2973484 -> exists text, mjd2date mjd = Ok (Some text) /\ List.length text = 19%nat) /\
  (~ (-1043818 <= B2R (fadd mjd HALF_S_IN_DAYS) < 2973484) -> mjd2date mjd = UB OutOfBounds).
Proof. exact mjd2date_exact. Qed.
Print Assumptions C17_exactly.
Theorem C17_null_range : forall mjd : b64, is_finite mjd = true ->
  (mjd2date mjd = Ok None <-> B2R mjd < -2468570 \/ 997599999.5 < B2R mjd).
Proof. exact mjd2date_refused. Qed.
Print Assumptions C17_null_range.
(** Later dates overrun the buffer (MJD 2973484 is 1 January 10000) ... *)
Theorem C17_date_overruns_refuted : mjd2date (of_int 2973484) = UB OutOfBounds /\ mjd2date (of_int 100000000) = UB OutOfBounds.
Proof. vm_compute. split; reflexivity. Qed.
Print Assumptions C17_date_overruns_refuted.
(** ... and out-of-range ones yield the null pointer, which the callers hand to strcpy and printf. *)
Theorem C17_date_null_refuted : exists mjd : b64, is_finite mjd = true /\ mjd2date mjd = Ok None.
Proof. exists (of_int 2000000000). vm_compute. split; reflexivity. Qed.
Print Assumptions C17_date_null_refuted.
Theorem C17_null_exactly : forall mjd : b64, mjd2date mjd = Ok None <->
  flt (fadd JD_OFF mjd) DJMIN = true \/ flt DJMAX (fadd JD_OFF mjd) = true.
Proof. exact mjd2date_null. Qed.
Print Assumptions C17_null_exactly.
Example C17_example : mjd2date (of_int (-678940)) = Ok (Some (bytes "   0-01-02T00:00:00")) /\
  mjd2date (of_int 2973483) = Ok (Some (bytes "9999-12-31T00:00:00")) /\
  mjd2date (of_int (-1043818)) = Ok (Some (bytes "-999-01-01T00:00:00")) /\ mjd2date (of_int (-1043819)) = UB OutOfBounds /\
  mjd2date (of_int (-2468570)) = UB OutOfBounds /\ mjd2date (of_int (-2468571)) = Ok None /\
  (exists r, mjd2date B754_nan = UB r) /\ mjd2date (B754_infinity false) = Ok None.
Proof. vm_compute. repeat split. eexists. reflexivity. Qed.
