(** Concrete lines used as witnesses and examples of the TLE properties. *)
From Coq Require Import String ZArith List Bool Lia QArith.
From Verif Require Import CLib TleModel TleSpec TleProofs2.
Import ListNotations.
Open Scope Z_scope.

Definition iss1 := buffer100 "1 25544U 98067A   24132.52083333  .00016717  00000+0  30270-3 0  9995".
Definition iss2 := buffer100 "2 25544  51.6390 160.2230 0003580  90.1234 269.9876 15.50249123452892".

(** Element values of that TLE. *)
Definition iss_elements : elements :=
  mk_elements 25544 85 (bytes "98067A  ") 2024 13252083333 16717
    (0 # 1) (30270 # 100000000) 48 999 516390 1602230 3580 901234 2699876 1550249123 45289.

(** Some record to start from. *)
Definition blank_tle : tle_t :=
  mk_tle 0 0 0 0 0 0 0 0 0 0 0 0 0 0 0 (repeat 0 8).

Ltac digits_ok := repeat (apply Forall_cons; [unfold digit; lia|]); apply Forall_nil.
Ltac printable_ok := repeat (apply Forall_cons; [unfold printable; lia|]); apply Forall_nil.

Lemma iss_layout1 : layout1 iss1 iss_elements.
Proof.
  unfold layout1.
  split; [vm_compute; lia|].
  split; [unfold data_ok; vm_compute firstn; printable_ok|].
  split; [vm_compute; discriminate|].
  split; [reflexivity|]. split; [reflexivity|].
  split; [unfold norad_count; cbn; lia|].
  split; [reflexivity|]. split; [reflexivity|].
  split; [unfold digit; cbn; lia|]. split; [reflexivity|].
  split.
  { exists 24. split; [|reflexivity]. split; [vm_compute field; digits_ok|reflexivity]. }
  split.
  { exists 132, 52083333. split; [exists 0%nat, [49;51;50]; repeat split; try discriminate; digits_ok|].
    split; [reflexivity|]. split; [|reflexivity]. split; [vm_compute field; digits_ok|reflexivity]. }
  split; [reflexivity|].
  split.
  { exists 16717. split; [reflexivity|]. split; [|reflexivity]. split; [vm_compute field; digits_ok|reflexivity]. }
  split; [reflexivity|].
  split.
  { exists 32, [48;48;48;48;48], 43, 48. repeat split; try (unfold digit; lia); try tauto. digits_ok. }
  split.
  { exists 32, [51;48;50;55;48], 45, 51. repeat split; try (unfold digit; lia); try tauto. digits_ok. }
  split; [reflexivity|]. split; [discriminate|].
  exists 1%nat, [57;57;57]. repeat split; try discriminate. digits_ok.
Qed.

Lemma iss_layout2 : layout2 iss2 iss_elements.
Proof.
  unfold layout2.
  split; [vm_compute; lia|].
  split; [unfold data_ok; vm_compute firstn; printable_ok|].
  split; [vm_compute; discriminate|].
  split; [reflexivity|]. split; [reflexivity|].
  split. { exists 1%nat, [53;49], [54;51;57;48]. repeat split; digits_ok. }
  split; [reflexivity|].
  split. { exists 0%nat, [49;54;48], [50;50;51;48]. repeat split; digits_ok. }
  split; [reflexivity|].
  split. { split; [vm_compute field; digits_ok|reflexivity]. }
  split; [reflexivity|].
  split. { exists 1%nat, [57;48], [49;50;51;52]. repeat split; digits_ok. }
  split; [reflexivity|].
  split. { exists 0%nat, [50;54;57], [57;56;55;54]. repeat split; digits_ok. }
  split; [reflexivity|].
  split. { exists 15, 50249123. split; [exists 0%nat, [49;53]; repeat split; try discriminate; digits_ok|].
           split; [reflexivity|]. split; [|reflexivity]. split; [vm_compute field; digits_ok|reflexivity]. }
  exists 0%nat, [52;53;50;56;57]. repeat split; try discriminate. digits_ok.
Qed.

(** Line 1 with a blank exponent digit: the check digit is right. *)
Definition bad_sci1 := buffer100 "1 25544U 98067A   24132.52083333  .00016717  00000+0  30270-  0  9992".
(** Line 2 without a blank after column 43. *)
Definition bad_angle2 := buffer100 "2 25544  51.6390 160.2230 0003580  90.1234x269.9876x15.50249123452892".
Definition overflow_angle2 := buffer100 "2 25544  51.6390 160.2230 0003580  90.1234 269.9876115.50249123452893".
(** State-vector lines; line 1 has a wrong check digit (3 instead of 4). *)
Definition high1 := buffer100 "1 40391U 15007B   15091.99922241 +0000ABCD -00ZZ1234 +00000001H  9994".
Definition high1_bad := buffer100 "1 40391U 15007B   15091.99922241 +0000ABCD -00ZZ1234 +00000001H  9993".
Definition high1_bad_digit := buffer100 "1 40391U 15007B   15091.99922241 +0000aBCD -00ZZ1234 +00000001H  9994".
Definition high2 := buffer100 "2 40391 0.12345678901234567890   +00001234 -00005678 +00000001    0 7".
