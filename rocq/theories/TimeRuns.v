(** Runs of lmst_hr in binary64. *)
From Coq Require Import ZArith Reals Lra Lia Bool List.
From Flocq Require Import IEEE754.BinarySingleNaN.
From Verif Require Import CLib FloatModel ArithModel FloatLemmas TimeModel TimeSpec TimeProofs AngleProofs TimeProofs2.
Open Scope R_scope.

Definition run_l (jd lon : b64) (f : b64 -> b64 -> bool) : bool := match lmst64 jd lon with Ok (l, g) => f l g | UB _ => false end.
Lemma run_inv m jd lon f : run_l jd lon f = true -> exists l g, lmst_hr (machine m) jd lon = Ok (l, g) /\ f l g = true.
Proof. unfold run_l. rewrite lmst64_eq. destruct (lmst64 jd lon) as [[l g]|]; [|discriminate]. intros H. exists l, g. auto. Qed.

(** 1900 January 1, 0h, Greenwich. *)
Definition jd_1900 : b64 := round_ratio 24150205 10.
Lemma run_negative m : exists l g, lmst_hr (machine m) jd_1900 F0 = Ok (l, g) /\ flt g F0 = true.
Proof. apply (run_inv m _ _ (fun _ g => flt g F0)). vm_compute. reflexivity. Qed.
(** 1976 December 8: a fraction of -3e-16 of a revolution. *)
Definition jd_1976 : b64 := round_ratio 2443121316953128 1000000000.
Definition lon_1976 : b64 := fopp (round_ratio 11782755583340668 1000000000000000).
Lemma run_24 m : exists l g, lmst_hr (machine m) jd_1976 lon_1976 = Ok (l, g) /\ feq l F24 = true.
Proof. apply (run_inv m _ _ (fun l _ => feq l F24)). vm_compute. reflexivity. Qed.
(** 2024 March 20, 12h, longitude 11.34 degrees east: local sidereal time 0.6568 h, Greenwich 23.9008 h. *)
Lemma run_2024 m : exists l g, lmst_hr (machine m) (round_ratio 2460390 1) (round_ratio 1134 100) = Ok (l, g)
  /\ flt (round_ratio 6567 10000) l && flt l (round_ratio 6568 10000) && flt (round_ratio 239007 10000) g && flt g (round_ratio 239008 10000) = true.
Proof. apply (run_inv m _ _ (fun l g => flt (round_ratio 6567 10000) l && flt l (round_ratio 6568 10000) && flt (round_ratio 239007 10000) g && flt g (round_ratio 239008 10000))). vm_compute. reflexivity. Qed.
