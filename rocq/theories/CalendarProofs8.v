(** Dates with milliseconds. *)
From Coq Require Import ZArith List Bool Lia Reals Lra.
From Flocq Require Import Core IEEE754.BinarySingleNaN.
From Verif Require Import CLib FloatModel FloatLemmas CalendarModel CalendarSpec CalendarProofs1 CalendarProofs2 CalendarProofs3 CalendarProofs4 CalendarProofs5 CalendarProofs6 DatefModel DatefSpec CalendarProofs7.
Import ListNotations.
Open Scope R_scope.

(** The largest remainder that is truncated to [s] seconds. *)
Definition last_rem (s : Z) : b64 :=
  let q := fdiv (of_int (s + 1)) (of_int 86400) in if fle (of_int (s + 1)) (fmul q (of_int 86400)) then Bpred q else q.
Definition ms_of (s : Z) (k : b64) : b64 := fmul (fsub k (fdiv (of_int s) (of_int 86400))) (of_int 86400000).
Lemma last_checked : upto 60 (fun s => is_finite (last_rem s) && fle (fsub (of_int 0) (of_int 1)) (last_rem s) && fle (last_rem s) (of_int 1) && (Btrunc (ms_of s (last_rem s)) <=? 999)%Z)%bool 0%Z = true.
Proof. vm_compute. reflexivity. Qed.

Lemma div_R s : (0 <= s <= 100)%Z -> fin (fdiv (of_int s) (of_int 86400)) /\ toR (fdiv (of_int s) (of_int 86400)) = RN (IZR s / 86400).
Proof. intros H. assert (B : 0 <= IZR s <= 100) by (split; apply IZR_le; lia). destruct (lit_R s 86400 0 ltac:(lia) ltac:(lia) ltac:(lia)) as [F E]; [cbn [bpow]; apply Rabs_le; lra|]. split; [exact F|exact E]. Qed.
Lemma rem_le k s : fin k -> Rabs (toR k) <= 1 -> (0 <= s <= 59)%Z -> Ztrunc (toR (fmul k (of_int 86400))) = s -> toR k <= toR (last_rem s).
Proof.
  intros F B Hs T. destruct (of_int_R 86400 ltac:(lia)) as [FC EC]. assert (B' := Rabs_le_inv _ _ B). destruct (fmul_R k (of_int 86400) 20 F FC ltac:(lia)) as [FX EX]; [rewrite EC; change (bpow radix2 20) with 1048576; apply Rabs_le; lra|]. rewrite EC in EX.
  set (x := fmul k (of_int 86400)) in *. assert (X1 : toR x < IZR (s + 1)). { destruct (trunc_bounds (toR x)) as [T1 T2]. rewrite T in T1, T2. rewrite plus_IZR. assert (0 <= IZR s) by (apply IZR_le; lia). destruct (Rle_lt_dec 0 (toR x)); [apply T1; lra|lra]. }
  assert (K : toR k * 86400 < IZR (s + 1)). { destruct (Rlt_le_dec (toR k * 86400) (IZR (s + 1))) as [|L]; [assumption|exfalso]. assert (IZR (s + 1) <= toR x) by (rewrite EX; apply RN_int_ge; [lia|lra]). lra. }
  destruct (div_R (s + 1) ltac:(lia)) as [FQ EQ]. set (q := fdiv (of_int (s + 1)) (of_int 86400)) in *.
  assert (KQ : toR k <= toR q). { rewrite EQ. replace (toR k) with (RN (toR k)) by (apply round_generic; [auto with typeclass_instances|apply generic_format_B2R]). apply RN_le. lra. }
  unfold last_rem. fold q. destruct (fle (of_int (s + 1)) (fmul q (of_int 86400))) eqn:C; [|exact KQ]. assert (SB : 0 <= IZR (s + 1) <= 60) by (split; apply IZR_le; lia).
  assert (QB : 0 <= toR q <= 1) by (rewrite EQ; split; [apply (RN_int_ge _ 0)|apply (RN_int_le _ 1)]; [lia|lra|lia|lra]).
  destruct (fmul_R q (of_int 86400) 20 FQ FC ltac:(lia)) as [FY EY]; [rewrite EC; change (bpow radix2 20) with 1048576; apply Rabs_le; lra|]. destruct (of_int_R (s + 1) ltac:(lia)) as [FS ES]. apply fle_R in C; [|assumption..]. rewrite ES, EY, EC in C.
  assert (LT : toR k < toR q). { destruct (Rle_lt_or_eq_dec _ _ KQ) as [|E]; [assumption|exfalso]. rewrite <- E, <- EX in C. lra. }
  assert (P : toR k <= pred radix2 (SpecFloat.fexp 53 1024) (toR q)) by (apply pred_ge_gt; [apply (fexp_correct 53 1024 prec64_gt0)|apply generic_format_B2R|apply generic_format_B2R|exact LT]).
  assert (BP := Bpred_correct 53 1024 prec64_gt0 prec64_lt q FQ). rewrite Rlt_bool_true in BP; [destruct BP as [E _]; rewrite E; exact P|].
  apply Rlt_le_trans with (toR k); [|exact P]. assert (bpow radix2 0 < bpow radix2 1024) by (apply bpow_lt; lia). change (bpow radix2 0) with 1 in H. lra.
Qed.
Lemma ms_top k s : fin k -> Rabs (toR k) <= 1 -> (0 <= s <= 59)%Z -> Ztrunc (toR (fmul k (of_int 86400))) = s -> (Ztrunc (toR (ms_of s k)) <= 999)%Z.
Proof.
  intros F B Hs T. assert (L := rem_le k s F B Hs T). assert (C := upto_ok _ _ _ last_checked s ltac:(lia)). cbv beta in C. apply andb_true_iff in C. destruct C as [C C4]. apply andb_true_iff in C. destruct C as [C C3]. apply andb_true_iff in C. destruct C as [C1 C2]. apply Z.leb_le in C4.
  set (g := last_rem s) in *. assert (FG : fin g) by exact C1. destruct one_int as [Fo Eo]. assert (M1 : toR (fsub (of_int 0) (of_int 1)) = -1) by (vm_compute; lra). apply fle_R in C2; [|reflexivity|exact FG]. rewrite M1 in C2. apply fle_R in C3; [|exact FG|exact Fo]. rewrite Eo in C3.
  destruct (div_R s ltac:(lia)) as [FQ EQ]. assert (SB : 0 <= IZR s <= 59) by (split; apply IZR_le; lia). assert (QB : 0 <= toR (fdiv (of_int s) (of_int 86400)) <= 1) by (rewrite EQ; split; [apply (RN_int_ge _ 0)|apply (RN_int_le _ 1)]; [lia|lra|lia|lra]). set (q := fdiv (of_int s) (of_int 86400)) in *.
  destruct (of_int_R 86400000 ltac:(lia)) as [FC EC].
  assert (K : forall x, fin x -> -1 <= toR x <= 1 -> fin (fsub x q) /\ toR (fsub x q) = RN (toR x - toR q) /\ toR (ms_of s x) = RN (RN (toR x - toR q) * 86400000)).
  { intros x Fx Bx. destruct (fsub_R x q 1 Fx FQ ltac:(lia)) as [F1 E1]; [change (bpow radix2 1) with 2; apply Rabs_le; lra|]. split; [exact F1|]. split; [exact E1|]. assert (RB : -2 <= RN (toR x - toR q) <= 2) by (split; [apply (RN_int_ge _ (-2))|apply (RN_int_le _ 2)]; [lia|lra|lia|lra]). rewrite <- E1 in RB.
    unfold ms_of. fold q. destruct (fmul_R (fsub x q) (of_int 86400000) 30 F1 FC ltac:(lia)) as [F2 E2]; [rewrite EC; change (bpow radix2 30) with 1073741824; apply Rabs_le; lra|]. rewrite E2, EC, E1. reflexivity. }
  destruct (K k F ltac:(apply Rabs_le_inv in B; lra)) as (_ & _ & EK). destruct (K g FG ltac:(lra)) as (_ & _ & EG). rewrite Btrunc_R, EG in C4. rewrite EK. eapply Z.le_trans; [|exact C4]. apply Ztrunc_le, RN_le, Rmult_le_compat_r; [lra|]. apply RN_le. lra.
Qed.

(** Lines 119-125. *)
Lemma clockf_ok f : fin f -> 0 <= toR f < 1 -> exists h mi s ms, clock f = Ok (h, mi, s) /\ clockf f = Ok (h, mi, s, ms) /\ valid_time h mi s /\ (0 <= ms <= 999)%Z /\
  IZR (1000 * second_of_day h mi s + ms) <= 86400000 * toR f + / 50000000 /\ 86400000 * toR f < IZR (1000 * second_of_day h mi s + ms) + 1 + / 50000000.
Proof.
  intros F B. destruct (clock_close f F B) as (h & mi & s & C & _ & U & L). pose proof (clock_range f h mi s F B C) as (Rh & Rm & Rs). exists h, mi, s. assert (C0 := C).
  unfold clock in C. destruct (to_int (fmul f (of_int 24))) as [h'|] eqn:E1; [|discriminate]. cbn [bind] in C.
  destruct (to_int (fmul (fsub f (fdiv (of_int h') (of_int 24))) (of_int 1440))) as [m'|] eqn:E2; [|discriminate]. cbn [bind] in C.
  destruct (to_int (fmul (fsub (fsub f (fdiv (of_int h') (of_int 24))) (fdiv (of_int m') (of_int 1440))) (of_int 86400))) as [s'|] eqn:E3; [|discriminate]. cbn [bind] in C. injection C as -> -> ->.
  unfold clockf. rewrite E1. cbn [bind]. rewrite E2. cbn [bind]. rewrite E3. cbn [bind].
  rewrite !plus_IZR, !mult_IZR in U, L. assert (BH : 0 <= IZR h <= 23) by (split; apply IZR_le; lia). assert (BM : 0 <= IZR mi <= 59) by (split; apply IZR_le; lia). assert (BS : 0 <= IZR s <= 59) by (split; apply IZR_le; lia).
  destruct (sub_quot_err f h 24 0.042 0 (-4) F) as [F2 B2]; try lia; [cbn [bpow]; apply Rabs_le; lra|apply Rabs_le; lra|change (bpow radix2 (0 - 54)) with (/ 18014398509481984); change (bpow radix2 (-4)) with (/ 16); lra|].
  change (bpow radix2 (0 - 54)) with (/ 18014398509481984) in B2. change (bpow radix2 (-4 - 54)) with (/ 288230376151711744) in B2. set (g := fsub f (fdiv (of_int h) (of_int 24))) in *. apply Rabs_le_inv in B2.
  destruct (sub_quot_err g mi 1440 0.0007 (-4) (-10) F2) as [F4 B4]; try lia; [change (bpow radix2 (-4)) with (/ 16); apply Rabs_le; lra|apply Rabs_le; lra|change (bpow radix2 (-4 - 54)) with (/ 288230376151711744); change (bpow radix2 (-10)) with (/ 1024); lra|].
  change (bpow radix2 (-4 - 54)) with (/ 288230376151711744) in B4. change (bpow radix2 (-10 - 54)) with (/ 18446744073709551616) in B4. set (k := fsub g (fdiv (of_int mi) (of_int 1440))) in *. apply Rabs_le_inv in B4.
  destruct (sub_quot_err k s 86400 0.000012 (-10) (-16) F4) as [F6 B6]; try lia; [change (bpow radix2 (-10)) with (/ 1024); apply Rabs_le; lra|apply Rabs_le; lra|change (bpow radix2 (-10 - 54)) with (/ 18446744073709551616); change (bpow radix2 (-16)) with (/ 65536); lra|].
  change (bpow radix2 (-10 - 54)) with (/ 18446744073709551616) in B6. change (bpow radix2 (-16 - 54)) with (/ 1180591620717411303424) in B6. assert (TS : Ztrunc (toR (fmul k (of_int 86400))) = s) by (apply to_int_inv in E3; rewrite E3; symmetry; apply Btrunc_R). assert (TOP := ms_top k s F4 ltac:(apply Rabs_le; lra) ltac:(lia) TS). unfold ms_of in TOP. set (r := fsub k (fdiv (of_int s) (of_int 86400))) in *. apply Rabs_le_inv in B6.
  destruct (mul_err r 86400000 10 1010 F6) as [F7 B7]; [lia|lia|apply Rabs_le; lra|change (bpow radix2 10) with 1024; lra|]. change (bpow radix2 (10 - 54)) with (/ 17592186044416) in B7. set (x := fmul r (of_int 86400000)) in *.
  destruct (trunc_close (toR x) (toR r * 86400000) (/ 17592186044416)) as (M0 & M1 & M2 & M3); [lra|apply Rabs_le; lra|]. assert (MB : 0 <= IZR (Ztrunc (toR x)) <= 999) by (split; apply IZR_le; lia).
  exists (Ztrunc (toR x)). split; [exact C0|]. rewrite (to_int_R x F7) by lia. cbn [bind]. split; [reflexivity|]. split; [unfold valid_time; lia|]. split; [lia|]. unfold second_of_day. rewrite !plus_IZR, !mult_IZR, !plus_IZR, !mult_IZR. split; [|lra].
  destruct (Rle_lt_dec 0 (toR x)) as [P|P]; [specialize (M2 P); lra|rewrite (M3 P) in *; lra].
Qed.

Lemma triples_checked : upto 1000 (fun n => eql (print_int 3 3 n) (three n)) 0%Z = true. Proof. vm_compute. reflexivity. Qed.
Lemma print_three n : (0 <= n <= 999)%Z -> print_int 3 3 n = three n. Proof. intros H. apply eql_ok, (upto_ok _ _ _ triples_checked). lia. Qed.

Lemma datef_place mjd : fin mjd -> -2468570 <= toR mjd <= 997599999.5 -> exists n f, mjdf_split mjd = Ok (Some ((n + 2400001)%Z, f)) /\ fin f /\ 0 <= toR f < 1 /\ (-2468570 <= n)%Z /\ ((-1043818 <= n <= 2973483)%Z <-> -1043818 <= toR mjd < 2973484) /\
  Rabs (IZR n + toR f - toR mjd) <= / 1000000000 /\ (1 <= toR mjd -> IZR n + toR f = toR mjd).
Proof.
  intros F B. destruct lit_JD as [FJ _]. pose proof JD_OFF_val as EJ. destruct (accepted mjd F B) as [A1 A2]. destruct (place mjd (fle mjd JD_OFF) F ltac:(lra)) as (n & f & E & R).
  { intros H. apply fle_R in H; [|assumption..]. lra. }
  { intros H. apply fle_false in H; [|assumption..]. lra. }
  exists n, f. split; [|exact R]. unfold mjdf_split. rewrite A1, A2. cbn [orb]. rewrite <- E. destruct (fle mjd JD_OFF); reflexivity.
Qed.
Lemma datef_exact mjd : fin mjd -> -2468570 <= toR mjd <= 997599999.5 ->
  (-1043818 <= toR mjd < 2973484 -> exists text, mjd2datef mjd = Ok (Some text) /\ length text = 23%nat) /\ (~ (-1043818 <= toR mjd < 2973484) -> mjd2datef mjd = UB OutOfBounds).
Proof.
  intros F B. destruct (datef_place mjd F B) as (n & f & E & Ff & Bf & Hn & I & _). destruct (text_cases n f Ff Bf Hn) as (y & m & d & h & mi & s & G & _ & _ & C & _ & T1 & T2). destruct (clockf_ok f Ff Bf) as (h' & mi' & s' & ms & C' & CF & _ & Bms & _). rewrite C in C'. injection C' as <- <- <-.
  unfold mjd2datef. rewrite E. cbn [bind]. rewrite G, CF. cbn [bind]. assert (LN : length (print_datef y m d h mi s ms) = (length (print_date y m d h mi s) + 4)%nat) by (unfold print_datef; rewrite app_length, print_three by lia; reflexivity). rewrite LN. split; intros H.
  - rewrite T1 by (apply I; exact H). eexists. split; [reflexivity|]. rewrite LN, T1 by (apply I; exact H). reflexivity.
  - destruct (Nat.ltb_spec (length (print_date y m d h mi s) + 4) 24) as [L|L]; [|reflexivity]. exfalso. assert (20 <= length (print_date y m d h mi s))%nat by (apply T2; intros K; apply H, I, K). lia.
Qed.
Lemma datef_refused mjd : fin mjd -> toR mjd < -2468570 \/ 997599999.5 < toR mjd -> mjd2datef mjd = Ok None.
Proof. intros F B. assert (R := refused mjd F B). unfold mjd2datef, mjdf_split. destruct R as [-> | ->]; [|rewrite orb_true_r]; reflexivity. Qed.

Lemma datef_close mjd : fin mjd -> -313697 <= toR mjd < 2973484 -> exists n t h mi s ms, mjd2datef mjd = Ok (Some (iso_ms t h mi s ms)) /\ day_number n t /\ valid_time h mi s /\ (0 <= ms <= 999)%Z /\
  let e := if Rle_dec 1 (toR mjd) then / 50000000 else / 10 in IZR (instant_ms n h mi s ms) <= 86400000 * toR mjd + e /\ 86400000 * toR mjd < IZR (instant_ms n h mi s ms) + 1 + e.
Proof.
  intros F B. destruct (datef_place mjd F ltac:(lra)) as (n & f & E & Ff & Bf & Hn & I & A & X). destruct (text_cases n f Ff Bf Hn) as (y & m & d & h & mi & s & G & D & V & C & T & T1 & _). destruct (clockf_ok f Ff Bf) as (h' & mi' & s' & ms & C' & CF & _ & Bms & U & L). rewrite C in C'. injection C' as <- <- <-.
  assert (I2 := proj2 I ltac:(lra)). specialize (T1 I2). exists n, (y, m, d), h, mi, s, ms. split; [|split; [rewrite <- D; apply day_number_date|split; [exact T|split; [lia|]]]].
  - unfold mjd2datef. rewrite E. cbn [bind]. rewrite G, CF. cbn [bind]. assert (LN : length (print_datef y m d h mi s ms) = 23%nat) by (unfold print_datef; rewrite app_length, T1, print_three by lia; reflexivity). rewrite LN. cbn [Nat.ltb Nat.leb]. f_equal. f_equal. unfold print_datef, iso_ms. rewrite print_three by lia. f_equal. rewrite print_date_parts by assumption.
    assert (Y1: (1000 <= y)%Z). { pose proof (date_formula_1000 n) as Q. rewrite D in Q. apply Q. assert (-313699 < n)%Z; [|lia]. apply lt_IZR. apply Rabs_le_inv in A. lra. }
    assert (Y := year_of_day n). rewrite D in Y. cbn [fst] in Y. cbv zeta in Y. rewrite print_year by lia. reflexivity.
  - cbv zeta. unfold instant_ms. rewrite <- Z.add_assoc, plus_IZR, mult_IZR. destruct (Rle_dec 1 (toR mjd)) as [P|P]; [specialize (X P); lra|]. apply Rabs_le_inv in A. lra.
Qed.
