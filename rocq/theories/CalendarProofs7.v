(** The whole range of dates [mjd2date] accepts. *)
From Coq Require Import ZArith List Bool Lia Reals Lra.
From Flocq Require Import Core IEEE754.BinarySingleNaN.
From Verif Require Import CLib FloatModel FloatLemmas CalendarModel CalendarSpec CalendarProofs1 CalendarProofs2 CalendarProofs3 CalendarProofs4 CalendarProofs5 CalendarProofs6 DatefModel.
Import ListNotations.
Open Scope R_scope.

(** Lines 40-51 for an instant [M], on both sides of the test. *)
Definition low_split (M : b64) : res (option (Z * b64)) :=
  let d2 := fsub M (lit 1 2) in
  let f1 := fmod1 JD_OFF in
  let f2 := fmod1 d2 in
  let f := fmod1 (fadd f1 f2) in
  let f := if flt f (of_int 0) then fadd f (of_int 1) else f in
  let d := fadd (fadd (ffloor (fsub JD_OFF f1)) (ffloor (fsub d2 f2))) (ffloor (fsub (fadd f1 f2) f)) in
  j <- to_long (ffloor d) ;; Ok (Some ((j + 1)%Z, f)).
Definition high_split (M : b64) : res (option (Z * b64)) :=
  let d2 := fsub JD_OFF (lit 1 2) in
  let f1 := fmod1 M in
  let f2 := fmod1 d2 in
  let f := fmod1 (fadd f1 f2) in
  let f := if flt f (of_int 0) then fadd f (of_int 1) else f in
  let d := fadd (fadd (ffloor (fsub M f1)) (ffloor (fsub d2 f2))) (ffloor (fsub (fadd f1 f2) f)) in
  j <- to_long (ffloor d) ;; Ok (Some ((j + 1)%Z, f)).

Lemma low_ok M : fin M -> -2468571 <= toR M <= 2400001 ->
  exists n f, low_split M = Ok (Some ((n + 2400001)%Z, f)) /\ fin f /\ 0 <= toR f < 1 /\ Rabs (IZR n + toR f - toR M) <= / 1000000000 /\
    (-1048575 <= toR M <= -524288 \/ toR M <= -2097152 \/ 1 <= toR M -> IZR n + toR f = toR M).
Proof.
  intros FM B. destruct half_val as [Fh Eh]. assert (HB: Rabs (toR M - / 2) <= 3000000) by (apply Rabs_le; lra).
  destruct (fsub_R M (lit 1 2) 22 FM Fh) as [Fd Ed]; [lia|rewrite Eh; change (bpow radix2 22) with 4194304; lra|]. rewrite Eh in Ed. unfold low_split. set (d2 := fsub M (lit 1 2)) in *.
  pose proof (err_abs _ 22 _ ltac:(lia) HB ltac:(change (bpow radix2 22) with 4194304; lra)) as Hd. rewrite <- Ed in Hd. change (bpow radix2 (22 - 54)) with (/ 4294967296) in Hd. apply Rabs_le_inv in HB.
  assert (HB2: Rabs (toR d2) <= 5000000) by (apply Rabs_le; lra). destruct (fraction_small d2 Fd HB2) as (n & Hn & Ff & Bf & Sum & Ef2 & Eg). rewrite fmod_JD, floor_JD. cbv zeta in *. rewrite Hn. cbn [bind].
  eexists n, _. split; [f_equal; f_equal; f_equal; lia|]. split; [exact Ff|]. split; [exact Bf|]. set (f2 := fmod1 d2) in *.
  assert (Bf2: -1 < toR f2 < 1). { destruct (trunc_bounds (toR d2)) as [T1 T2]. rewrite Ef2. destruct (Rle_dec 0 (toR d2)); [specialize (T1 ltac:(lra))|specialize (T2 ltac:(lra))]; lra. }
  assert (HBg: Rabs (/ 2 + toR f2) <= 1.5) by (apply Rabs_le; lra). pose proof (err_abs _ 1 _ ltac:(lia) HBg ltac:(change (bpow radix2 1) with 2; lra)) as Hg. rewrite <- Eg in Hg. change (bpow radix2 (1 - 54)) with (/ 9007199254740992) in Hg.
  split; [rewrite Sum; apply Rabs_le; lra|].
  assert (EX : forall e h, (e <= 21)%Z -> (-1000 <= e - 52)%Z -> bpow radix2 (e - 52) = / IZR (2 * h) -> (1 <= h <= 9007199254740992)%Z -> (2 * h * 2 <= 9007199254740992)%Z -> bpow radix2 e <= Rabs (toR M) -> Rabs (toR M - / 2) <= 9007199254740992 * bpow radix2 (e - 52) -> toR d2 - toR f2 + toR (fadd (lit 1 2) f2) = toR M).
  { intros e h H21 He V Hh Hh2 Lo Hi. destruct (b64_fx_le M e (e - 52) Lo ltac:(lia) ltac:(lia)) as [a Ha]. unfold fx in Ha. set (k := bpow radix2 (e - 52)) in *. assert (HR : 1 <= IZR h <= 9007199254740992) by (split; apply IZR_le; lia). assert (K1 : IZR (2 * h) * k = 1) by (rewrite V; apply Rinv_r; rewrite mult_IZR; lra). assert (K0 : 0 < k) by apply bpow_gt_0. rewrite mult_IZR in K1.
    assert (Xd: fx (e - 52) (a - h) (toR M - / 2)) by (unfold fx; fold k; rewrite Ha, minus_IZR; lra).
    assert (Ba : (Z.abs (a - h) <= 2 ^ 53)%Z). { apply Z.abs_le. unfold fx in Xd. fold k in Xd. rewrite Xd in Hi. rewrite Rabs_mult, (Rabs_pos_eq k) in Hi by lra. apply Rmult_le_reg_r in Hi; [|exact K0]. apply Rabs_le_inv in Hi. change (2 ^ 53)%Z with 9007199254740992%Z. split; apply le_IZR; [change (- (9007199254740992))%Z with (-9007199254740992)%Z|]; lra. }
    rewrite (RN_fx (e - 52) (a - h)) in Ed; [|lia|exact Xd|lia]. set (z := Ztrunc (toR d2)) in *.
    assert (Xf2: fx (e - 52) (h + (a - h - z * (2 * h))) (/ 2 + toR f2)). { unfold fx in *. fold k in Xd |- *. rewrite Ef2, Ed, plus_IZR, !minus_IZR, !mult_IZR. rewrite Ha. replace ((IZR h + (IZR a - IZR h - IZR z * (2 * IZR h))) * k) with (IZR a * k - IZR z * (2 * IZR h * k)) by ring. rewrite K1. lra. }
    rewrite (RN_fx (e - 52) (h + (a - h - z * (2 * h)))) in Eg; [rewrite Eg, Ed; ring|lia|exact Xf2|].
    unfold fx in Xf2. fold k in Xf2. rewrite Xf2 in HBg. apply Z.abs_le. change (2 ^ 53)%Z with 9007199254740992%Z. rewrite Rabs_mult, (Rabs_pos_eq k) in HBg by lra. assert (W : Rabs (IZR (h + (a - h - z * (2 * h)))) * k <= 9007199254740992 * k) by (apply Rle_trans with (2 * (2 * IZR h * k)); [rewrite K1; lra|]; replace (2 * (2 * IZR h * k)) with (2 * 2 * IZR h * k) by ring; apply Rmult_le_compat_r; [lra|]; apply IZR_le in Hh2; rewrite !mult_IZR in Hh2; lra). apply Rmult_le_reg_r in W; [|exact K0]. apply Rabs_le_inv in W. split; apply le_IZR; [change (- (9007199254740992))%Z with (-9007199254740992)%Z|]; lra. }
  rewrite Sum. intros [M1|[M1|M1]]; [apply (EX 19%Z 4294967296%Z)|apply (EX 21%Z 1073741824%Z)|]; try lia; try reflexivity.
  - rewrite Rabs_left by lra. change (bpow radix2 19) with 524288. lra.
  - change (bpow radix2 (19 - 52)) with (/ 8589934592). apply Rabs_le. lra.
  - rewrite Rabs_left by lra. change (bpow radix2 21) with 2097152. lra.
  - change (bpow radix2 (21 - 52)) with (/ 2147483648). apply Rabs_le. lra.
  - assert (Ex: exists e, (0 <= e <= 21)%Z /\ bpow radix2 e <= toR M < bpow radix2 (e + 1)).
    { exists (mag radix2 (toR M) - 1)%Z. destruct (mag radix2 (toR M)) as [e He]. cbn. specialize (He ltac:(lra)). rewrite Rabs_pos_eq in He by lra. replace (e - 1 + 1)%Z with e by lia. split; [|exact He]. split.
      - assert (0 < e)%Z; [|lia]. apply (lt_bpow radix2). change (bpow radix2 0) with 1. lra.
      - assert (e - 1 < 22)%Z; [|lia]. apply (lt_bpow radix2). change (bpow radix2 22) with 4194304. lra. }
    destruct Ex as (e & He & Me). assert (C : (e = 0 \/ e = 1 \/ e = 2 \/ e = 3 \/ e = 4 \/ e = 5 \/ e = 6 \/ e = 7 \/ e = 8 \/ e = 9 \/ e = 10 \/ e = 11 \/ e = 12 \/ e = 13 \/ e = 14 \/ e = 15 \/ e = 16 \/ e = 17 \/ e = 18 \/ e = 19 \/ e = 20 \/ e = 21)%Z) by lia.
    assert (B2 : 9007199254740992 * bpow radix2 (e - 52) = bpow radix2 (e + 1)) by (change 9007199254740992 with (bpow radix2 53); rewrite <- bpow_plus; f_equal; lia).
    apply (EX e (2 ^ (51 - e))%Z); [lia|lia| | | |rewrite Rabs_pos_eq by lra; apply Me|rewrite B2, Rabs_pos_eq by lra; lra]; clear - C; repeat (destruct C as [-> |C]; [first [reflexivity|vm_compute; split; discriminate|vm_compute; discriminate]|]); subst e; first [reflexivity|vm_compute; split; discriminate|vm_compute; discriminate].
Qed.
Lemma high_ok M : fin M -> 2400000 <= toR M <= 1100000000 -> exists n f, high_split M = Ok (Some ((n + 2400001)%Z, f)) /\ fin f /\ 0 <= toR f < 1 /\ IZR n + toR f = toR M.
Proof.
  intros FM B. unfold high_split. rewrite floor_JD, fmod_2400000. cbv zeta. destruct zero_int as [Fz Ez].
  assert (P900: Rabs (toR M) <= bpow radix2 900) by (apply Rle_trans with (bpow radix2 31); [apply Rabs_le; change (bpow radix2 31) with 2147483648; lra|apply bpow_le; lia]).
  destruct (fmod1_R M FM P900) as [F1 E1]. destruct (trunc_bounds (toR M)) as [T1 _]. specialize (T1 ltac:(lra)). set (z := Ztrunc (toR M)) in *. set (f1 := fmod1 M) in *.
  assert (Bz: (2399999 <= z <= 1100000003)%Z) by (split; apply le_IZR; lra). assert (Bf1: 0 <= toR f1 < 1) by lra.
  destruct (fadd_R f1 (of_int 0) 0 F1 Fz) as [Fg Eg]; [lia|rewrite Ez, Rplus_0_r, Rabs_pos_eq by lra; cbn; lra|].
  assert (G1: RN (toR f1) = toR f1) by (apply round_generic; [auto with typeclass_instances|apply generic_format_B2R]). rewrite Ez, Rplus_0_r, G1 in Eg. set (g := fadd f1 (of_int 0)) in *.
  assert (P900': Rabs (toR g) <= bpow radix2 900) by (rewrite Eg, Rabs_pos_eq by lra; apply Rle_trans with (bpow radix2 0); [cbn; lra|apply bpow_le; lia]).
  destruct (fmod1_R g Fg P900') as [Ff0 Ef0]. assert (Tg: Ztrunc (toR g) = 0%Z) by (rewrite Ztrunc_floor by lra; apply Zfloor_imp; cbn; lra). rewrite Tg, Eg, Rminus_0_r in Ef0. set (f0 := fmod1 g) in *.
  replace (flt f0 (of_int 0)) with false by (symmetry; apply flt_false; [assumption|assumption|lra]). destruct (fsub_int M f1 (IZR z) z FM F1) as [Fs Es]; [rewrite E1; ring|reflexivity|lia|]. destruct (floor_int _ _ Fs Es) as [Fs' Es'].
  destruct (of_int_R 2400000 ltac:(lia)) as [FK EK]. destruct (fsub_int (of_int 2400000) (of_int 0) 2400000 2400000 FK Fz) as [Ft Et]; [rewrite EK, Ez; ring|reflexivity|lia|]. destruct (floor_int _ _ Ft Et) as [Ft' Et'].
  destruct (fadd_int _ _ _ _ Fs' Ft' Es' Et' ltac:(lia)) as [F5 E5]. destruct (fsub_int g f0 0 0 Fg Ff0) as [Fd Ed]; [rewrite Ef0, Eg; ring|reflexivity|lia|]. destruct (floor_int _ _ Fd Ed) as [Fd' Ed'].
  destruct (fadd_int _ _ _ _ F5 Fd' E5 Ed' ltac:(lia)) as [F6 E6]. rewrite (to_long_int _ _ F6 E6) by lia. cbn [bind]. exists z, f0. split; [f_equal; f_equal; f_equal; lia|]. split; [exact Ff0|]. split; lra.
Qed.

(** The range tests. *)
Lemma djmin_R : fin DJMIN /\ toR DJMIN = -68569.5.
Proof. destruct (lit_exact (-685695) 10 (-1) (-137139)) as [Fm Xm]; try lia; [change (bpow radix2 (-1)) with (/ 2); lra|]. split; [exact Fm|]. unfold DJMIN. rewrite Xm. change (bpow radix2 (-1)) with (/ 2). lra. Qed.
Lemma djmax_R : fin DJMAX /\ toR DJMAX = 1000000000. Proof. exact (of_int_R 1000000000 ltac:(lia)). Qed.
(** The sum of the range test, also where it overflows. *)
Lemma jd_sum mjd : fin mjd -> (fin (fadd JD_OFF mjd) /\ toR (fadd JD_OFF mjd) = RN (2400000.5 + toR mjd)) \/ fadd JD_OFF mjd = B754_infinity false.
Proof.
  intros F. destruct lit_JD as [FJ _]. pose proof JD_OFF_val as EJ. pose proof (@Bplus_correct 53 1024 prec64_gt0 prec64_lt mode_NE JD_OFF mjd FJ F) as C. fold (fadd JD_OFF mjd) in C.
  destruct (Rlt_bool _ _) in C.
  - left. destruct C as (C1 & C2 & _). split; [exact C2|]. eapply eq_trans; [exact C1|]. rewrite <- EJ. reflexivity.
  - right. destruct C as [C _]. apply B2SF_inj. rewrite C. vm_compute. reflexivity.
Qed.
Lemma accepted mjd : fin mjd -> -2468570 <= toR mjd <= 997599999.5 -> flt (fadd JD_OFF mjd) DJMIN = false /\ flt DJMAX (fadd JD_OFF mjd) = false.
Proof.
  intros F B. destruct lit_JD as [FJ _]. pose proof JD_OFF_val as EJ. destruct djmin_R as [Fm Em]. destruct djmax_R as [FM EM].
  destruct (fadd_R JD_OFF mjd 41 FJ F ltac:(lia)) as [G E]; [rewrite EJ; change (bpow radix2 41) with 2199023255552; apply Rabs_le; lra|]. rewrite EJ in E.
  assert (X : RN (-68569.5) = -68569.5) by (apply (RN_fx (-1) (-137139)); [lia|unfold fx; change (bpow radix2 (-1)) with (/ 2); lra|lia]).
  split; apply flt_false; try assumption; rewrite E; [rewrite Em, <- X; apply RN_le; lra|rewrite EM; apply (RN_int_le _ 1000000000); [lia|lra]].
Qed.
Lemma refused mjd : fin mjd -> toR mjd < -2468570 \/ 997599999.5 < toR mjd -> flt (fadd JD_OFF mjd) DJMIN = true \/ flt DJMAX (fadd JD_OFF mjd) = true.
Proof.
  intros F B. destruct djmin_R as [Fm Em]. destruct djmax_R as [FM EM]. destruct (jd_sum mjd F) as [[G E]|E]; [|right; rewrite E; vm_compute; reflexivity].
  destruct B as [B|B]; [left|right]; apply flt_R; try assumption; rewrite E.
  - rewrite Em. destruct (Rle_lt_dec (-2468571) (toR mjd)) as [L2|L2].
    + destruct (b64_fx_le mjd 21 (-31)) as [a Ha]; [rewrite Rabs_left by lra; change (bpow radix2 21) with 2097152; lra|lia|lia|]. assert (V31: bpow radix2 (-31) = / 2147483648) by reflexivity. unfold fx in Ha. rewrite V31 in Ha.
      assert (Xs : fx (-31) (5153961828941824 + a) (2400000.5 + toR mjd)) by (unfold fx; rewrite plus_IZR, V31, Ha; lra). rewrite (RN_fx (-31) (5153961828941824 + a)); [lra|lia|exact Xs|]. apply Z.abs_le. split; apply le_IZR; rewrite plus_IZR; change (IZR (2 ^ 53)) with 9007199254740992; change (IZR (- 2 ^ 53)) with (-9007199254740992); lra.
    + apply Rle_lt_trans with (IZR (-68570)); [apply RN_int_le; [lia|lra]|lra].
  - rewrite EM. destruct (Rle_lt_dec (toR mjd) 1000000000) as [L2|L2].
    + destruct (b64_fx_le mjd 29 (-23)) as [a Ha]; [rewrite Rabs_pos_eq by lra; change (bpow radix2 29) with 536870912; lra|lia|lia|]. assert (V23: bpow radix2 (-23) = / 8388608) by reflexivity. unfold fx in Ha. rewrite V23 in Ha.
      assert (Xs : fx (-23) (20132663394304 + a) (2400000.5 + toR mjd)) by (unfold fx; rewrite plus_IZR, V23, Ha; lra). rewrite (RN_fx (-23) (20132663394304 + a)); [lra|lia|exact Xs|]. apply Z.abs_le. split; apply le_IZR; rewrite plus_IZR; change (IZR (2 ^ 53)) with 9007199254740992; change (IZR (- 2 ^ 53)) with (-9007199254740992); lra.
    + apply Rlt_le_trans with (IZR 1000000001); [lra|apply RN_int_ge; [lia|lra]].
Qed.

(** Lengths of printed years. *)
Lemma digits_long : forall k fuel z, (k < fuel)%nat -> (10 ^ Z.of_nat k <= z)%Z -> (k < length (digits_rev fuel z))%nat.
Proof.
  induction k as [|k IH]; intros fuel z Hf Hz; (destruct fuel as [|fuel]; [lia|]); cbn [digits_rev length]; [lia|].
  assert (P : (10 ^ Z.of_nat (S k) = 10 * 10 ^ Z.of_nat k)%Z) by (rewrite Nat2Z.inj_succ, Z.pow_succ_r by lia; reflexivity). assert (0 < 10 ^ Z.of_nat k)%Z by (apply Z.pow_pos_nonneg; lia). rewrite P in Hz.
  destruct (Z.ltb_spec z 10); [lia|]. specialize (IH fuel (z / 10)%Z ltac:(lia)). assert (10 ^ Z.of_nat k <= z / 10)%Z by (apply Z.div_le_lower_bound; lia). specialize (IH H1). lia.
Qed.
Lemma long_year y : (10000 <= y)%Z \/ (y <= -1000)%Z -> (5 <= length (print_int 4 1 y))%nat.
Proof.
  intros H. unfold print_int. set (ds := rev (digits_rev 20 (Z.abs y))). rewrite app_length, repeat_length. destruct H as [H|H].
  - destruct (Z.ltb_spec y 0); [lia|]. assert (L := digits_long 4 20 (Z.abs y) ltac:(lia) ltac:(change (10 ^ Z.of_nat 4)%Z with 10000%Z; lia)). rewrite app_length. unfold ds in *. rewrite rev_length in *. lia.
  - destruct (Z.ltb_spec y 0); [|lia]. assert (L := digits_long 3 20 (Z.abs y) ltac:(lia) ltac:(change (10 ^ Z.of_nat 3)%Z with 1000%Z; lia)). cbn [length]. rewrite app_length. unfold ds in *. rewrite rev_length in *. lia.
Qed.
Lemma short_years_checked : upto 10999 (fun y => Nat.eqb (length (print_int 4 1 y)) 4) (-999)%Z = true. Proof. vm_compute. reflexivity. Qed.
Lemma short_year y : (-999 <= y <= 9999)%Z -> length (print_int 4 1 y) = 4%nat.
Proof. intros H. apply Nat.eqb_eq. apply (upto_ok _ _ _ short_years_checked). lia. Qed.
Lemma year_of_day n : let y := fst (fst (date_formula n)) in ((-1043818 <= n <= 2973483)%Z -> (-999 <= y <= 9999)%Z) /\ ((n < -1043818)%Z -> (y <= -1000)%Z) /\ ((2973483 < n)%Z -> (10000 <= y)%Z).
Proof.
  cbv zeta. destruct (date_valid_inv n) as (V & E & _). destruct (date_formula n) as [[y m] d]. cbn [fst]. destruct V as [Hm Hd]. assert (Hd': (1 <= d <= 31)%Z) by (apply (day_max y m d); split; assumption).
  assert (M: (m = 1 \/ m = 2 \/ m = 3 \/ m = 4 \/ m = 5 \/ m = 6 \/ m = 7 \/ m = 8 \/ m = 9 \/ m = 10 \/ m = 11 \/ m = 12)%Z) by lia. clear Hm Hd. unfold day_formula in E.
  repeat (destruct M as [-> |M]; [cbn [Z.leb Z.compare Pos.compare Pos.compare_cont] in E; lia|]). subst m. cbn [Z.leb Z.compare Pos.compare Pos.compare_cont] in E. lia.
Qed.
Lemma date_length y m d h mi s : valid_date (y, m, d) -> valid_time h mi s -> length (print_date y m d h mi s) = (length (print_int 4 1 y) + 15)%nat.
Proof. intros V T. rewrite print_date_parts by assumption. rewrite app_length. reflexivity. Qed.

(** What the text of an instant depends on. *)
Lemma text_cases n f : fin f -> 0 <= toR f < 1 -> (-2468570 <= n)%Z -> exists y m d h mi s, gregorian (n + 2400001) = (y, m, d) /\ date_formula n = (y, m, d) /\ valid_date (y, m, d) /\ clock f = Ok (h, mi, s) /\ valid_time h mi s /\
  ((-1043818 <= n <= 2973483)%Z -> length (print_date y m d h mi s) = 19%nat) /\ (~ (-1043818 <= n <= 2973483)%Z -> (20 <= length (print_date y m d h mi s))%nat).
Proof.
  intros Ff Bf Hn. destruct (clock_close f Ff Bf) as (h & mi & s & C & _). pose proof (clock_range f h mi s Ff Bf C) as R. destruct (date_valid_inv n) as (V & _). assert (Y := year_of_day n). rewrite gregorian_date by lia. destruct (date_formula n) as [[y m] d]. cbn [fst] in Y. cbv zeta in Y.
  exists y, m, d, h, mi, s. repeat (split; [first [reflexivity|assumption]|]). split; intros B; rewrite date_length by assumption; [rewrite short_year by lia; lia|]. assert (L := long_year y ltac:(lia)). lia.
Qed.
Lemma half_sum mjd : fin mjd -> -2468570 <= toR mjd <= 997599999.5 -> fin (fadd mjd HALF_S_IN_DAYS) /\ toR mjd - / 1000000 <= toR (fadd mjd HALF_S_IN_DAYS) <= toR mjd + / 100000 /\ -2468570 <= toR (fadd mjd HALF_S_IN_DAYS).
Proof.
  intros F B. destruct half_s as [Fh Bh]. destruct (fadd_R mjd HALF_S_IN_DAYS 30 F Fh ltac:(lia)) as [G E]; [change (bpow radix2 30) with 1073741824; apply Rabs_le; lra|]. split; [exact G|]. rewrite E. split; [|apply (RN_int_ge _ (-2468570)); [lia|lra]].
  assert (X := RN_err (toR mjd + toR HALF_S_IN_DAYS) 30 ltac:(lia)). change (bpow radix2 30) with 1073741824 in X. specialize (X ltac:(apply Rabs_le; lra)). change (30 - 54)%Z with (-24)%Z in X. change (bpow radix2 (-24)) with (/ 16777216) in X. apply Rabs_le_inv in X. lra.
Qed.

(** Both sides of the test. *)
Lemma place M (low : bool) : fin M -> -2468570 <= toR M <= 997600000 -> (low = true -> toR M <= 2400001) -> (low = false -> 2400000 <= toR M) ->
  exists n f, (if low then low_split M else high_split M) = Ok (Some ((n + 2400001)%Z, f)) /\ fin f /\ 0 <= toR f < 1 /\ (-2468570 <= n)%Z /\ ((-1043818 <= n <= 2973483)%Z <-> -1043818 <= toR M < 2973484) /\ Rabs (IZR n + toR f - toR M) <= / 1000000000 /\ (1 <= toR M -> IZR n + toR f = toR M).
Proof.
  intros F B L1 L2. destruct low.
  - specialize (L1 eq_refl). destruct (low_ok M F ltac:(lra)) as (n & f & E & Ff & Bf & A & X). exists n, f. assert (A' := Rabs_le_inv _ _ A). repeat (split; [first [assumption|apply le_IZR; lra]|]). split.
    { destruct (Rle_lt_dec (toR M) (-2097152)) as [K|K]; [specialize (X ltac:(lra))|]; assert (-2468571 < n)%Z; [apply lt_IZR; lra|lia|apply lt_IZR; lra|lia]. }
    split; [|split; [exact A|intros; apply X; lra]]. split.
    + intros [H1 H2]. apply IZR_le in H1, H2. split; [|lra]. destruct (Rle_lt_dec (toR M) (-524288)) as [K|K]; [|lra]. destruct (Rle_lt_dec (-1048575) (toR M)) as [K2|K2]; [|lra]. specialize (X ltac:(lra)). lra.
    + intros [H1 H2]. split; [|assert (n < 2973484)%Z; [|lia]; apply lt_IZR; lra]. assert (-1043819 < n)%Z; [|lia]. apply lt_IZR. destruct (Rle_lt_dec (toR M) (-524288)) as [K|K]; [|lra]. specialize (X ltac:(lra)). lra.
  - specialize (L2 eq_refl). destruct (high_ok M F ltac:(lra)) as (n & f & E & Ff & Bf & A). exists n, f. repeat (split; [first [assumption|apply le_IZR; lra]|]). split; [|split; [rewrite A; replace (toR M - toR M) with 0 by ring; rewrite Rabs_R0; lra|intros _; exact A]]. split.
    + intros [H1 H2]. apply IZR_le in H1, H2. lra.
    + intros [H1 H2]. split; [apply le_IZR; lra|assert (n < 2973484)%Z; [|lia]; apply lt_IZR; lra].
Qed.

(** mjd2date.c:23-73 for every double accepted. *)
Lemma mjd2date_exact mjd : fin mjd -> -2468570 <= toR mjd <= 997599999.5 ->
  (-1043818 <= toR (fadd mjd HALF_S_IN_DAYS) < 2973484 -> exists text, mjd2date mjd = Ok (Some text) /\ length text = 19%nat) /\
  (~ (-1043818 <= toR (fadd mjd HALF_S_IN_DAYS) < 2973484) -> mjd2date mjd = UB OutOfBounds).
Proof.
  intros F B. destruct (half_sum mjd F B) as (FM & BM & LM). destruct lit_JD as [FJ _]. pose proof JD_OFF_val as EJ. destruct (accepted mjd F B) as [A1 A2].
  destruct (place (fadd mjd HALF_S_IN_DAYS) (fle mjd JD_OFF) FM ltac:(lra)) as (n & f & E & Ff & Bf & Hn & I & _ & _).
  { intros H. apply fle_R in H; [|assumption..]. lra. }
  { intros H. apply fle_false in H; [|assumption..]. lra. }
  destruct (text_cases n f Ff Bf Hn) as (y & m & d & h & mi & s & G & _ & _ & C & _ & T1 & T2).
  assert (S : mjd_split mjd = Ok (Some ((n + 2400001)%Z, f))). { unfold mjd_split. rewrite A1, A2. cbn [orb]. rewrite <- E. destruct (fle mjd JD_OFF); reflexivity. }
  unfold mjd2date. rewrite S. cbn [bind]. rewrite G, C. cbn [bind]. split; intros H.
  - rewrite T1 by (apply I; exact H). eexists. split; [reflexivity|]. apply T1, I, H.
  - destruct (Nat.ltb_spec (length (print_date y m d h mi s)) 20) as [L|L]; [|reflexivity]. exfalso. assert (20 <= length (print_date y m d h mi s))%nat by (apply T2; intros K; apply H, I, K). lia.
Qed.
Lemma mjd2date_refused mjd : fin mjd -> (mjd2date mjd = Ok None <-> toR mjd < -2468570 \/ 997599999.5 < toR mjd).
Proof.
  intros F. rewrite mjd2date_null. split; [|apply refused; exact F]. intros H. destruct (Rlt_le_dec (toR mjd) (-2468570)) as [|L]; [left; assumption|]. destruct (Rlt_le_dec 997599999.5 (toR mjd)) as [|L2]; [right; assumption|]. destruct (accepted mjd F ltac:(lra)) as [A1 A2]. rewrite A1, A2 in H. destruct H; discriminate.
Qed.
