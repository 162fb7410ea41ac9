(** Date to MJD in floating point. *)
From Coq Require Import ZArith List Bool Lia Reals Lra.
From Flocq Require Import Core IEEE754.BinarySingleNaN.
From Verif Require Import CLib FloatModel FloatLemmas CalendarModel CalendarSpec CalendarProofs1.
Import ListNotations.
Open Scope R_scope.
Ltac Zify.zify_post_hook ::= Z.div_mod_to_equations.

Lemma lit_R : forall n d e, (Z.abs n <= 2 ^ 53)%Z -> (0 < d <= 2 ^ 53)%Z -> (-1074 <= e < 1024)%Z ->
  Rabs (IZR n / IZR d) <= bpow radix2 e -> fin (lit n d) /\ toR (lit n d) = RN (IZR n / IZR d).
Proof.
  intros n d e Hn Hd He H. unfold lit.
  destruct (of_int_R n Hn) as [Fn En]. destruct (of_int_R d ltac:(lia)) as [Fd Ed].
  rewrite <- En, <- Ed. apply (fdiv_R _ _ e); [assumption| |assumption|now rewrite En, Ed].
  rewrite Ed. apply not_0_IZR. lia.
Qed.

Lemma lit_exact : forall n d k a, (Z.abs n <= 2 ^ 53)%Z -> (0 < d <= 2 ^ 53)%Z -> (-1074 <= k <= 900)%Z ->
  (Z.abs a <= 2 ^ 53)%Z -> IZR n / IZR d = IZR a * bpow radix2 k -> fin (lit n d) /\ fx k a (toR (lit n d)).
Proof.
  intros n d k a Hn Hd Hk Ha E. destruct (lit_R n d (53 + k) Hn Hd) as [F R]; [lia| |].
  - rewrite E. now apply fx_bound.
  - split; [assumption|]. rewrite R, (RN_fx k a); [exact E|lia|exact E|exact Ha].
Qed.

Lemma lit_365 : fin (lit 36525 100) /\ fx (-2) 1461 (toR (lit 36525 100)).
Proof. apply lit_exact; try lia. cbn. lra. Qed.
Lemma lit_half : fin (lit 1 2) /\ fx (-1) 1 (toR (lit 1 2)).
Proof. apply lit_exact; try lia. cbn. lra. Qed.
Lemma lit_1720994 : fin (lit 17209945 10) /\ fx (-1) 3441989 (toR (lit 17209945 10)).
Proof. apply lit_exact; try lia. cbn. lra. Qed.
Lemma lit_JD : fin JD_OFF /\ fx (-1) 4800001 (toR JD_OFF).
Proof. apply lit_exact; try lia. cbn. lra. Qed.

Lemma abs_le_b : forall x b c, Rabs x <= b -> b <= c -> Rabs x <= c.
Proof. intros; lra. Qed.

Lemma lit_30 : fin (lit 306001 10000) /\ 30.6001 - / 1000000 <= toR (lit 306001 10000) <= 30.6001 + / 1000000.
Proof.
  destruct (lit_R 306001 10000 5) as [F R]; try lia.
  { rewrite Rabs_pos_eq by lra. cbn. lra. }
  split; [assumption|]. rewrite R.
  pose proof (err_pos (306001 / 10000) 5 ltac:(lia)) as H.
  change (bpow radix2 5) with 32 in H. change (bpow radix2 (5 - 54)) with (/ 562949953421312) in H.
  lra.
Qed.

(** floor(30.6001 * j) *)
Lemma month_term : forall j, (4 <= j <= 15)%Z ->
  fin (ffloor (fmul (lit 306001 10000) (of_int j))) /\
  toR (ffloor (fmul (lit 306001 10000) (of_int j))) = IZR (306001 * j / 10000).
Proof.
  intros j Hj. destruct lit_30 as [F1 B1]. destruct (of_int_R j ltac:(lia)) as [F2 E2].
  assert (Rj: 4 <= IZR j <= 15) by (split; now apply IZR_le).
  assert (P: 30.6001 * IZR j - / 60000 <= toR (lit 306001 10000) * IZR j <= 30.6001 * IZR j + / 60000).
  { split; nra. }
  destruct (fmul_R (lit 306001 10000) (of_int j) 9 F1 F2) as [F3 E3]; [lia| |].
  { rewrite E2. rewrite Rabs_pos_eq by lra. change (bpow radix2 9) with 512. lra. }
  destruct (ffloor_R _ F3) as [F4 E4]. split; [assumption|]. rewrite E4. f_equal.
  rewrite E3, E2.
  pose proof (err_pos (toR (lit 306001 10000) * IZR j) 9 ltac:(lia)) as H.
  change (bpow radix2 9) with 512 in H. change (bpow radix2 (9 - 54)) with (/ 35184372088832) in H.
  assert (Q: 30.6001 * IZR j - / 50000 <= RN (toR (lit 306001 10000) * IZR j) <= 30.6001 * IZR j + / 50000) by lra.
  clear - Hj Q. set (v := RN _) in *. clearbody v.
  assert (C: (j = 4 \/ j = 5 \/ j = 6 \/ j = 7 \/ j = 8 \/ j = 9 \/ j = 10 \/ j = 11 \/ j = 12 \/ j = 13 \/ j = 14 \/ j = 15)%Z) by lia.
  repeat (destruct C as [->|C]; [apply Zfloor_imp; cbn; lra|]). subst. apply Zfloor_imp; cbn; lra.
Qed.

Lemma year_term : forall y, (-1 <= y <= 9999)%Z ->
  fin (ffloor (fmul (lit 36525 100) (of_int y))) /\
  toR (ffloor (fmul (lit 36525 100) (of_int y))) = IZR (1461 * y / 4).
Proof.
  intros y Hy. destruct lit_365 as [F1 X1]. destruct (of_int_R y ltac:(lia)) as [F2 E2].
  destruct (fmul_exact _ _ (-2) 0 1461 y F1 F2 X1 (fx_int y _ E2)) as (F3 & _ & X3); try lia.
  destruct (ffloor_R _ F3) as [F4 E4]. split; [assumption|]. rewrite E4. f_equal.
  rewrite X3. cbn [Z.add]. rewrite bpow_neg. replace (IZR (1461 * y) * / IZR (2 ^ 2)) with (IZR (1461 * y) / IZR 4) by reflexivity.
  apply Zfloor_div. lia.
Qed.

Lemma jd_of_date_R : forall y m d, (0 <= y <= 9999)%Z -> valid_date (y, m, d) ->
  fin (jd_of_date y m d) /\ toR (jd_of_date y m d) = IZR (day_formula (y, m, d)) + 2400000.5.
Proof.
  intros y m d Hy [Hm Hd].
  assert (Hd': (1 <= d <= 31)%Z).
  { unfold month_length in Hd. 
    assert (M: (m = 1 \/ m = 2 \/ m = 3 \/ m = 4 \/ m = 5 \/ m = 6 \/ m = 7 \/ m = 8 \/ m = 9 \/ m = 10 \/ m = 11 \/ m = 12)%Z) by lia.
    repeat (destruct M as [-> |M]; [try destruct (leap y); lia|]). subst; lia. }
  unfold jd_of_date, day_formula.
  assert (exists y' m', (if (m <=? 2)%Z then ((y - 1)%Z, (m + 12)%Z) else (y, m)) = (y', m') /\
            (-1 <= y' <= 9999)%Z /\ (4 <= m' + 1 <= 15)%Z) as (y' & m' & -> & Hy' & Hm').
  { destruct (m <=? 2)%Z eqn:E; [apply Z.leb_le in E|apply Z.leb_gt in E]; do 2 eexists; (split; [reflexivity|]); lia. }
  assert (Q1: (Z.quot y' 100 - Z.quot (Z.quot y' 100) 4 = y' / 100 - y' / 100 / 4)%Z).
  { destruct (Z.eq_dec y' (-1)) as [->|]; [reflexivity|].
    rewrite (Z.quot_div_nonneg y' 100), Z.quot_div_nonneg by lia. reflexivity. }
  set (b := (2 - Z.quot y' 100 + Z.quot (Z.quot y' 100) 4)%Z).
  assert (Hb: (b = 2 - y' / 100 + y' / 100 / 4)%Z) by (unfold b; lia).
  assert (Bb: (-100 <= b <= 10)%Z) by (rewrite Hb; lia).
  destruct (year_term y' Hy') as [F1 E1]. destruct (month_term (m' + 1) Hm') as [F2 E2].
  destruct (of_int_R b ltac:(lia)) as [F0 E0]. destruct (of_int_R d ltac:(lia)) as [F3 E3].
  destruct lit_1720994 as [F4 X4].
  assert (B1: (-400 <= 1461 * y' / 4 <= 4000000)%Z) by lia.
  assert (B2: (0 <= 306001 * (m' + 1) / 10000 <= 500)%Z) by lia.
  destruct (fadd_exact _ _ 0 _ _ F0 F1 (fx_int _ _ E0) (fx_int _ _ E1)) as (F5 & _ & X5); try lia.
  destruct (fadd_exact _ _ 0 _ _ F5 F2 X5 (fx_int _ _ E2)) as (F6 & _ & X6); try lia.
  destruct (fadd_exact _ _ 0 _ _ F6 F3 X6 (fx_int _ _ E3)) as (F7 & _ & X7); try lia.
  apply (fx_scale _ (-1)) in X7; [|lia].
  destruct (fadd_exact _ _ (-1) _ _ F7 F4 X7 X4) as (F8 & _ & X8).
  { lia. } { change (2 ^ (0 - -1))%Z with 2%Z. lia. }
  split; [assumption|]. rewrite X8. change (2 ^ (0 - -1))%Z with 2%Z. rewrite Hb, bpow_neg.
  generalize (2 - y' / 100 + y' / 100 / 4)%Z (1461 * y' / 4)%Z (306001 * (m' + 1) / 10000)%Z. intros B Y M.
  rewrite minus_IZR, !plus_IZR, mult_IZR, !plus_IZR.
  change (IZR (2 ^ 1)) with 2. lra.
Qed.

(** Time of day, rounded to 1e-5 day. *)
Lemma fraction_R : forall h mm s, valid_time h mm s ->
  exists k, (Z.abs (108 * k - 125 * second_of_day h mm s) <= 54)%Z /\
    fin (widen (day_fraction h mm s)) /\ Rabs (toR (widen (day_fraction h mm s)) - IZR k / 100000) <= / IZR (2 ^ 25).
Proof.
  intros h mm s (Hh & Hmm & Hs). set (T := second_of_day h mm s).
  assert (HT: (0 <= T <= 86399)%Z) by (unfold T, second_of_day; lia).
  unfold day_fraction. replace (s + 60 * (mm + 60 * h))%Z with T by (unfold T, second_of_day; lia).
  clearbody T. clear h mm s Hh Hmm Hs.
  assert (RT: 0 <= IZR T <= 86399) by (split; apply IZR_le; lia).
  destruct (of_int_R T ltac:(lia)) as [F0 E0]. destruct (of_int_R 86400 ltac:(lia)) as [F1 E1].
  destruct (of_int_R 100000 ltac:(lia)) as [F2 E2].
  assert (D0: 0 <= IZR T / 86400 <= 1) by lra.
  destruct (fdiv_R (of_int T) (of_int 86400) 0 F0) as [F3 E3].
  { rewrite E1. lra. } { lia. } { rewrite E0, E1, Rabs_pos_eq by lra. cbn. lra. }
  rewrite E0, E1 in E3.
  pose proof (err_pos (IZR T / 86400) 0 ltac:(lia)) as H3. cbn [Z.sub Z.add Z.opp Z.pos_sub] in H3. rewrite bpow_neg in H3. cbn [bpow] in H3.
  specialize (H3 ltac:(lra)). rewrite <- E3 in H3.
  assert (0 <= toR (fdiv (of_int T) (of_int 86400))) as P3.
  { rewrite E3. apply (RN_int_ge _ 0); [lia|lra]. }
  set (u := toR (fdiv (of_int T) (of_int 86400))) in *.
  assert (Hu: IZR T / 86400 - / 10000000000000000 <= u <= IZR T / 86400 + / 10000000000000000).
  { change (IZR (2 ^ 54)) with 18014398509481984 in H3. lra. }
  destruct (fmul_R (fdiv (of_int T) (of_int 86400)) (of_int 100000) 17 F3 F2) as [F4 E4]; [lia| |].
  { fold u. rewrite E2, Rabs_pos_eq by lra. rewrite bpow_pos. change (IZR (2 ^ 17)) with 131072. lra. }
  fold u in E4. rewrite E2 in E4.
  pose proof (err_pos (u * 100000) 17 ltac:(lia)) as H4.
  change (bpow radix2 17) with 131072 in H4. change (bpow radix2 (17 - 54)) with (/ 137438953472) in H4.
  specialize (H4 ltac:(lra)). rewrite <- E4 in H4.
  set (v := toR (fmul (fdiv (of_int T) (of_int 86400)) (of_int 100000))) in *.
  assert (Hv: IZR T * 125 / 108 - / 10000000 <= v <= IZR T * 125 / 108 + / 10000000) by lra.
  assert (Hv17: Rabs v <= bpow radix2 17).
  { apply Rabs_le. rewrite bpow_pos. change (IZR (2 ^ 17)) with 131072. lra. }
  destruct (narrow_R (fmul (fdiv (of_int T) (of_int 86400)) (of_int 100000)) 17 F4) as [F5 E5]; [lia|exact Hv17|].
  fold v in E5.
  pose proof (RN32_err v 17 ltac:(lia) Hv17) as H5. rewrite <- E5 in H5. apply Rabs_le_inv in H5.
  change (17 - 25)%Z with (-8)%Z in H5. rewrite bpow_neg in H5. change (IZR (2 ^ 8)) with 256 in H5.
  set (w := toR32 (narrow (fmul (fdiv (of_int T) (of_int 86400)) (of_int 100000)))) in *.
  destruct (froundf_R _ F5) as [F6 E6]. fold w in E6.
  pose proof (Znearest_half (Z.leb 0) w) as H6. change (Znearest (Z.leb 0) w) with (ZnearestA w) in H6.
  apply Rabs_le_inv in H6.
  set (k := ZnearestA w) in *.
  assert (HK: (Z.abs (108 * k - 125 * T) <= 54)%Z).
  { apply Z.abs_le. split; apply Z.lt_succ_r || apply Z.lt_pred_le; apply lt_IZR; unfold Z.pred, Z.succ;
    rewrite ?plus_IZR, ?opp_IZR, minus_IZR, !mult_IZR; lra. }
  exists k. split; [exact HK|].
  assert (Bk: (0 <= k <= 99999)%Z) by lia.
  assert (Rk: 0 <= IZR k <= 99999) by (split; apply IZR_le; lia).
  destruct (of_int32_R 100000 ltac:(lia)) as [F7 E7].
  destruct (fdiv32_R _ (of_int32 100000) 0 F6) as [F8 E8].
  { rewrite E7. lra. } { lia. } { rewrite E6, E7, Rabs_pos_eq by lra. cbn. lra. }
  rewrite E6, E7 in E8.
  destruct (widen_R _ F8) as [F9 E9]. split; [exact F9|].
  rewrite E9, E8. 
  pose proof (RN32_err (IZR k / 100000) 0 ltac:(lia)) as H8. change (0 - 25)%Z with (-25)%Z in H8. rewrite bpow_neg in H8.
  apply H8. rewrite Rabs_pos_eq by lra. cbn. lra.
Qed.

Lemma midnight_zero : toR (widen (day_fraction 0 0 0)) = 0 /\ fin (widen (day_fraction 0 0 0)).
Proof.
  assert (E: widen (day_fraction 0 0 0) = B754_zero false) by (apply b64_eq; vm_compute; reflexivity).
  rewrite E. split; reflexivity.
Qed.

Definition mjd_of (y m d h mm s : Z) : b64 :=
  fsub (fadd (jd_of_date y m d) (widen (day_fraction h mm s))) JD_OFF.

Lemma JD_OFF_val : toR JD_OFF = 2400000.5.
Proof. destruct lit_JD as [_ X]. rewrite X, bpow_neg. change (IZR (2 ^ 1)) with 2. lra. Qed.

Lemma day_formula_bounds : forall y m d, (0 <= y <= 9999)%Z -> valid_date (y, m, d) ->
  (-678941 <= day_formula (y, m, d) <= 2973483)%Z.
Proof.
  intros y m d Hy [Hm Hd].
  assert (Hd': (1 <= d <= 31)%Z).
  { unfold month_length in Hd. 
    assert (M: (m = 1 \/ m = 2 \/ m = 3 \/ m = 4 \/ m = 5 \/ m = 6 \/ m = 7 \/ m = 8 \/ m = 9 \/ m = 10 \/ m = 11 \/ m = 12)%Z) by lia.
    repeat (destruct M as [-> |M]; [try destruct (leap y); lia|]). subst; lia. }
  unfold day_formula. destruct (m <=? 2)%Z eqn:E; [apply Z.leb_le in E|apply Z.leb_gt in E]; lia.
Qed.

Lemma mjd_of_R : forall y m d h mm s, (0 <= y <= 9999)%Z -> valid_date (y, m, d) -> valid_time h mm s ->
  exists k, (Z.abs (108 * k - 125 * second_of_day h mm s) <= 54)%Z /\ fin (mjd_of y m d h mm s) /\
    Rabs (toR (mjd_of y m d h mm s) - (IZR (day_formula (y, m, d)) + IZR k / 100000)) <= / IZR (2 ^ 24).
Proof.
  intros y m d h mm s Hy HV HT.
  destruct (jd_of_date_R y m d Hy HV) as [F1 E1]. destruct (fraction_R h mm s HT) as (k & Hk & F2 & B2).
  exists k. split; [exact Hk|].
  pose proof (day_formula_bounds y m d Hy HV) as [DB1 DB2]. apply IZR_le in DB1, DB2.
  apply Rabs_le_inv in B2. change (IZR (2 ^ 25)) with 33554432 in B2.
  assert (Rk: 0 <= IZR k <= 100000).
  { destruct HT as (? & ? & ?). unfold second_of_day in Hk. split; apply IZR_le; lia. }
  set (q := toR (widen (day_fraction h mm s))) in *.
  set (D := IZR (day_formula (y, m, d))) in *.
  assert (B22: bpow radix2 23 = 8388608) by reflexivity.
  destruct (fadd_R _ _ 23 F1 F2) as [F3 E3]; [lia| |].
  { rewrite E1. fold q. rewrite Rabs_pos_eq by lra. lra. }
  rewrite E1 in E3. fold q in E3.
  pose proof (err_pos (D + 2400000.5 + q) 23 ltac:(lia) ltac:(lra)) as H3. rewrite <- E3 in H3.
  change (23 - 54)%Z with (-31)%Z in H3. rewrite bpow_neg in H3. change (IZR (2 ^ 31)) with 2147483648 in H3.
  destruct lit_JD as [FJ _].
  unfold mjd_of. set (x := fadd (jd_of_date y m d) (widen (day_fraction h mm s))) in *.
  assert (HB: Rabs (toR x - toR JD_OFF) <= 4000000).
  { rewrite JD_OFF_val. apply Rabs_le. lra. }
  destruct (fsub_R x JD_OFF 23 F3 FJ) as [F4 E4]; [lia|lra|].
  split; [exact F4|]. rewrite E4.
  pose proof (err_abs (toR x - toR JD_OFF) 23 4000000 ltac:(lia) HB ltac:(lra)) as H4.
  change (23 - 54)%Z with (-31)%Z in H4. rewrite bpow_neg in H4. change (IZR (2 ^ 31)) with 2147483648 in H4.
  rewrite JD_OFF_val in H4 at 1 3. rewrite JD_OFF_val.
  rewrite JD_OFF_val in H4. change (IZR (2 ^ 24)) with 16777216. apply Rabs_le. lra.
Qed.

Lemma mjd_of_midnight : forall y m d, (0 <= y <= 9999)%Z -> valid_date (y, m, d) ->
  fin (mjd_of y m d 0 0 0) /\ toR (mjd_of y m d 0 0 0) = IZR (day_formula (y, m, d)).
Proof.
  intros y m d Hy HV. destruct (jd_of_date_R y m d Hy HV) as [F1 E1]. destruct midnight_zero as [E2 F2].
  pose proof (day_formula_bounds y m d Hy HV) as DB. set (D := day_formula (y, m, d)) in *.
  assert (X1: fx (-1) (2 * D + 4800001) (toR (jd_of_date y m d))).
  { unfold fx. rewrite E1, bpow_neg, plus_IZR, mult_IZR. change (IZR (2 ^ 1)) with 2. lra. }
  assert (X2: fx (-1) 0 (toR (widen (day_fraction 0 0 0)))) by (unfold fx; rewrite E2; ring).
  destruct (fadd_exact _ _ (-1) _ _ F1 F2 X1 X2) as (F3 & _ & X3); try lia.
  destruct lit_JD as [FJ XJ].
  destruct (fsub_exact _ _ (-1) _ _ F3 FJ X3 XJ) as (F4 & _ & X4); try lia.
  split; [exact F4|]. unfold mjd_of. rewrite X4, bpow_neg.
  replace (2 * D + 4800001 + 0 - 4800001)%Z with (2 * D)%Z by lia. rewrite mult_IZR. change (IZR (2 ^ 1)) with 2. lra.
Qed.

(** Reading the ISO text. *)
Lemma digit48 : forall n, (0 <= n <= 9)%Z -> is_digit (48 + n) = true /\ is_space (48 + n) = false /\
  ((48 + n =? 45) = false)%Z /\ ((48 + n =? 43) = false)%Z /\ (48 + n - 48 = n)%Z.
Proof.
  intros n Hn. unfold is_digit, is_space.
  replace (48 <=? 48 + n)%Z with true by (symmetry; apply Z.leb_le; lia).
  replace (48 + n <=? 57)%Z with true by (symmetry; apply Z.leb_le; lia).
  replace (48 + n =? 32)%Z with false by (symmetry; apply Z.eqb_neq; lia).
  replace (48 + n <=? 13)%Z with false by (symmetry; apply Z.leb_gt; lia).
  rewrite andb_false_r. repeat split; try (apply Z.eqb_neq; lia). lia.
Qed.


Lemma scan_two : forall n rest, (0 <= n <= 99)%Z -> scan_int 2 (two n ++ rest) = Some (n, rest).
Proof.
  intros n rest Hn. unfold two. cbn [app].
  destruct (digit48 (n / 10) ltac:(lia)) as (A1 & A2 & A3 & A4 & A5).
  destruct (digit48 (n mod 10) ltac:(lia)) as (B1 & _ & _ & _ & B5).
  unfold scan_int. cbn [c_skip_space]. rewrite A2, A3, A4.
  unfold scan_unsigned. rewrite A1. cbn [scan_digits]. rewrite A1, B1, A5, B5.
  f_equal. f_equal. lia.
Qed.

Lemma scan_four : forall n rest, (0 <= n <= 9999)%Z -> scan_int 4 (four n ++ rest) = Some (n, rest).
Proof.
  intros n rest Hn. unfold four. cbn [app].
  destruct (digit48 (n / 1000) ltac:(lia)) as (A1 & A2 & A3 & A4 & A5).
  destruct (digit48 (n / 100 mod 10) ltac:(lia)) as (B1 & _ & _ & _ & B5).
  destruct (digit48 (n / 10 mod 10) ltac:(lia)) as (C1 & _ & _ & _ & C5).
  destruct (digit48 (n mod 10) ltac:(lia)) as (D1 & _ & _ & _ & D5).
  unfold scan_int. cbn [c_skip_space]. rewrite A2, A3, A4.
  unfold scan_unsigned. rewrite A1. cbn [scan_digits]. rewrite A1, B1, C1, D1, A5, B5, C5, D5.
  f_equal. f_equal. lia.
Qed.

Lemma scan_iso : forall y m d h mm s rest, (0 <= y <= 9999)%Z -> valid_date (y, m, d) -> valid_time h mm s ->
  scan_date (iso (y, m, d) h mm s ++ rest) = Some (y, m, d, h, mm, s).
Proof.
  intros y m d h mm s rest Hy [Hm Hd] (Hh & Hmm & Hs).
  assert (Hd': (1 <= d <= 31)%Z).
  { unfold month_length in Hd. 
    assert (M: (m = 1 \/ m = 2 \/ m = 3 \/ m = 4 \/ m = 5 \/ m = 6 \/ m = 7 \/ m = 8 \/ m = 9 \/ m = 10 \/ m = 11 \/ m = 12)%Z) by lia.
    repeat (destruct M as [-> |M]; [try destruct (leap y); lia|]). subst; lia. }
  unfold scan_date, iso. rewrite <- !app_assoc.
  rewrite scan_four by lia. cbn [app scan_char Z.eqb Pos.eqb].
  rewrite scan_two by lia. cbn [app scan_char Z.eqb Pos.eqb].
  rewrite scan_two by lia. cbn [app scan_char Z.eqb Pos.eqb].
  rewrite scan_two by lia. cbn [app scan_char Z.eqb Pos.eqb].
  rewrite scan_two by lia. cbn [app scan_char Z.eqb Pos.eqb].
  rewrite scan_two by lia. reflexivity.
Qed.

(** *** C14 *)
Lemma date2mjd_ok : forall n t h mi s rest, day_number n t -> (0 <= fst (fst t) <= 9999)%Z -> valid_time h mi s ->
  exists k mjd, date2mjd_nf (iso t h mi s ++ rest) = (0%Z, mjd) /\ is_finite mjd = true /\
    (Z.abs (108 * k - 125 * second_of_day h mi s) <= 54)%Z /\
    Rabs (B2R mjd - (IZR n + IZR k / 100000)) <= / IZR (2 ^ 24).
Proof.
  intros n [[y m] d] h mi s rest HN Hy HT. cbn [fst] in Hy.
  apply day_number_iff in HN. destruct HN as [HV ->].
  destruct (mjd_of_R y m d h mi s Hy HV HT) as (k & Hk & F & B).
  exists k, (mjd_of y m d h mi s). split.
  - unfold date2mjd_nf. rewrite scan_iso by assumption. reflexivity.
  - split; [exact F|]. split; [exact Hk|exact B].
Qed.

Lemma date2mjd_midnight : forall n t rest, day_number n t -> (0 <= fst (fst t) <= 9999)%Z ->
  exists mjd, date2mjd_nf (iso t 0 0 0 ++ rest) = (0%Z, mjd) /\ is_finite mjd = true /\ B2R mjd = IZR n.
Proof.
  intros n [[y m] d] rest HN Hy. cbn [fst] in Hy.
  apply day_number_iff in HN. destruct HN as [HV ->].
  destruct (mjd_of_midnight y m d Hy HV) as (F & B).
  exists (mjd_of y m d 0 0 0). split.
  - unfold date2mjd_nf. rewrite scan_iso; [reflexivity|assumption|assumption|]. unfold valid_time; lia.
  - split; [exact F|exact B].
Qed.
