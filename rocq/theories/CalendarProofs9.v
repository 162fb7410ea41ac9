(** What "%lf" prints, and the program mjdnow. *)
From Coq Require Import ZArith List Bool Lia Reals Lra.
From Flocq Require Import Core IEEE754.BinarySingleNaN.
From Verif Require Import CLib FloatModel FloatLemmas IoModel CalendarModel CalendarSpec CalendarProofs1 CalendarProofs2 CalendarProofs3 CalendarProofs4 CalendarProofs5 CalendarProofs6 DatefModel DatefSpec.
Import ListNotations.
Open Scope R_scope.

Lemma value_app a b : digits_value (a ++ b) = (digits_value a * 10 ^ Z.of_nat (length b) + digits_value b)%Z.
Proof.
  unfold digits_value. rewrite fold_left_app. generalize (fold_left (fun v c => (10 * v + (c - 48))%Z) a 0%Z). intros v. revert v. induction b as [|c b IH]; intros v; cbn [fold_left length]; [rewrite Z.mul_1_r; lia|].
  rewrite IH, (IH (10 * 0 + (c - 48))%Z). rewrite Nat2Z.inj_succ, Z.pow_succ_r by lia. ring.
Qed.
Lemma nat_digits_ok : forall fuel z, (0 <= z < 10 ^ Z.of_nat (S fuel))%Z -> all_digits (rev (nat_digits fuel z)) /\ digits_value (rev (nat_digits fuel z)) = z /\ rev (nat_digits fuel z) <> [].
Proof.
  induction fuel as [|fuel IH]; intros z Hz; cbn [nat_digits].
  - change (10 ^ Z.of_nat 1)%Z with 10%Z in Hz. rewrite Z.mod_small by lia. cbn [rev app]. split; [constructor; [lia|constructor]|]. split; [unfold digits_value; cbn [fold_left]; lia|discriminate].
  - assert (M := Z.mod_pos_bound z 10 ltac:(lia)). assert (D := Z.div_mod z 10 ltac:(lia)). destruct (Z.ltb_spec z 10).
    + cbn [rev app]. rewrite Z.mod_small by lia. split; [constructor; [lia|constructor]|]. split; [unfold digits_value; cbn [fold_left]; lia|discriminate].
    + assert (B : (0 <= z / 10 < 10 ^ Z.of_nat (S fuel))%Z). { split; [apply Z.div_pos; lia|]. apply Z.div_lt_upper_bound; [lia|]. rewrite Nat2Z.inj_succ, Z.pow_succ_r in Hz by lia. lia. }
      destruct (IH _ B) as (A & V & N). cbn [rev]. split; [apply Forall_app; split; [exact A|constructor; [lia|constructor]]|]. split; [|destruct (rev (nat_digits fuel (z / 10))); discriminate]. rewrite value_app, V. unfold digits_value. cbn [fold_left length]. change (10 ^ Z.of_nat 1)%Z with 10%Z. lia.
Qed.
Lemma dec_text_ok z : (0 <= z)%Z -> all_digits (dec_text z) /\ digits_value (dec_text z) = z /\ dec_text z <> [].
Proof.
  intros H. unfold dec_text. apply nat_digits_ok. split; [exact H|]. rewrite Nat2Z.inj_succ, Z2Nat.id by apply Z.log2_nonneg. destruct (Z.eq_dec z 0) as [-> |N]; [reflexivity|]. destruct (Z.log2_spec z ltac:(lia)) as [_ U]. eapply Z.lt_le_trans; [exact U|]. apply Z.pow_le_mono_l. split; [lia|lia].
Qed.
Lemma nat_digits_len : forall k fuel z, (0 <= z < 10 ^ Z.of_nat k)%Z -> (1 <= k)%nat -> (length (nat_digits fuel z) <= k)%nat.
Proof.
  induction k as [|k IH]; intros fuel z Hz Hk; [lia|]. destruct fuel as [|fuel]; cbn [nat_digits length]; [lia|]. destruct (Z.ltb_spec z 10); cbn [length]; [lia|]. destruct k as [|k]; [change (10 ^ Z.of_nat 1)%Z with 10%Z in Hz; lia|].
  assert (B : (0 <= z / 10 < 10 ^ Z.of_nat (S k))%Z). { split; [apply Z.div_pos; lia|]. apply Z.div_lt_upper_bound; [lia|]. rewrite Nat2Z.inj_succ, Z.pow_succ_r in Hz by lia. lia. }
  specialize (IH fuel (z / 10)%Z B ltac:(lia)). lia.
Qed.
Lemma zeros_ok k : all_digits (repeat 48%Z k) /\ digits_value (repeat 48%Z k) = 0%Z.
Proof. split; [apply Forall_forall; intros c Hc; apply repeat_spec in Hc; subst; lia|]. induction k as [|k IH]; [reflexivity|]. cbn [repeat]. unfold digits_value in *. cbn [fold_left]. exact IH. Qed.
Lemma fixed_ok p n : (1 <= p)%nat -> (0 <= n)%Z -> decimal p (fixed_text p n) (IZR n / 10 ^ p).
Proof.
  intros Hp Hn. unfold fixed_text. destruct p as [|p]; [lia|]. set (ten := (10 ^ Z.of_nat (S p))%Z). assert (T0 : (0 < ten)%Z) by (apply Z.pow_pos_nonneg; lia). cbv zeta.
  destruct (dec_text_ok (n / ten) ltac:(apply Z.div_pos; lia)) as (A1 & V1 & N1). assert (M := Z.mod_pos_bound n ten T0). destruct (dec_text_ok (n mod ten) ltac:(lia)) as (A2 & V2 & N2).
  assert (L : (length (dec_text (n mod ten)) <= S p)%nat) by (unfold dec_text; rewrite rev_length; apply nat_digits_len; [exact M|lia]). destruct (zeros_ok (S p - length (dec_text (n mod ten)))) as [AZ VZ].
  exists (dec_text (n / ten)), (repeat 48%Z (S p - length (dec_text (n mod ten))) ++ dec_text (n mod ten)). split; [reflexivity|]. split; [exact N1|]. split; [exact A1|]. split; [apply Forall_app; split; assumption|]. assert (LB : length (repeat 48%Z (S p - length (dec_text (n mod ten))) ++ dec_text (n mod ten)) = S p) by (rewrite app_length, repeat_length; lia). split; [exact LB|].
  rewrite value_app, LB, V1, value_app, VZ, V2. fold ten. f_equal. f_equal. rewrite Z.mul_0_l, Z.add_0_l, Z.mul_comm. apply Z.div_mod. lia.
Qed.
Lemma half_even_R n d : (0 < d)%Z -> Rabs (IZR (div_half_even n d) - IZR n / IZR d) <= 1 / 2.
Proof.
  intros Hd. unfold div_half_even. cbv zeta. assert (D := Z.div_mod n d ltac:(lia)). assert (M := Z.mod_pos_bound n d Hd). set (q := (n / d)%Z) in *. set (r := (n mod d)%Z) in *.
  assert (E : IZR n / IZR d = IZR q + IZR r / IZR d) by (rewrite D, plus_IZR, mult_IZR; field; apply not_0_IZR; lia). rewrite E. assert (P : 0 < IZR d) by (apply IZR_lt; lia).
  destruct (Z.ltb_spec (2 * r) d); [|destruct (Z.eqb_spec (2 * r) d); [destruct (Z.even q)|]]; cbn [orb andb];
    assert (RB : 0 <= IZR r / IZR d) by (apply Rmult_le_pos; [apply IZR_le; lia|apply Rlt_le, Rinv_0_lt_compat; exact P]).
  - assert (IZR r / IZR d <= 1 / 2) by (apply Rmult_le_reg_r with (IZR d); [exact P|]; replace (IZR r / IZR d * IZR d) with (IZR r) by (field; lra); assert (IZR (2 * r) <= IZR d) by (apply IZR_le; lia); rewrite mult_IZR in *; lra). apply Rabs_le. lra.
  - assert (IZR r / IZR d = 1 / 2) by (apply Rmult_eq_reg_r with (IZR d); [|lra]; replace (IZR r / IZR d * IZR d) with (IZR r) by (field; lra); rewrite <- e, mult_IZR; lra). apply Rabs_le. lra.
  - assert (IZR r / IZR d = 1 / 2) by (apply Rmult_eq_reg_r with (IZR d); [|lra]; replace (IZR r / IZR d * IZR d) with (IZR r) by (field; lra); rewrite <- e, mult_IZR; lra). rewrite plus_IZR. apply Rabs_le. lra.
  - assert (1 / 2 <= IZR r / IZR d) by (apply Rmult_le_reg_r with (IZR d); [exact P|]; replace (IZR r / IZR d * IZR d) with (IZR r) by (field; lra); assert (IZR d <= IZR (2 * r)) by (apply IZR_le; lia); rewrite mult_IZR in *; lra).
    assert (IZR r / IZR d <= 1) by (apply Rmult_le_reg_r with (IZR d); [exact P|]; replace (IZR r / IZR d * IZR d) with (IZR r) by (field; lra); assert (IZR r <= IZR d) by (apply IZR_le; lia); lra). rewrite plus_IZR. apply Rabs_le. lra.
Qed.
Lemma scaled_R p m e : (0 <= m)%Z -> (0 <= scaled p m e)%Z /\ Rabs (IZR (scaled p m e) - IZR m * bpow radix2 e * 10 ^ p) <= 1 / 2.
Proof.
  intros Hm. unfold scaled. assert (T : IZR (10 ^ Z.of_nat p) = 10 ^ p) by (rewrite <- pow_IZR; reflexivity). assert (T0 : (0 < 10 ^ Z.of_nat p)%Z) by (apply Z.pow_pos_nonneg; lia). destruct (Z.leb_spec 0 e) as [H|H].
  - assert (0 < 2 ^ e)%Z by (apply Z.pow_pos_nonneg; lia). split; [apply Z.mul_nonneg_nonneg; [apply Z.mul_nonneg_nonneg; lia|lia]|]. rewrite !mult_IZR, T. change 2%Z with (radix_val radix2) at 1. rewrite IZR_Zpower by exact H. replace (_ - _) with 0 by ring. rewrite Rabs_R0. lra.
  - assert (P : (0 < 2 ^ (- e))%Z) by (apply Z.pow_pos_nonneg; lia). split.
    + unfold div_half_even. cbv zeta. assert (0 <= m * 10 ^ Z.of_nat p / 2 ^ (- e))%Z by (apply Z.div_pos; [apply Z.mul_nonneg_nonneg; lia|exact P]). destruct (_ || _)%bool; lia.
    + assert (Q := half_even_R (m * 10 ^ Z.of_nat p) (2 ^ (- e)) P). replace (IZR m * bpow radix2 e * 10 ^ p) with (IZR (m * 10 ^ Z.of_nat p) / IZR (2 ^ (- e))); [exact Q|]. rewrite mult_IZR, T. change 2%Z with (radix_val radix2). rewrite IZR_Zpower by lia. rewrite bpow_opp. field. apply Rgt_not_eq, bpow_gt_0.
Qed.
Lemma printf_ok p x : (1 <= p)%nat -> fin x -> Bsign x = false -> exists v, decimal p (print_f 0 p x) v /\ Rabs (v - toR x) <= 1 / 2 / 10 ^ p.
Proof.
  intros Hp F S. assert (T : 0 < 10 ^ p) by (apply pow_lt; lra). destruct x as [s|s| |s m e H]; try discriminate; cbn in S; subst s; unfold print_f, pad; cbn [Nat.sub repeat app].
  - exists (IZR 0 / 10 ^ p). split; [apply fixed_ok; [exact Hp|lia]|]. cbn [B2R]. replace (_ - _) with 0 by (unfold Rdiv; ring). rewrite Rabs_R0. apply Rmult_le_pos; [lra|apply Rlt_le, Rinv_0_lt_compat; exact T].
  - destruct (scaled_R p (Zpos m) e ltac:(lia)) as [N E]. exists (IZR (scaled p (Zpos m) e) / 10 ^ p). split; [apply fixed_ok; assumption|]. cbn [B2R]. unfold F2R, cond_Zopp, Fnum, Fexp.
    replace (IZR (scaled p (Zpos m) e) / 10 ^ p - IZR (Zpos m) * bpow radix2 e) with ((IZR (scaled p (Zpos m) e) - IZR (Zpos m) * bpow radix2 e * 10 ^ p) / 10 ^ p) by (field; lra). unfold Rdiv. rewrite Rabs_mult, (Rabs_pos_eq (/ 10 ^ p)) by (apply Rlt_le, Rinv_0_lt_compat; exact T). apply Rmult_le_compat_r; [apply Rlt_le, Rinv_0_lt_compat; exact T|exact E].
Qed.

(** mjdnow. *)
Lemma now_R now : (0 <= now <= 253402300799)%Z -> fin (mjd_of_time now) /\ 40587 <= toR (mjd_of_time now) /\ Rabs (toR (mjd_of_time now) - (40587 + IZR now / 86400)) <= / 1000000000.
Proof.
  intros H. unfold mjd_of_time. assert (B : 0 <= IZR now <= 253402300799) by (split; apply IZR_le; lia). destruct (lit_R now 86400 22 ltac:(lia) ltac:(lia) ltac:(lia)) as [F E]; [change (bpow radix2 22) with 4194304; apply Rabs_le; lra|]. unfold lit in F, E.
  assert (X := RN_err (IZR now / 86400) 22 ltac:(lia)). change (bpow radix2 22) with 4194304 in X. specialize (X ltac:(apply Rabs_le; lra)). change (bpow radix2 (22 - 54)) with (/ 4294967296) in X. rewrite <- E in X. apply Rabs_le_inv in X.
  assert (Q0 : 0 <= toR (fdiv (of_int now) (of_int 86400))) by (rewrite E; apply (RN_int_ge _ 0); [lia|lra]). set (q := fdiv (of_int now) (of_int 86400)) in *. destruct (of_int_R 40587 ltac:(lia)) as [FC EC].
  destruct (fadd_R (of_int 40587) q 22 FC F ltac:(lia)) as [G E2]; [rewrite EC; change (bpow radix2 22) with 4194304; apply Rabs_le; lra|]. rewrite EC in E2. split; [exact G|]. rewrite E2. split; [apply (RN_int_ge _ 40587); [lia|lra]|].
  assert (Y := RN_err (40587 + toR q) 22 ltac:(lia)). change (bpow radix2 22) with 4194304 in Y. specialize (Y ltac:(apply Rabs_le; lra)). change (bpow radix2 (22 - 54)) with (/ 4294967296) in Y. apply Rabs_le_inv in Y. apply Rabs_le. lra.
Qed.
Lemma mjdnow_ok n t h mi s : day_number n t -> (1970 <= fst (fst t) <= 9999)%Z -> valid_time h mi s ->
  exists text v, mjdnow (86400 * (n - 40587) + second_of_day h mi s) = text ++ [10%Z] /\ decimal 6 text v /\ Rabs (v - (IZR n + IZR (second_of_day h mi s) / 86400)) <= 501 / 10 ^ 9.
Proof.
  intros D Y T. assert (N : (40587 <= n <= 2973483)%Z).
  { apply day_number_iff in D. destruct D as [V ->]. destruct t as [[y m] d]. cbn [fst] in Y. assert (Hd := day_max _ _ _ V). destruct V as [Hm _]. unfold day_formula. assert (M: (m = 1 \/ m = 2 \/ m = 3 \/ m = 4 \/ m = 5 \/ m = 6 \/ m = 7 \/ m = 8 \/ m = 9 \/ m = 10 \/ m = 11 \/ m = 12)%Z) by lia. clear Hm.
    repeat (destruct M as [-> |M]; [cbn [Z.leb Z.compare Pos.compare Pos.compare_cont]; lia|]). subst m. cbn [Z.leb Z.compare Pos.compare Pos.compare_cont]. lia. }
  unfold valid_time in T. assert (SB : (0 <= second_of_day h mi s <= 86399)%Z) by (unfold second_of_day; lia). set (sod := second_of_day h mi s) in *. destruct (now_R (86400 * (n - 40587) + sod) ltac:(lia)) as (F & P & E). unfold mjdnow. set (x := mjd_of_time _) in *.
  assert (S : Bsign x = false). { destruct x as [b|b| |b m e H]; try discriminate; destruct b; try reflexivity; exfalso; cbn [B2R] in P; [lra|]. assert (F2R (Float radix2 (cond_Zopp true (Zpos m)) e) < 0) by (apply F2R_lt_0; reflexivity). lra. }
  destruct (printf_ok 6 x ltac:(lia) F S) as (v & DV & EV). exists (print_f 0 6 x), v. split; [reflexivity|]. split; [exact DV|]. rewrite plus_IZR, mult_IZR, minus_IZR in E. apply Rabs_le_inv in E. apply Rabs_le_inv in EV. apply Rabs_le. lra.
Qed.
