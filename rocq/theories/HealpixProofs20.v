(** From a vector back to its direction in double arithmetic. *)
From Coq Require Import ZArith List Bool Reals Lra Lia Psatz.
From Flocq Require Import Core IEEE754.BinarySingleNaN Relative.
From Verif Require Import CLib FloatModel FloatLemmas GeoLemmas CalendarProofs2 CalendarProofs3 CalendarProofs4.
From Verif Require Import HealpixModel HealpixSpec HealpixAngModel HealpixRealModel HealpixFloatModel HealpixAng64Model HealpixVecModel HealpixVecSpec HealpixProofs3 HealpixProofs10 HealpixProofs11 HealpixProofs12 HealpixProofs13 HealpixProofs15 HealpixProofs16 HealpixProofs17 HealpixProofs19.
Import ListNotations.
Open Scope R_scope.

Lemma RN_any u : Rabs (RN u - u) <= / 2 * v52 * Rabs u + bpow radix2 (-1000).
Proof.
  assert (P : 0 < bpow radix2 (-1000)) by apply bpow_gt_0. assert (V : 0 < v52) by (unfold v52; lra). assert (A := Rabs_pos u). assert (0 <= / 2 * v52 * Rabs u) by (apply Rmult_le_pos; lra).
  destruct (Rle_lt_dec (bpow radix2 (-1000)) (Rabs u)) as [L|L]; [generalize (RN_relative u ltac:(tauto)); lra|].
  assert (X := RN_err u (-1000) ltac:(lia) (Rlt_le _ _ L)). assert (bpow radix2 (-1000 - 54) <= bpow radix2 (-1000)) by (apply bpow_le; lia). lra.
Qed.

Lemma atan_pos u : 0 <= u -> 0 <= atan u <= u.
Proof.
  intros [H|<-]; [|rewrite atan_0; lra]. destruct (MVT_cor2 atan (fun c => / (1 + c ^ 2)) 0 u H) as (c & E & C); [intros c _; apply derivable_pt_lim_atan|].
  rewrite atan_0, !Rminus_0_r in E. rewrite E. assert (1 <= 1 + c ^ 2) by nra. assert (0 < / (1 + c ^ 2) <= 1) by (split; [apply Rinv_0_lt_compat; lra|rewrite <- Rinv_1; apply Rinv_le_contravar; lra]). nra.
Qed.
Lemma atan_le_abs u : Rabs (atan u) <= Rabs u.
Proof.
  destruct (Rle_dec 0 u) as [H|H]; [generalize (atan_pos u H); intros; rewrite !Rabs_pos_eq; lra|]. assert (K := atan_pos (- u) ltac:(lra)). rewrite atan_opp in K. rewrite !Rabs_left1; lra.
Qed.

Section Vec.
Context (L s zt phi e1 e2 : R) (x y z : b64) (Fx : fin x) (Fy : fin y) (Fz : fin z) (HL : bpow radix2 (-300) <= L <= bpow radix2 300)
  (Ex : toR x = L * (s * (cos phi + e1))) (Ey : toR y = L * (s * (sin phi + e2))) (Ez : toR z = L * zt)
  (H1 : Rabs e1 <= 102 / 10 ^ 14) (H2 : Rabs e2 <= 102 / 10 ^ 14) (Hs : 1 / 10 ^ 10 <= s <= 11 / 10) (Hz : Rabs zt <= 11 / 10) (Hu : Rabs (s * s + zt * zt - 1) <= 41 / 10 ^ 14).
Let X := s * (cos phi + e1).
Let Y := s * (sin phi + e2).

Lemma L_pos : 0 < L. Proof. generalize (bpow_gt_0 radix2 (-300)). lra. Qed.
Lemma LL_range : bpow radix2 (-600) <= L * L <= bpow radix2 600.
Proof. assert (P := bpow_gt_0 radix2 (-300)). change (-600)%Z with (-300 + -300)%Z. change 600%Z with (300 + 300)%Z. rewrite !bpow_plus. split; apply Rmult_le_compat; lra. Qed.
Lemma tiny : bpow radix2 (-1000) <= L * L * (v52 * (s * s)).
Proof.
  assert (A := LL_range). assert (P := bpow_gt_0 radix2 (-600)). change (-1000)%Z with (-600 + -400)%Z. rewrite bpow_plus.
  apply Rmult_le_compat; [lra|apply bpow_ge_0|lra|]. assert (B : bpow radix2 (-400) <= bpow radix2 (-120)) by (apply bpow_le; lia). assert (C : bpow radix2 (-120) = / IZR (2 ^ 120)) by (rewrite bpow_neg; reflexivity).
  assert (D : 1 / 10 ^ 20 <= s * s) by (replace (1 / 10 ^ 20) with (1 / 10 ^ 10 * (1 / 10 ^ 10)) by field; apply Rmult_le_compat; lra). change (IZR (2 ^ 120)) with 1329227995784915872903807060280344576 in C. unfold v52. lra.
Qed.
Lemma scaled_bound a : Rabs a <= 100 -> Rabs (L * L * a) <= bpow radix2 700.
Proof.
  intros A. assert (B := LL_range). assert (P := bpow_gt_0 radix2 (-600)). rewrite Rabs_mult, (Rabs_pos_eq (L * L)) by lra. change 700%Z with (600 + 100)%Z. rewrite bpow_plus.
  apply Rmult_le_compat; [lra|apply Rabs_pos|lra|]. apply Rle_trans with (bpow radix2 7); [change (bpow radix2 7) with 128; lra|apply bpow_le; lia].
Qed.
Lemma scaled u a : toR u = RN (L * L * a) -> exists b, toR u = L * L * b /\ Rabs (b - a) <= / 2 * v52 * Rabs a + v52 * (s * s).
Proof.
  intros E. assert (LP := L_pos). assert (LLP : 0 < L * L) by (apply Rmult_lt_0_compat; assumption). exists (toR u / (L * L)). split; [field; lra|]. assert (R1 := RN_any (L * L * a)). rewrite <- E in R1. assert (T := tiny).
  apply Rmult_le_reg_l with (L * L); [exact LLP|]. rewrite <- (Rabs_pos_eq (L * L)) at 1 by lra. rewrite <- Rabs_mult. replace (L * L * (toR u / (L * L) - a)) with (toR u - L * L * a) by (field; lra).
  eapply Rle_trans; [exact R1|]. rewrite Rabs_mult, (Rabs_pos_eq (L * L)) by lra. lra.
Qed.
Lemma trig_small : Rabs (e1 * cos phi + e2 * sin phi) <= 204 / 10 ^ 14 /\ Rabs (e2 * cos phi - e1 * sin phi) <= 204 / 10 ^ 14.
Proof.
  assert (A := Rabs_le_inv _ _ H1). assert (B := Rabs_le_inv _ _ H2). assert (C := COS_bound phi). assert (S := SIN_bound phi).
  assert (K1 := small_prod e1 (cos phi) _ 1 A ltac:(lra)). assert (K2 := small_prod e2 (sin phi) _ 1 B ltac:(lra)). assert (K3 := small_prod e2 (cos phi) _ 1 B ltac:(lra)). assert (K4 := small_prod e1 (sin phi) _ 1 A ltac:(lra)).
  split; apply Rabs_le; lra.
Qed.
Lemma across : exists g, X * X + Y * Y = s * s * (1 + g) /\ Rabs g <= 409 / 10 ^ 14.
Proof.
  exists (2 * (e1 * cos phi + e2 * sin phi) + e1 * e1 + e2 * e2). split.
  - unfold X, Y. assert (P := sin2_cos2 phi). unfold Rsqr in P. replace (s * (cos phi + e1) * (s * (cos phi + e1)) + s * (sin phi + e2) * (s * (sin phi + e2))) with (s * s * ((sin phi * sin phi + cos phi * cos phi) + 2 * (e1 * cos phi + e2 * sin phi) + e1 * e1 + e2 * e2)) by ring. rewrite P. ring.
  - destruct trig_small as [T _]. apply Rabs_le_inv in T. assert (A := Rabs_le_inv _ _ H1). assert (B := Rabs_le_inv _ _ H2). assert (K1 := small_prod e1 e1 _ _ A A). assert (K2 := small_prod e2 e2 _ _ B B). apply Rabs_le. lra.
Qed.
Lemma s_square : 0 < s * s <= 1 + 41 / 10 ^ 14. Proof. apply Rabs_le_inv in Hu. assert (0 <= zt * zt) by apply Rle_0_sqr. split; [apply Rmult_lt_0_compat; lra|lra]. Qed.
Lemma s_square' : 0 < s * s <= 121 / 100. Proof. split; [apply Rmult_lt_0_compat; lra|]. replace (121 / 100) with (11 / 10 * (11 / 10)) by field. apply Rmult_le_compat; lra. Qed.
Lemma axis_ok : exists p, fin (axis_square x y) /\ toR (axis_square x y) = L * L * p /\ Rabs (p - s * s) <= 411 / 10 ^ 14 * (s * s).
Proof.
  destruct across as (g & G & Hg). destruct s_square' as [S0 S1]. apply Rabs_le_inv in Hg. assert (X0 : 0 <= X * X) by apply Rle_0_sqr. assert (Y0 : 0 <= Y * Y) by apply Rle_0_sqr.
  assert (SG := small_prod g (s * s) (409 / 10 ^ 14) (s * s) ltac:(lra) ltac:(lra)). assert (XB : X * X <= 2) by lra. assert (YB : Y * Y <= 2) by lra.
  destruct (fmul_R x x 700 Fx Fx ltac:(lia)) as [F1 E1]; [rewrite Ex; fold X; replace (L * X * (L * X)) with (L * L * (X * X)) by ring; apply scaled_bound; rewrite Rabs_pos_eq; lra|].
  destruct (fmul_R y y 700 Fy Fy ltac:(lia)) as [F2 E2]; [rewrite Ey; fold Y; replace (L * Y * (L * Y)) with (L * L * (Y * Y)) by ring; apply scaled_bound; rewrite Rabs_pos_eq; lra|].
  rewrite Ex in E1. fold X in E1. replace (L * X * (L * X)) with (L * L * (X * X)) in E1 by ring. rewrite Ey in E2. fold Y in E2. replace (L * Y * (L * Y)) with (L * L * (Y * Y)) in E2 by ring.
  destruct (scaled _ _ E1) as (p1 & P1 & D1). destruct (scaled _ _ E2) as (p2 & P2 & D2). rewrite (Rabs_pos_eq (X * X)) in D1 by lra. rewrite (Rabs_pos_eq (Y * Y)) in D2 by lra. apply Rabs_le_inv in D1, D2. unfold v52 in D1, D2.
  assert (PB : Rabs (p1 + p2) <= 2 * (s * s)) by (apply Rabs_le; lra).
  destruct (fadd_R _ _ 700 F1 F2 ltac:(lia)) as [F3 E3]; [rewrite P1, P2, <- Rmult_plus_distr_l; apply scaled_bound; lra|].
  rewrite P1, P2, <- Rmult_plus_distr_l in E3. destruct (scaled _ _ E3) as (p & P & D). exists p. split; [exact F3|]. split; [exact P|]. unfold v52 in D. apply Rabs_le_inv in D. apply Rabs_le. lra.
Qed.
Lemma length_ok : exists w, fin (vec_length x y z) /\ toR (vec_length x y z) = L * w /\ Rabs (w - 1) <= 235 / 10 ^ 14.
Proof.
  destruct axis_ok as (p & F1 & E1 & D1). destruct s_square as [S0 S1]. apply Rabs_le_inv in Hu, Hz. assert (Z0 : 0 <= zt * zt) by apply Rle_0_sqr. assert (LP := L_pos). assert (LLR := LL_range).
  destruct (fmul_R z z 700 Fz Fz ltac:(lia)) as [F2 E2]; [rewrite Ez; replace (L * zt * (L * zt)) with (L * L * (zt * zt)) by ring; apply scaled_bound; rewrite Rabs_pos_eq; lra|].
  rewrite Ez in E2. replace (L * zt * (L * zt)) with (L * L * (zt * zt)) in E2 by ring. destruct (scaled _ _ E2) as (p2 & P2 & D2). rewrite (Rabs_pos_eq (zt * zt)) in D2 by lra. unfold v52 in D2. apply Rabs_le_inv in D1, D2.
  destruct (fadd_R _ _ 700 F1 F2 ltac:(lia)) as [F3 E3]; [rewrite E1, P2, <- Rmult_plus_distr_l; apply scaled_bound; apply Rabs_le; lra|].
  rewrite E1, P2, <- Rmult_plus_distr_l in E3. destruct (scaled _ _ E3) as (q & Q & D). unfold v52 in D. assert (PB : Rabs (p + p2) <= 2) by (apply Rabs_le; lra). apply Rabs_le_inv in D.
  assert (QB : Rabs (q - 1) <= 46 / 10 ^ 13) by (apply Rabs_le; lra). assert (QB' := Rabs_le_inv _ _ QB).
  unfold vec_length. set (v := fadd (axis_square x y) (fmul z z)) in *. assert (V0 : 0 <= toR v) by (rewrite Q; apply Rmult_le_pos; [generalize (bpow_gt_0 radix2 (-600)); lra|lra]).
  destruct (fsqrt_R v F3 V0) as [F4 E4]. rewrite Q, sqrt_mult_alt, sqrt_square in E4 by (try apply Rmult_le_pos; lra).
  assert (SQ : Rabs (sqrt q - 1) <= 232 / 10 ^ 14).
  { assert (S2 := sqrt_pos q). assert (SS := sqrt_sqrt q ltac:(lra)). set (r := sqrt q) in *. assert (R9 : 99 / 100 <= r) by (destruct (Rle_lt_dec (99 / 100) r) as [|W]; [assumption|exfalso; nra]).
    assert (K : Rabs (r - 1) * (r + 1) <= 46 / 10 ^ 13) by (rewrite <- (Rabs_pos_eq (r + 1)) by lra; rewrite <- Rabs_mult; replace ((r - 1) * (r + 1)) with (q - 1) by (rewrite <- SS; ring); exact QB).
    assert (0 <= Rabs (r - 1)) by apply Rabs_pos. assert (Rabs (r - 1) * (199 / 100) <= Rabs (r - 1) * (r + 1)) by (apply Rmult_le_compat_l; lra). lra. }
  assert (SQ' := Rabs_le_inv _ _ SQ). assert (B : bpow radix2 (-1000) <= Rabs (L * sqrt q)).
  { rewrite Rabs_pos_eq by (apply Rmult_le_pos; lra). change (-1000)%Z with (-300 + -700)%Z. rewrite bpow_plus. apply Rmult_le_compat; try apply bpow_ge_0; [lra|]. apply Rle_trans with (bpow radix2 (-1)); [apply bpow_le; lia|]. change (bpow radix2 (-1)) with (/ 2). lra. }
  assert (RR := RN_relative _ (or_intror B)). rewrite <- E4 in RR. rewrite (Rabs_pos_eq (L * sqrt q)) in RR by (apply Rmult_le_pos; lra).
  exists (toR (fsqrt v) / L). split; [exact F4|]. split; [field; lra|].
  assert (K : Rabs (toR (fsqrt v) / L - sqrt q) <= v52). { apply Rmult_le_reg_l with L; [exact LP|]. rewrite <- (Rabs_pos_eq L) at 1 by lra. rewrite <- Rabs_mult. replace (L * (toR (fsqrt v) / L - sqrt q)) with (toR (fsqrt v) - L * sqrt q) by (field; lra). eapply Rle_trans; [exact RR|]. assert (L * sqrt q <= L * 2) by (apply Rmult_le_compat_l; lra). unfold v52. lra. }
  apply Rabs_le_inv in K. unfold v52 in K. apply Rabs_le. lra.
Qed.
Lemma quotient_ok a u w : fin u -> toR u = L * a -> Rabs a <= 2 -> fin (vec_length x y z) -> toR (vec_length x y z) = L * w -> Rabs (w - 1) <= 235 / 10 ^ 14 ->
  near (fdiv u (vec_length x y z)) a (Rabs a * (236 / 10 ^ 14) + 2 * v52).
Proof.
  intros Fu Eu A Fw Ew Hw. assert (LP := L_pos). apply Rabs_le_inv in Hw. assert (LW : 0 < L * w) by (apply Rmult_lt_0_compat; lra).
  assert (Q : toR u / toR (vec_length x y z) = a * / w) by (rewrite Eu, Ew; field; lra). assert (IW : Rabs (/ w - 1) <= 2355 / 10 ^ 15).
  { replace (/ w - 1) with ((1 - w) * / w) by (field; lra). assert (0 < / w <= 1001 / 1000) by (split; [apply Rinv_0_lt_compat; lra|replace (1001 / 1000) with (/ (1000 / 1001)) by field; apply Rinv_le_contravar; lra]). assert (K := small_prod (1 - w) (/ w) (235 / 10 ^ 14) (1001 / 1000) ltac:(lra) ltac:(lra)). apply Rabs_le. lra. }
  assert (D : Rabs (a * / w - a) <= Rabs a * (2355 / 10 ^ 15)) by (replace (a * / w - a) with (a * (/ w - 1)) by ring; rewrite Rabs_mult; apply Rmult_le_compat_l; [apply Rabs_pos|exact IW]).
  assert (B : Rabs (a * / w) <= 4). { replace (a * / w) with (a + (a * / w - a)) by ring. eapply Rle_trans; [apply Rabs_triang|]. lra. }
  destruct (fdiv_R u (vec_length x y z) 2 Fu ltac:(lra) ltac:(lia)) as [F E]; [rewrite Q; change (bpow radix2 2) with 4; exact B|]. split; [exact F|]. rewrite E, Q.
  assert (R1 := RN_err (a * / w) 2 ltac:(lia) B). change (2 - 54)%Z with (-52)%Z in R1. rewrite bpow_neg in R1. change (IZR (2 ^ 52)) with 4503599627370496 in R1.
  replace (RN (a * / w) - a) with ((RN (a * / w) - a * / w) + (a * / w - a)) by ring. eapply Rle_trans; [apply Rabs_triang|]. assert (0 <= Rabs a) by apply Rabs_pos. unfold v52. lra.
Qed.
Lemma height_back : near (fdiv z (vec_length x y z)) zt (26 / 10 ^ 13).
Proof.
  destruct length_ok as (w & F & E & D). assert (X1 := quotient_ok zt z w Fz Ez ltac:(lra) F E D). eapply near_weak; [exact X1|]. unfold v52. lra.
Qed.
Lemma sine_back : s <= 1 / 5 -> near (fdiv (fsqrt (axis_square x y)) (vec_length x y z)) s (2 / 10 ^ 12).
Proof.
  intros S5. destruct length_ok as (w & F & E & D). destruct axis_ok as (p & F1 & E1 & D1). destruct s_square as [S0 S1]. assert (LP := L_pos). assert (D1' := Rabs_le_inv _ _ D1).
  assert (V0 : 0 <= toR (axis_square x y)) by (rewrite E1; apply Rmult_le_pos; [apply Rmult_le_pos; lra|lra]). destruct (fsqrt_R _ F1 V0) as [F4 E4]. rewrite E1, sqrt_mult_alt, sqrt_square in E4 by (try apply Rmult_le_pos; lra).
  assert (G := sqrt_gap p s _ ltac:(lra) ltac:(lra) D1). replace (411 / 10 ^ 14 * (s * s) / s) with (411 / 10 ^ 14 * s) in G by (field; lra). assert (G' := Rabs_le_inv _ _ G).
  assert (B : bpow radix2 (-1000) <= Rabs (L * sqrt p)).
  { rewrite Rabs_pos_eq by (apply Rmult_le_pos; [lra|apply sqrt_pos]). change (-1000)%Z with (-300 + -700)%Z. rewrite bpow_plus. apply Rmult_le_compat; try apply bpow_ge_0; [lra|]. apply Rle_trans with (bpow radix2 (-40)); [apply bpow_le; lia|]. rewrite bpow_neg. change (IZR (2 ^ 40)) with 1099511627776. lra. }
  assert (RR := RN_relative _ (or_intror B)). rewrite <- E4 in RR. rewrite (Rabs_pos_eq (L * sqrt p)) in RR by (apply Rmult_le_pos; [lra|apply sqrt_pos]).
  set (u := fsqrt (axis_square x y)) in *. assert (EU : toR u = L * (toR u / L)) by (field; lra). set (a := toR u / L) in *.
  assert (K : Rabs (a - sqrt p) <= v52 * s). { apply Rmult_le_reg_l with L; [exact LP|]. rewrite <- (Rabs_pos_eq L) at 1 by lra. rewrite <- Rabs_mult. replace (L * (a - sqrt p)) with (toR u - L * sqrt p) by (rewrite EU; ring). eapply Rle_trans; [exact RR|]. assert (L * sqrt p <= L * (2 * s)) by (apply Rmult_le_compat_l; lra). unfold v52. lra. }
  apply Rabs_le_inv in K. unfold v52 in K. assert (AS : Rabs (a - s) <= 42 / 10 ^ 13 * s) by (apply Rabs_le; lra). apply Rabs_le_inv in AS. assert (AB : Rabs a <= 21 / 100) by (apply Rabs_le; lra).
  destruct (quotient_ok a u w F4 EU ltac:(lra) F E D) as [FQ NQ]. split; [exact FQ|]. apply Rabs_le_inv in NQ. unfold v52 in NQ. apply Rabs_le. lra.
Qed.
Lemma longitude_back f : good_angle f -> Rabs phi <= 8 -> fin (f y x) /\ exists k, (Z.abs k <= 3)%Z /\ Rabs (toR (f y x) - (phi + IZR k * (2 * PI))) <= 4 / 10 ^ 12.
Proof.
  intros G HP. destruct trig_small as [T1 T2]. set (A := 1 + (e1 * cos phi + e2 * sin phi)). set (B := e2 * cos phi - e1 * sin phi). fold B in T2. assert (T1' := Rabs_le_inv _ _ T1). assert (A1 : 99 / 100 <= A <= 2) by (unfold A; lra).
  set (d := atan (B / A)). assert (LP := L_pos). assert (D1 := cos_atan (B / A)). assert (D2 := sin_atan (B / A)). fold d in D1, D2.
  set (h := sqrt (1 + (B / A)²)) in *. assert (HH : 0 < 1 + (B / A)²) by (generalize (Rle_0_sqr (B / A)); lra). assert (H0 : 0 < h) by (apply sqrt_lt_R0; exact HH).
  assert (C1 : A = A * h * cos d) by (rewrite D1; field; lra). assert (C2 : B = A * h * sin d) by (rewrite D2; field; lra).
  assert (TR := sin2_cos2 phi). unfold Rsqr in TR.
  assert (U1 : cos phi + e1 = A * h * cos (phi + d)).
  { rewrite cos_plus. replace (A * h * (cos phi * cos d - sin phi * sin d)) with (cos phi * (A * h * cos d) - sin phi * (A * h * sin d)) by ring. rewrite <- C1, <- C2. unfold A, B. replace (cos phi * (1 + (e1 * cos phi + e2 * sin phi)) - sin phi * (e2 * cos phi - e1 * sin phi)) with (cos phi + e1 * (sin phi * sin phi + cos phi * cos phi)) by ring. rewrite TR. ring. }
  assert (U2 : sin phi + e2 = A * h * sin (phi + d)).
  { rewrite sin_plus. replace (A * h * (sin phi * cos d + cos phi * sin d)) with (sin phi * (A * h * cos d) + cos phi * (A * h * sin d)) by ring. rewrite <- C1, <- C2. unfold A, B. replace (sin phi * (1 + (e1 * cos phi + e2 * sin phi)) + cos phi * (e2 * cos phi - e1 * sin phi)) with (sin phi + e2 * (sin phi * sin phi + cos phi * cos phi)) by ring. rewrite TR. ring. }
  assert (RP : 0 < L * (s * (A * h))) by (repeat apply Rmult_lt_0_compat; lra).
  destruct (G y x (L * (s * (A * h))) (phi + d) Fy Fx RP) as (F & B4 & _ & k & K); [rewrite Ey, U2; ring|rewrite Ex, U1; ring|]. split; [exact F|].
  assert (DB : Rabs d <= 25 / 10 ^ 13).
  { assert (Q : Rabs (B / A) <= 25 / 10 ^ 13). { unfold Rdiv. rewrite Rabs_mult, (Rabs_pos_eq (/ A)) by (apply Rlt_le, Rinv_0_lt_compat; lra). assert (/ A <= 102 / 100) by (replace (102 / 100) with (/ (100 / 102)) by field; apply Rinv_le_contravar; lra). assert (0 < / A) by (apply Rinv_0_lt_compat; lra). assert (Rabs B * / A <= 204 / 10 ^ 14 * (102 / 100)) by (apply Rmult_le_compat; try apply Rabs_pos; lra). lra. }
    eapply Rle_trans; [|exact Q]. unfold d. apply atan_le_abs. }
  apply Rabs_le_inv in DB, K, HP, B4. exists k. split; [|apply Rabs_le; lra].
  destruct pi_bounds as [PL PU]. assert (KB : -3 < IZR k < 3) by nra. assert (-3 < k < 3)%Z by (split; apply lt_IZR; lra). lia.
Qed.
End Vec.
