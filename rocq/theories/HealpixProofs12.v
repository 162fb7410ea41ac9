(** The doubles of the pixel centres, and the way back from them, with 32-bit pixel numbers. *)
From Coq Require Import ZArith List Bool Reals Lra Lia Psatz.
From Flocq Require Import Core IEEE754.BinarySingleNaN.
From Verif Require Import CLib FloatModel FloatLemmas GeoLemmas CalendarProofs2 CalendarProofs3 CalendarProofs4.
From Verif Require Import HealpixModel HealpixSpec HealpixAngModel HealpixRealModel HealpixFloatModel HealpixProofs1 HealpixProofs3 HealpixProofs4 HealpixProofs5 HealpixProofs6 HealpixProofs7 HealpixProofs8 HealpixProofs9 HealpixProofs10 HealpixProofs11.
Import ListNotations.
Open Scope R_scope.

Lemma pi_tight : 3.14159265358979 < PI < 3.1415926535898.
Proof. assert (H := PI_2_3_7_ineq 13). unfold tg_alt, PI_2_3_7_tg, Ratan_seq in H. cbn [sum_f_R0 mult plus pow INR] in H. lra. Qed.
Lemma bp52 : bpow radix2 (-52) = / 4503599627370496. Proof. now rewrite bpow_neg. Qed.
Lemma hp_pi_near : near hp_pi PI (1 / 10 ^ 13).
Proof. destruct (dyadic_R 7074237752028440 (-51) ltac:(lia) ltac:(lia)) as [F E]. split; [exact F|]. unfold hp_pi. rewrite E, bp51. destruct pi_tight. apply Rabs_le. lra. Qed.
Lemma halfpi_near : near halfpi (PI / 2) (1 / 10 ^ 13).
Proof. destruct (dyadic_R 7074237752028440 (-52) ltac:(lia) ltac:(lia)) as [F E]. split; [exact F|]. unfold halfpi. rewrite E, bp52. destruct pi_tight. apply Rabs_le. lra. Qed.
Lemma twopi_near : near twopi (2 * PI) (1 / 10 ^ 13).
Proof. destruct twopi_R as [F E]. split; [exact F|]. rewrite E, bp50. destruct pi_tight. apply Rabs_le. lra. Qed.
Lemma half_near : near (lit 1 2) (1 / 2) 0.
Proof. destruct half_val as [F E]. split; [exact F|]. rewrite E. replace (/ 2 - 1 / 2) with 0 by lra. rewrite Rabs_R0. lra. Qed.

(** Division by a positive integer. *)
Lemma near_div x m r e k : near x r e -> (1 <= m <= 2 ^ 53)%Z -> (-1000 <= k < 1024)%Z -> (Rabs r + e) / IZR m <= bpow radix2 k ->
  near (fdiv x (of_int m)) (r / IZR m) (e / IZR m + bpow radix2 (k - 54)).
Proof.
  intros [F H] Hm K B. destruct (of_int_R m ltac:(lia)) as [_ EM]. assert (M1 : 1 <= IZR m) by (apply IZR_le; lia). assert (IM : 0 < / IZR m) by (apply Rinv_0_lt_compat; lra).
  assert (A : Rabs (toR x / IZR m) <= bpow radix2 k).
  { eapply Rle_trans; [|exact B]. unfold Rdiv. rewrite Rabs_mult, (Rabs_pos_eq (/ IZR m)) by lra. apply Rmult_le_compat_r; [lra|]. replace (toR x) with (r + (toR x - r)) by ring. eapply Rle_trans; [apply Rabs_triang|lra]. }
  destruct (fdiv_R x (of_int m) k F ltac:(rewrite EM; lra) ltac:(lia) ltac:(rewrite EM; exact A)) as [FD ED]. split; [exact FD|]. rewrite ED, EM.
  assert (D := RN_err _ k ltac:(lia) A). replace (RN (toR x / IZR m) - r / IZR m) with ((toR x - r) / IZR m + (RN (toR x / IZR m) - toR x / IZR m)) by (unfold Rdiv; ring).
  eapply Rle_trans; [apply Rabs_triang|]. apply Rplus_le_compat; [|exact D]. unfold Rdiv. rewrite Rabs_mult, (Rabs_pos_eq (/ IZR m)) by lra. apply Rmult_le_compat_r; lra.
Qed.
(** The quotient 4/npix, with its relative error. *)
Lemma fact2_near n : (1 <= n <= 13377)%Z -> near (fdiv (of_int 4) (of_int (12 * n * n))) (1 / (3 * (IZR n * IZR n))) (1 / (3 * (IZR n * IZR n)) * / 9007199254740992).
Proof.
  intros Hn. assert (NB : 1 <= IZR n <= 13377) by (split; apply IZR_le; lia). assert (N2 : 0 < IZR n * IZR n) by nra.
  set (q := 1 / (3 * (IZR n * IZR n))). assert (Q0 : 0 < q <= 1) by (unfold q; split; [apply Rdiv_lt_0_compat; nra|apply Rmult_le_reg_r with (3 * (IZR n * IZR n)); [nra|]; unfold Rdiv; rewrite Rmult_assoc, Rinv_l by nra; nra]).
  destruct (mag radix2 q) as [k Hk]. specialize (Hk ltac:(lra)). rewrite Rabs_pos_eq in Hk by lra.
  assert (K1 : (k <= 1)%Z). { destruct (Z.le_gt_cases k 1) as [|G]; [assumption|exfalso]. assert (bpow radix2 1 <= bpow radix2 (k - 1)) by (apply bpow_le; lia). rewrite bpow_pos in H. change (IZR (2 ^ 1)) with 2 in H. lra. }
  assert (K2 : (-100 <= k)%Z). { destruct (Z.le_gt_cases (-100) k) as [|G]; [assumption|exfalso]. assert (bpow radix2 k <= bpow radix2 (-100)) by (apply bpow_le; lia). rewrite bpow_neg in H.
    assert (q * (3 * (IZR n * IZR n)) = 1) by (unfold q; field; lra). assert (IZR n * IZR n <= 13377 * 13377) by nra. assert (/ IZR (2 ^ 100) <= / 10 ^ 20) by (apply Rinv_le_contravar; [lra|]; change (IZR (2 ^ 100)) with 1267650600228229401496703205376; lra). nra. }
  assert (E : (Rabs (IZR 4) + 0) / IZR (12 * n * n) = q) by (rewrite Rabs_pos_eq, Rplus_0_r, !mult_IZR by lra; unfold q; field; lra).
  assert (X := near_div (of_int 4) (12 * n * n) 4 0 k (near_int 4 ltac:(lia)) ltac:(nia) ltac:(lia) ltac:(rewrite E; lra)).
  replace (4 / IZR (12 * n * n)) with q in X by (rewrite <- E, Rabs_pos_eq, Rplus_0_r by lra; reflexivity). eapply near_weak; [exact X|]. unfold Rdiv. rewrite Rmult_0_l, Rplus_0_l.
  replace (k - 54)%Z with (k - 1 + -53)%Z by lia. rewrite bpow_plus, bp53. nra.
Qed.
Lemma cap_z_near n m : (1 <= n <= 13377)%Z -> (1 <= m <= n)%Z -> near (fmul (of_int (m * m)) (fdiv (of_int 4) (of_int (12 * n * n)))) (IZR m * IZR m / (3 * (IZR n * IZR n))) (/ 2251799813685248).
Proof.
  intros Hn Hm. assert (NB : 1 <= IZR n <= 13377) by (split; apply IZR_le; lia). assert (MB : 1 <= IZR m <= IZR n) by (split; apply IZR_le; lia). assert (F := fact2_near n Hn).
  set (q := 1 / (3 * (IZR n * IZR n))) in *. assert (Q : q * (IZR n * IZR n) = 1 / 3) by (unfold q; field; lra). assert (Q0 : 0 < q) by (unfold q; apply Rdiv_lt_0_compat; nra).
  assert (X := near_mul _ _ _ _ _ _ (IZR n * IZR n) q 0 (near_int (m * m) ltac:(nia)) F ltac:(lia)). rewrite mult_IZR in X. replace (IZR m * IZR m / (3 * (IZR n * IZR n))) with (IZR m * IZR m * q) by (unfold q; field; lra).
  change (bpow radix2 0) with 1 in X. change (0 - 54)%Z with (-54)%Z in X. replace (bpow radix2 (-54)) with (/ 18014398509481984) in X by now rewrite bpow_neg.
  specialize (X ltac:(rewrite Rabs_pos_eq; nra) ltac:(rewrite Rabs_pos_eq; lra)).
  eapply near_weak; [apply X; nra|]. nra.
Qed.
Lemma belt_z_near n i : (1 <= n <= 13377)%Z -> (n <= i <= 3 * n)%Z -> near (fmul (of_int (2 * n - i)) (fmul (of_int (2 * n)) (fdiv (of_int 4) (of_int (12 * n * n))))) (zc n i) (1 / 10 ^ 11).
Proof.
  intros Hn Hi. assert (NB : 1 <= IZR n <= 13377) by (split; apply IZR_le; lia). assert (F := fact2_near n Hn).
  set (q := 1 / (3 * (IZR n * IZR n))) in *. assert (Q : q * (IZR n * IZR n) = 1 / 3) by (unfold q; field; lra). assert (Q0 : 0 < q) by (unfold q; apply Rdiv_lt_0_compat; nra). assert (Q1 : IZR n * q <= 1 / 3) by nra.
  assert (X := near_mul _ _ _ _ _ _ (2 * IZR n) q 0 (near_int (2 * n) ltac:(nia)) F ltac:(lia)). rewrite mult_IZR in X.
  change (bpow radix2 0) with 1 in X. change (0 - 54)%Z with (-54)%Z in X. replace (bpow radix2 (-54)) with (/ 18014398509481984) in X by now rewrite bpow_neg.
  specialize (X ltac:(rewrite Rabs_pos_eq; nra) ltac:(rewrite Rabs_pos_eq; lra) ltac:(nra)).
  assert (DI : Rabs (IZR (2 * n - i)) <= IZR n) by (rewrite <- abs_IZR; apply IZR_le; lia).
  assert (Y := near_mul _ _ _ _ _ _ (IZR n) (2 * (IZR n * q)) 0 (near_int (2 * n - i) ltac:(lia)) X ltac:(lia) DI).
  change (bpow radix2 0) with 1 in Y. change (0 - 54)%Z with (-54)%Z in Y. replace (bpow radix2 (-54)) with (/ 18014398509481984) in Y by now rewrite bpow_neg.
  specialize (Y ltac:(rewrite Rabs_pos_eq; nra)).
  replace (zc n i) with (IZR (2 * n - i) * (2 * IZR n * q)); [|unfold zc; rewrite (proj2 (Z.ltb_ge i n)), (proj2 (Z.leb_le i (3 * n))) by lia; unfold q; field; lra].
  set (p := IZR n * q) in *. replace (2 * IZR n * q) with (2 * p) in * by (unfold p; ring).
  eapply near_weak; [apply Y|]; assert (IZR n * p = 1 / 3) by (unfold p; lra); nra.
Qed.

(** Longitudes: [s] steps of a quarter turn over [m]. *)
Lemma ring_phi_near m (x : b64) s h (H : b64) (c : Z) : (1 <= m <= 26754)%Z -> near x s (/ 67108864) -> 0 <= s <= h * IZR m -> (h = 4 /\ H = halfpi /\ c = 2%Z \/ h = 2 /\ H = hp_pi /\ c = 1%Z) ->
  near (fdiv (fmul x H) (of_int m)) (s * (PI / IZR c) / IZR m) (1 / 10 ^ 7).
Proof.
  intros Hm Nx Hs C. destruct pi_bounds as [PL PU]. assert (MB : 1 <= IZR m <= 26754) by (split; apply IZR_le; lia).
  assert (NH : near H (PI / IZR c) (1 / 10 ^ 13)) by (destruct C as [(_ & -> & ->)|(_ & -> & ->)]; [exact halfpi_near|replace (PI / 1) with PI by field; exact hp_pi_near]).
  assert (PC : 0 < PI / IZR c <= 4 /\ h * (PI / IZR c) <= 7) by (destruct C as [(-> & _ & ->)|(-> & _ & ->)]; lra). set (pc := PI / IZR c) in *.
  assert (HB : 0 < h <= 4) by (destruct C as [(-> & _)|(-> & _)]; lra).
  assert (X := near_mul _ _ _ _ _ _ (h * IZR m) pc 20 Nx NH ltac:(lia)). rewrite bpow_pos in X. change (IZR (2 ^ 20)) with 1048576 in X. change (20 - 54)%Z with (-34)%Z in X. replace (bpow radix2 (-34)) with (/ 17179869184) in X by now rewrite bpow_neg.
  specialize (X ltac:(rewrite Rabs_pos_eq; lra) ltac:(rewrite Rabs_pos_eq; lra)). 
  assert (HM : h * IZR m * pc <= 7 * IZR m) by nra.
  specialize (X ltac:(nra)). set (e := / 67108864 * pc + 1 / 10 ^ 13 * (h * IZR m) + / 67108864 * (1 / 10 ^ 13) + / 17179869184) in *.
  assert (EB : 0 <= e <= IZR m * (9 / 10 ^ 8)) by (unfold e; nra).
  assert (IM : IZR m * / IZR m = 1) by (field; lra). assert (IP : 0 < / IZR m) by (apply Rinv_0_lt_compat; lra).
  assert (Y := near_div _ m _ _ 4 X ltac:(lia) ltac:(lia)). rewrite bpow_pos in Y. change (IZR (2 ^ 4)) with 16 in Y. change (4 - 54)%Z with (-50)%Z in Y. rewrite bp50 in Y.
  assert (S0 : 0 <= s * pc <= 7 * IZR m) by nra.
  eapply near_weak; [apply Y|].
  - rewrite Rabs_pos_eq by lra. apply Rmult_le_reg_r with (IZR m); [lra|]. unfold Rdiv. rewrite Rmult_assoc, Rinv_l by lra. lra.
  - apply Rmult_le_reg_r with (IZR m); [lra|]. unfold Rdiv at 1. rewrite Rmult_plus_distr_r, Rmult_assoc, Rinv_l by lra. lra.
Qed.
Lemma nest_phi_near m (x : b64) s : (1 <= m <= 13377)%Z -> near x s (/ 67108864) -> 0 <= s <= 4 * IZR m -> near (fmul x (fdiv halfpi (of_int m))) (s * (PI / 2 / IZR m)) (1 / 10 ^ 7).
Proof.
  intros Hm Nx Hs. destruct pi_bounds as [PL PU]. assert (MB : 1 <= IZR m <= 13377) by (split; apply IZR_le; lia).
  assert (IM : IZR m * / IZR m = 1) by (field; lra). assert (IP : 0 < / IZR m <= 1) by (split; [apply Rinv_0_lt_compat; lra|rewrite <- Rinv_1; apply Rinv_le_contravar; lra]).
  assert (X := near_div _ m _ _ 1 halfpi_near ltac:(lia) ltac:(lia)). rewrite bpow_pos in X. change (IZR (2 ^ 1)) with 2 in X. change (1 - 54)%Z with (-53)%Z in X. rewrite bp53 in X.
  specialize (X ltac:(rewrite Rabs_pos_eq by lra; unfold Rdiv at 1; nra)).
  set (r := / IZR m) in *. replace (PI / 2 / IZR m) with (PI / 2 * r) in * by reflexivity.
  assert (Y := near_mul _ _ _ _ _ _ (4 * IZR m) (PI / 2 * r) 4 Nx X ltac:(lia)). rewrite bpow_pos in Y. change (IZR (2 ^ 4)) with 16 in Y. change (4 - 54)%Z with (-50)%Z in Y. rewrite bp50 in Y.
  specialize (Y ltac:(rewrite Rabs_pos_eq; lra) ltac:(rewrite Rabs_pos_eq; nra)).
  assert (MR : 4 * IZR m * (1 / 10 ^ 13 / IZR m + / 9007199254740992) <= 1 / 10 ^ 8) by (unfold Rdiv; fold r; nra).
  assert (MR2 : 0 <= 1 / 10 ^ 13 / IZR m + / 9007199254740992 <= 1 / 10 ^ 8) by (unfold Rdiv; fold r; nra).
  set (f := 1 / 10 ^ 13 / IZR m + / 9007199254740992) in *.
  assert (Z1 : 4 * IZR m * (PI / 2 * r) = 2 * PI) by (replace (4 * IZR m * (PI / 2 * r)) with (2 * PI * (IZR m * r)) by field; rewrite IM; ring).
  assert (Z2 : 0 <= PI / 2 * r <= 2) by nra.
  eapply near_weak; [apply Y|]; [|assert (/ 67108864 * (PI / 2 * r) <= / 67108864 * 2) by (apply Rmult_le_compat_l; lra); rewrite (Rmult_comm f); lra]. replace ((4 * IZR m + / 67108864) * (PI / 2 * r + f)) with (4 * IZR m * (PI / 2 * r) + 4 * IZR m * f + / 67108864 * (PI / 2 * r + f)) by ring. rewrite Z1. nra.
Qed.
