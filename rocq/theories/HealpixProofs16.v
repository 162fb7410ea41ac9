(** The doubles of pixel centres with 64-bit pixel numbers. *)
From Coq Require Import ZArith List Bool Reals Lra Lia Psatz.
From Flocq Require Import Core IEEE754.BinarySingleNaN Relative.
From Verif Require Import CLib FloatModel FloatLemmas GeoLemmas CalendarProofs2 CalendarProofs3 CalendarProofs4.
From Verif Require Import HealpixModel HealpixSpec HealpixAngModel HealpixRealModel HealpixFloatModel HealpixAng64Model HealpixProofs1 HealpixProofs3 HealpixProofs4 HealpixProofs5 HealpixProofs6 HealpixProofs7 HealpixProofs8 HealpixProofs9 HealpixProofs10 HealpixProofs11 HealpixProofs12 HealpixProofs13 HealpixProofs15.
Import ListNotations.
Open Scope R_scope.

Ltac units := unfold small, v52 in *; lra.

(** Places within a ring are exact. *)
Lemma half_exact j : (1 <= j <= 2 ^ 32)%Z -> rel (fsub (of_int j) (lit 1 2)) (IZR j - 1 / 2) 0.
Proof.
  intros Hj. destruct (of_int_R j ltac:(lia)) as [FJ EJ]. destruct half_val as [FH EH]. assert (B : 1 <= IZR j <= 4294967296) by (split; apply IZR_le; lia).
  destruct (fsub_R _ _ 33 FJ FH ltac:(lia)) as [F E]; [rewrite EJ, EH, bpow_pos; change (IZR (2 ^ 33)) with 8589934592; apply Rabs_le; lra|].
  split; [exact F|]. rewrite E, EJ, EH. rewrite (RN_fx (-1) (2 * j - 1)); [rewrite Rmult_0_l; replace (IZR j - / 2 - (IZR j - 1 / 2)) with 0 by lra; rewrite Rabs_R0; lra|lia| |lia].
  unfold fx. rewrite minus_IZR, mult_IZR. change (bpow radix2 (-1)) with (/ 2). lra.
Qed.
Lemma one_exact j : (1 <= j <= 2 ^ 32)%Z -> rel (fsub (of_int j) (of_int 1)) (IZR j - 1) 0.
Proof.
  intros Hj. destruct (of_int_R j ltac:(lia)) as [FJ EJ]. destruct (of_int_R 1 ltac:(lia)) as [FH EH]. assert (B : 1 <= IZR j <= 4294967296) by (split; apply IZR_le; lia).
  destruct (fsub_R _ _ 33 FJ FH ltac:(lia)) as [F E]; [rewrite EJ, EH, bpow_pos; change (IZR (2 ^ 33)) with 8589934592; apply Rabs_le; lra|].
  split; [exact F|]. rewrite E, EJ, EH. rewrite (RN_fx 0 (j - 1)); [rewrite Rmult_0_l, Rminus_eq_0, Rabs_R0; lra|lia| |lia].
  rewrite <- minus_IZR. apply fx_int. reflexivity.
Qed.
Lemma ks_exact j ks : (ks = 0 \/ ks = 1)%Z -> (1 <= j <= 2 ^ 32)%Z -> rel (fsub (of_int j) (fmul (of_int (ks + 1)) (lit 1 2))) (IZR j - (IZR ks + 1) / 2) 0.
Proof.
  intros K Hj. destruct (of_int_R j ltac:(lia)) as [FJ EJ]. destruct (of_int_R (ks + 1) ltac:(lia)) as [FK EK]. destruct half_val as [FH EH]. assert (B : 1 <= IZR j <= 4294967296) by (split; apply IZR_le; lia).
  assert (KB : 0 <= IZR ks <= 1) by (split; apply IZR_le; lia).
  destruct (fmul_R _ _ 1 FK FH ltac:(lia)) as [FM EM]; [rewrite EK, EH, bpow_pos, plus_IZR; change (IZR (2 ^ 1)) with 2; apply Rabs_le; lra|].
  rewrite EK, EH in EM. rewrite (RN_fx (-1) (ks + 1)) in EM; [|lia|unfold fx; change (bpow radix2 (-1)) with (/ 2); reflexivity|lia].
  destruct (fsub_R _ _ 33 FJ FM ltac:(lia)) as [F E]; [rewrite EJ, EM, bpow_pos, plus_IZR; change (IZR (2 ^ 33)) with 8589934592; apply Rabs_le; lra|].
  split; [exact F|]. rewrite E, EJ, EM. rewrite (RN_fx (-1) (2 * j - (ks + 1))); [rewrite Rmult_0_l, plus_IZR; replace (IZR j - (IZR ks + 1) * / 2 - (IZR j - (IZR ks + 1) / 2)) with 0 by lra; rewrite Rabs_R0; lra|lia| |lia].
  unfold fx. rewrite minus_IZR, mult_IZR. change (bpow radix2 (-1)) with (/ 2). lra.
Qed.

Section Centre.
Context (n : Z) (Hn : (1 <= n <= 2 ^ 29)%Z).
Let N := IZR n.
Lemma N64 : 1 <= N <= 536870912. Proof. unfold N. split; apply IZR_le; lia. Qed.
Let fact2 := fdiv (of_int 4) (of_int (12 * n * n)).
Lemma fact2_rel : rel fact2 (1 / (3 * (N * N))) (6 * v52).
Proof.
  assert (NB := N64). replace (1 / (3 * (N * N))) with (4 / IZR (12 * n * n)) by (rewrite !mult_IZR; fold N; field; lra). assert (N2 : 1 <= N * N <= 536870912 * 536870912) by nra.
  assert (I : / (3 * (536870912 * 536870912)) <= / (3 * (N * N)) <= 1) by (split; [apply Rinv_le_contravar; lra|rewrite <- Rinv_1; apply Rinv_le_contravar; lra]).
  eapply rel_weak; [apply (rel_div _ _ _ _ 0 v52); [apply rel_int_exact; lia|apply rel_int; nia|units|units|units| |]|units].
  - rewrite !mult_IZR. fold N. nra.
  - replace (4 / IZR (12 * n * n)) with (/ (3 * (N * N))) by (rewrite !mult_IZR; fold N; field; lra). eapply big_pos; [exact I|lra|lra].
Qed.
Context (m : Z) (Hm : (1 <= m <= n)%Z).
Let q := IZR m * IZR m / (3 * (N * N)).
Lemma q_range : / (3 * (N * N)) <= q <= 1 / 3 /\ / (3 * (536870912 * 536870912)) <= q.
Proof.
  assert (NB := N64). destruct (cap_gap n m Hm) as [G _]. cbv zeta in G. split; [exact G|]. eapply Rle_trans; [|apply G]. apply Rinv_le_contravar; fold N; nra.
Qed.
Let tmp := fmul (of_int (m * m)) fact2.
Lemma tmp_rel : rel tmp q (9 * v52).
Proof.
  assert (NB := N64). destruct q_range as [Q1 Q2]. assert (E : IZR (m * m) * (1 / (3 * (N * N))) = q) by (rewrite mult_IZR; unfold q; field; lra).
  rewrite <- E. eapply rel_weak; [apply (rel_mul _ _ _ _ v52 (6 * v52)); [apply rel_int; nia|exact fact2_rel|units|units|units|]|units].
  rewrite E. apply (big_pos q (/ (3 * (536870912 * 536870912))) (1 / 3)); lra.
Qed.
Lemma tmp_close : near tmp q (3 * v52).
Proof. destruct q_range as [Q1 Q2]. assert (0 < / (3 * (536870912 * 536870912))) by (apply Rinv_0_lt_compat; lra). eapply near_weak; [apply (rel_near _ _ _ (1 / 3) tmp_rel)|]; [units|rewrite Rabs_pos_eq; lra|units]. Qed.
Lemma bp1 : bpow radix2 1 = 2. Proof. reflexivity. Qed.
Lemma diff_close (a : Z) : (a = 1 \/ a = 2)%Z -> near (fsub (of_int a) tmp) (IZR a - q) (5 * v52) /\ near (fsub tmp (of_int a)) (q - IZR a) (5 * v52).
Proof.
  intros A. destruct q_range as [Q1 Q2]. assert (0 < / (3 * (536870912 * 536870912))) by (apply Rinv_0_lt_compat; lra). assert (C := tmp_close).
  assert (AB : 1 <= IZR a <= 2) by (split; apply IZR_le; lia). assert (B2 : bpow radix2 2 = 4) by reflexivity. assert (B52 : bpow radix2 (2 - 54) = v52) by (change (2 - 54)%Z with (-52)%Z; rewrite bpow_neg; reflexivity).
  split.
  - assert (X := near_sub _ _ _ _ _ _ 2 (near_int a ltac:(lia)) C ltac:(lia)). rewrite B2, B52 in X. specialize (X ltac:(rewrite !Rabs_pos_eq by lra; units)). eapply near_weak; [exact X|units].
  - assert (X := near_sub _ _ _ _ _ _ 2 C (near_int a ltac:(lia)) ltac:(lia)). rewrite B2, B52 in X. specialize (X ltac:(rewrite !Rabs_pos_eq by lra; units)). eapply near_weak; [exact X|units].
Qed.
Lemma sine_close : near (fsqrt (fmul tmp (fsub (of_int 2) tmp))) (sqrt (q * (2 - q))) (17 * v52).
Proof.
  destruct q_range as [Q1 Q2]. assert (P : 0 < / (3 * (536870912 * 536870912))) by (apply Rinv_0_lt_compat; lra). destruct (diff_close 2 ltac:(lia)) as [D _].
  assert (R1 : rel (fsub (of_int 2) tmp) (2 - q) (5 * v52)) by (apply near_rel; [exact D|rewrite Rabs_pos_eq; lra|units]).
  assert (L : q <= q * (2 - q) <= 1) by nra.
  assert (R2 : rel (fmul tmp (fsub (of_int 2) tmp)) (q * (2 - q)) (16 * v52)).
  { eapply rel_weak; [apply (rel_mul _ _ _ _ (9 * v52) (5 * v52) tmp_rel R1); [units|units|units|]|units]. apply (big_pos _ (/ (3 * (536870912 * 536870912))) 1); lra. }
  assert (S : q <= sqrt (q * (2 - q)) <= 1).
  { split; [|rewrite <- sqrt_1; apply sqrt_le_1; lra]. apply Rsqr_incr_0_var; [|apply sqrt_pos]. rewrite Rsqr_sqrt by lra. unfold Rsqr. nra. }
  assert (R3 := rel_sqrt _ _ _ R2 ltac:(units) ltac:(lra) ltac:(apply (big_pos _ (/ (3 * (536870912 * 536870912))) 1); lra)).
  eapply near_weak; [apply (rel_near _ _ _ 1 R3); [units|rewrite Rabs_pos_eq; lra]|units].
Qed.

(** Height and sine of the colatitude as delivered. *)
Definition sine_ok (z0 : R) (s : b64) (e : R) : Prop := (s = of_int (-5) /\ Rabs z0 <= 991 / 1000) \/ near s (sqrt (1 - z0 * z0)) e.
Lemma lit99 a : (a = 99 \/ a = -99)%Z -> near (lit a 100) (IZR a / 100) v52.
Proof.
  intros A. assert (AB : -99 <= IZR a <= 99) by (split; apply IZR_le; lia). assert (X := near_div _ 100 _ _ 0 (near_int a ltac:(lia)) ltac:(lia) ltac:(lia)). change (bpow radix2 0) with 1 in X.
  assert (RA : Rabs (IZR a) <= 99) by (apply Rabs_le; lra). specialize (X ltac:(lra)). eapply near_weak; [exact X|]. change (0 - 54)%Z with (-54)%Z. rewrite bpow_neg. unfold v52. change (IZR (2 ^ 54)) with 18014398509481984. lra.
Qed.
Lemma height_ok (north : bool) : let '(z, s) := cap_height64 fact2 m north in let z0 := if north then 1 - q else - (1 - q) in
  near z z0 (5 * v52) /\ sine_ok z0 s (17 * v52).
Proof.
  unfold cap_height64. fold tmp. destruct q_range as [Q1 Q2]. assert (P : 0 < / (3 * (536870912 * 536870912))) by (apply Rinv_0_lt_compat; lra). destruct (diff_close 1 ltac:(lia)) as [D1 D2]. assert (SC := sine_close).
  destruct north.
  - split; [exact D1|]. destruct (flt (lit 99 100) (fsub (of_int 1) tmp)) eqn:C.
    + right. replace (1 - (1 - q) * (1 - q)) with (q * (2 - q)) by ring. exact SC.
    + left. split; [reflexivity|]. destruct (lit99 99 ltac:(lia)) as [FL NL]. destruct D1 as [F1 N1]. apply (flt_false _ _ FL F1) in C. apply Rabs_le_inv in NL. apply Rabs_le_inv in N1. rewrite Rabs_pos_eq by lra. units.
  - assert (D2' : near (fsub tmp (of_int 1)) (- (1 - q)) (5 * v52)) by (replace (- (1 - q)) with (q - 1) by ring; exact D2). split; [exact D2'|]. destruct (flt (fsub tmp (of_int 1)) (lit (-99) 100)) eqn:C.
    + right. replace (1 - - (1 - q) * - (1 - q)) with (q * (2 - q)) by ring. exact SC.
    + left. split; [reflexivity|]. destruct (lit99 (-99) ltac:(lia)) as [FL NL]. destruct D2' as [F1 N1]. apply (flt_false _ _ F1 FL) in C. apply Rabs_le_inv in NL. apply Rabs_le_inv in N1. rewrite Rabs_Ropp, Rabs_pos_eq by lra. units.
Qed.
End Centre.

Lemma belt_height n i : (1 <= n <= 2 ^ 29)%Z -> (n <= i <= 3 * n)%Z ->
  near (fmul (of_int (2 * n - i)) (fmul (of_int (2 * n)) (fdiv (of_int 4) (of_int (12 * n * n))))) (zc n i) (10 * v52).
Proof.
  intros Hn Hi. assert (NB := N64 n Hn). set (N := IZR n) in *. assert (F := fact2_rel n Hn). fold N in F.
  assert (E1 : IZR (2 * n) * (1 / (3 * (N * N))) = 2 / (3 * N)) by (rewrite mult_IZR; fold N; field; lra).
  assert (I : / (3 * 536870912) <= / (3 * N) <= 1) by (split; [apply Rinv_le_contravar; lra|rewrite <- Rinv_1; apply Rinv_le_contravar; lra]).
  assert (L : / (3 * 536870912) <= 2 / (3 * N) <= 2) by (unfold Rdiv; lra).
  assert (R1 : rel (fmul (of_int (2 * n)) (fdiv (of_int 4) (of_int (12 * n * n)))) (2 / (3 * N)) (8 * v52)).
  { rewrite <- E1. eapply rel_weak; [apply (rel_mul _ _ _ _ 0 (6 * v52)); [apply rel_int_exact; lia|exact F|units|units|units|]|units]. rewrite E1. apply (big_pos _ _ _ L); lra. }
  assert (E2 : IZR (2 * n - i) * (2 / (3 * N)) = zc n i). { unfold zc. rewrite (proj2 (Z.ltb_ge i n)), (proj2 (Z.leb_le i (3 * n))) by lia. reflexivity. }
  assert (ZA : Rabs (zc n i) <= 2 / 3) by (apply zc_belt; lia).
  eapply near_weak; [apply (rel_near _ _ (10 * v52) 1)|]; [|units|lra|lra]. rewrite <- E2.
  eapply rel_weak; [apply (rel_mul _ _ _ _ 0 (8 * v52)); [apply rel_int_exact; lia|exact R1|units|units|units|]|units].
  destruct (Z.eq_dec (2 * n - i) 0) as [-> | Z]; [left; ring|]. apply big_range. rewrite E2. split; [|lra]. rewrite <- E2, Rabs_mult, (Rabs_pos_eq (2 / (3 * N))) by lra.
  assert (1 <= Rabs (IZR (2 * n - i))) by (rewrite <- abs_IZR; apply IZR_le; lia). nra.
Qed.

(** Longitudes. *)
Lemma ring_longitude (m : Z) (x : b64) t h (H : b64) (c : Z) : (1 <= m <= 2 ^ 30)%Z -> rel x t 0 -> t = 0 \/ / 2 <= t -> t <= h * IZR m -> (h = 4 /\ H = halfpi /\ c = 2%Z \/ h = 2 /\ H = hp_pi /\ c = 1%Z) ->
  near (fdiv (fmul x H) (of_int m)) (t * (PI / IZR c) / IZR m) (1 / 10 ^ 12).
Proof.
  intros Hm Rx T0 T1 C. destruct pi_bounds as [PL PU]. assert (MB : 1 <= IZR m <= 1073741824) by (split; apply IZR_le; lia).
  assert (NH : rel H (PI / IZR c) (1 / 10 ^ 13)).
  { destruct C as [(_ & -> & ->)|(_ & -> & ->)]; (apply near_rel; [|rewrite Rabs_pos_eq; lra|lra]); [exact halfpi_near|replace (PI / 1) with PI by field; exact hp_pi_near]. }
  assert (PC : 1 <= PI / IZR c <= 4 /\ h * (PI / IZR c) <= 7) by (destruct C as [(-> & _ & ->)|(-> & _ & ->)]; lra). set (pc := PI / IZR c) in *. assert (HB : 0 < h <= 4) by (destruct C as [(-> & _)|(-> & _)]; lra).
  assert (IM : IZR m * / IZR m = 1) by (field; lra). assert (IP : / 1073741824 <= / IZR m <= 1) by (split; [apply Rinv_le_contravar; lra|rewrite <- Rinv_1; apply Rinv_le_contravar; lra]).
  assert (TP : 0 <= t * pc <= 7 * IZR m) by nra.
  assert (B1 : big (t * pc)). { destruct T0 as [-> | T0]; [left; ring|]. apply (big_pos _ (/ 2) (7 * IZR m)); [split; nra|lra|lra]. }
  assert (R1 := rel_mul _ _ _ _ _ _ Rx NH ltac:(units) ltac:(units) ltac:(units) B1).
  assert (TV : 0 <= t * pc / IZR m <= 7). { unfold Rdiv. split; [apply Rmult_le_pos; lra|]. apply Rmult_le_reg_r with (IZR m); [lra|]. rewrite Rmult_assoc, (Rmult_comm (/ _)), IM. lra. }
  assert (B2 : big (t * pc / IZR m)). { destruct T0 as [-> | T0]; [left; unfold Rdiv; ring|]. apply (big_pos _ (/ 2147483648) 7); [split; [|lra]|lra|lra]. unfold Rdiv. apply Rle_trans with (/ 2 * / 1073741824); [lra|]. apply Rmult_le_compat; nra. }
  assert (R2 := rel_div _ _ _ _ _ _ R1 (rel_int_exact m ltac:(lia)) ltac:(units) ltac:(units) ltac:(units) ltac:(lra) B2).
  eapply near_weak; [apply (rel_near _ _ _ 7 R2); [units|rewrite Rabs_pos_eq; lra]|units].
Qed.
Lemma nest_longitude (m : Z) (x : b64) t : (1 <= m <= 2 ^ 29)%Z -> rel x t 0 -> t = 0 \/ / 2 <= t -> t <= 4 * IZR m -> near (fmul x (fdiv halfpi (of_int m))) (t * (PI / 2 / IZR m)) (1 / 10 ^ 12).
Proof.
  intros Hm Rx T0 T1. destruct pi_bounds as [PL PU]. assert (MB : 1 <= IZR m <= 536870912) by (split; apply IZR_le; lia).
  assert (NH : rel halfpi (PI / 2) (1 / 10 ^ 13)) by (apply near_rel; [exact halfpi_near|rewrite Rabs_pos_eq; lra|lra]).
  assert (IM : IZR m * / IZR m = 1) by (field; lra). assert (IP : / 536870912 <= / IZR m <= 1) by (split; [apply Rinv_le_contravar; lra|rewrite <- Rinv_1; apply Rinv_le_contravar; lra]).
  assert (HV : / 536870912 <= PI / 2 / IZR m <= 2) by (unfold Rdiv at 1; split; nra).
  assert (R1 := rel_div _ _ _ _ _ _ NH (rel_int_exact m ltac:(lia)) ltac:(units) ltac:(units) ltac:(units) ltac:(lra) ltac:(apply (big_pos _ _ _ HV); lra)).
  assert (TV : 0 <= t * (PI / 2 / IZR m) <= 7). { split; [apply Rmult_le_pos; lra|]. apply Rle_trans with (4 * IZR m * (PI / 2 / IZR m)); [apply Rmult_le_compat_r; lra|]. replace (4 * IZR m * (PI / 2 / IZR m)) with (2 * PI * (IZR m * / IZR m)) by (field; lra). rewrite IM. lra. }
  assert (B2 : big (t * (PI / 2 / IZR m))). { destruct T0 as [-> | T0]; [left; ring|]. apply (big_pos _ (/ 2 * / 536870912) 7); [split; [|lra]|lra|lra]. apply Rmult_le_compat; lra. }
  assert (R2 := rel_mul _ _ _ _ _ _ Rx R1 ltac:(units) ltac:(units) ltac:(units) B2).
  eapply near_weak; [apply (rel_near _ _ _ 7 R2); [units|rewrite Rabs_pos_eq; lra]|units].
Qed.
