(** Pixel to direction and back in double arithmetic, with 32-bit pixel numbers. *)
From Coq Require Import ZArith List Bool Reals Lra Lia Psatz.
From Flocq Require Import Core IEEE754.BinarySingleNaN.
From Verif Require Import CLib FloatModel FloatLemmas GeoLemmas CalendarProofs2 CalendarProofs3 CalendarProofs4.
From Verif Require Import HealpixModel HealpixSpec HealpixAngModel HealpixRealModel HealpixFloatModel HealpixProofs1 HealpixProofs3 HealpixProofs4 HealpixProofs5 HealpixProofs6 HealpixProofs7 HealpixProofs8 HealpixProofs9 HealpixProofs10 HealpixProofs11 HealpixProofs12.
Import ListNotations.
Open Scope R_scope.

Lemma tc_top n i j : (1 <= n)%Z -> on_ring n i j -> tc n i j <= 4 - / (2 * IZR n).
Proof.
  intros Hn [Hi Hj]. assert (NB : 1 <= IZR n) by (apply IZR_le; lia). unfold tc. unfold rlen in Hj.
  assert (G : forall m x, (1 <= m <= n)%Z -> x <= 4 * IZR m - 1 / 2 -> x / IZR m <= 4 - / (2 * IZR n)).
  { intros m x Hm Hx. assert (MB : 1 <= IZR m <= IZR n) by (split; apply IZR_le; lia). assert (I : / (2 * IZR n) <= / (2 * IZR m)) by (apply Rinv_le_contravar; lra).
    apply Rle_trans with (4 - / (2 * IZR m)); [|lra]. apply Rmult_le_reg_r with (IZR m); [lra|]. unfold Rdiv. rewrite Rmult_assoc, Rinv_l by lra. replace ((4 - / (2 * IZR m)) * IZR m) with (4 * IZR m - 1 / 2) by (field; lra). lra. }
  destruct (Z.ltb_spec i n); [|destruct (Z.leb_spec i (3 * n))].
  - apply G; [lia|]. assert (IZR j <= 4 * IZR i) by (rewrite <- mult_IZR; apply IZR_le; lia). lra.
  - apply G; [lia|]. assert (IZR j <= 4 * IZR n) by (rewrite <- mult_IZR; apply IZR_le; lia). assert (0 <= IZR ((i - n) mod 2)) by (apply (IZR_le 0); apply Z.mod_pos_bound; lia). lra.
  - apply G; [lia|]. assert (IZR j <= 4 * IZR (4 * n - i)) by (rewrite <- mult_IZR; apply IZR_le; lia). lra.
Qed.
Lemma phic_range n i j : (1 <= n <= 13377)%Z -> on_ring n i j -> 0 <= phic n i j <= 2 * PI - 5 / 10 ^ 5.
Proof.
  intros Hn R. assert (T := tc_range n i j ltac:(lia) R). assert (U := tc_top n i j ltac:(lia) R). assert (NB : 1 <= IZR n <= 13377) by (split; apply IZR_le; lia). destruct pi_bounds. unfold phic.
  assert (/ 26754 <= / (2 * IZR n)) by (apply Rinv_le_contravar; lra). split; nra.
Qed.

(** [fmodulo] subtracts whole turns. *)
Lemma mod_turns phi : fin phi -> exists k, Rabs (toR (fmodulo phi twopi) - (toR phi - IZR k * toR twopi)) <= / 2251799813685248.
Proof.
  intros F. destruct twopi_R as [F2 E2]. rewrite bp50 in E2. assert (P2: 6 < toR twopi < 7) by (rewrite E2; lra).
  destruct (of_int_R 0) as [F0 E0]; [lia|]. unfold fmodulo. destruct (fmod_twopi phi F) as (FM & (k & K) & U0 & U1).
  destruct (fle (of_int 0) phi) eqn:C.
  - destruct (flt phi twopi).
    + exists 0%Z. replace (toR phi - (toR phi - 0 * toR twopi)) with 0 by ring. rewrite Rabs_R0. lra.
    + exists k. rewrite K, Rminus_eq_0, Rabs_R0. lra.
  - apply fle_false in C; [|assumption..]. rewrite E0 in C. specialize (U1 ltac:(lra)).
    assert (B : Rabs (toR (fmod phi twopi) + toR twopi) <= bpow radix2 3) by (rewrite bp3, Rabs_pos_eq; lra).
    destruct (fadd_R (fmod phi twopi) twopi 3 FM F2 ltac:(lia) B) as [FA EA]. assert (D := RN_err _ 3 ltac:(lia) B). change (3 - 54)%Z with (-51)%Z in D. rewrite bp51, <- EA in D.
    destruct (feq (fadd (fmod phi twopi) twopi) twopi) eqn:Q.
    + exists k. apply (proj1 (feq_R _ _ FA F2)) in Q. rewrite Q in D. rewrite E0. rewrite K in D. apply Rabs_le_inv in D. apply Rabs_le. lra.
    + exists (k - 1)%Z. rewrite K in D. rewrite minus_IZR. apply Rabs_le_inv in D. apply Rabs_le. lra.
Qed.
Lemma close_of n i j z phi k : (1 <= n <= 13377)%Z -> on_ring n i j -> fin z -> fin phi -> Rabs (toR z - zc n i) <= 1 / 10 ^ 10 ->
  Rabs (toR phi - (phic n i j + IZR k * (2 * PI))) <= 5 / 10 ^ 7 -> (Z.abs k <= 1000000)%Z -> close_to n i j z phi.
Proof.
  intros Hn R Fz Fp Hz Hp Hk. split; [exact Fz|]. split; [exact Fp|]. split; [exact Hz|].
  destruct (mod_turns phi Fp) as (k' & K). destruct (fmodulo_R phi Fp) as [FU BU]. destruct twopi_near as [_ T]. assert (P := phic_range n i j Hn R). destruct pi_bounds as [PL PU].
  set (u := toR (fmodulo phi twopi)) in *. set (d := toR twopi - 2 * PI) in *. assert (TE : toR twopi = 2 * PI + d) by (unfold d; ring). rewrite TE in *. apply Rabs_le_inv in T. apply Rabs_le_inv in Hp. apply Rabs_le_inv in K.
  assert (HK : -1000000 <= IZR k <= 1000000) by (split; apply IZR_le; lia).
  assert (E : u = phic n i j + IZR (k - k') * (2 * PI + d) + (u - (toR phi - IZR k' * (2 * PI + d))) + (toR phi - (phic n i j + IZR k * (2 * PI))) - IZR k * d) by (rewrite minus_IZR; ring).
  set (e1 := u - (toR phi - IZR k' * (2 * PI + d))) in *. set (e2 := toR phi - (phic n i j + IZR k * (2 * PI))) in *.
  assert (KD : Rabs (IZR k * d) <= 1 / 10 ^ 7). { rewrite Rabs_mult. apply Rle_trans with (1000000 * (1 / 10 ^ 13)); [|lra]. apply Rmult_le_compat; try apply Rabs_pos; apply Rabs_le; lra. } apply Rabs_le_inv in KD.
  assert (C : (k - k' = 0 \/ k - k' = 1)%Z).
  { assert (A : (-1 < k - k' < 2)%Z); [|lia]. split; apply lt_IZR; (destruct (Rlt_dec (-1) (IZR (k - k'))) as [L|L]; [|assert (IZR (k - k') <= -1) by lra]); try (destruct (Rlt_dec (IZR (k - k')) 2) as [L2|L2]; [|assert (2 <= IZR (k - k')) by lra]); try assumption; exfalso; nra. }
  destruct C as [C|C]; rewrite C in E; [exists false|exists true]; apply Rabs_le; lra.
Qed.

(** The integers and the doubles of a centre. *)
Lemma half_place_near j : (0 <= j <= 100000)%Z -> near (fsub (of_int j) (lit 1 2)) (IZR j - 1 / 2) (/ 67108864).
Proof.
  intros Hj. assert (0 <= IZR j <= 100000) by (split; apply IZR_le; lia). assert (X := near_sub _ _ _ _ _ _ 20 (near_int j ltac:(lia)) half_near ltac:(lia)). rewrite bpow_pos in X. change (IZR (2 ^ 20)) with 1048576 in X.
  change (20 - 54)%Z with (-34)%Z in X. replace (bpow radix2 (-34)) with (/ 17179869184) in X by now rewrite bpow_neg. specialize (X ltac:(rewrite !Rabs_pos_eq; lra)). eapply near_weak; [exact X|]. lra.
Qed.
Lemma one_place_near j : (0 <= j <= 100000)%Z -> near (fsub (of_int j) (of_int 1)) (IZR j - 1) (/ 67108864).
Proof.
  intros Hj. assert (0 <= IZR j <= 100000) by (split; apply IZR_le; lia). assert (X := near_sub _ _ _ _ _ _ 20 (near_int j ltac:(lia)) (near_int 1 ltac:(lia)) ltac:(lia)). rewrite bpow_pos in X. change (IZR (2 ^ 20)) with 1048576 in X.
  change (20 - 54)%Z with (-34)%Z in X. replace (bpow radix2 (-34)) with (/ 17179869184) in X by now rewrite bpow_neg. specialize (X ltac:(rewrite !Rabs_pos_eq; lra)). eapply near_weak; [exact X|]. lra.
Qed.
Lemma shift_near ks : (0 <= ks <= 1)%Z -> near (fmul (of_int (ks + 1)) (lit 1 2)) ((IZR ks + 1) / 2) (/ 2251799813685248).
Proof.
  intros K. assert (0 <= IZR ks <= 1) by (split; apply IZR_le; lia). assert (X := near_mul _ _ _ _ _ _ 2 (1 / 2) 3 (near_int (ks + 1) ltac:(lia)) half_near ltac:(lia)). rewrite bp3 in X. change (3 - 54)%Z with (-51)%Z in X. rewrite bp51 in X.
  rewrite plus_IZR in X. specialize (X ltac:(rewrite Rabs_pos_eq; lra) ltac:(rewrite Rabs_pos_eq; lra) ltac:(lra)). replace ((IZR ks + 1) / 2) with ((IZR ks + 1) * (1 / 2)) by field. eapply near_weak; [exact X|lra].
Qed.
Lemma ks_place_near j ks : (0 <= ks <= 1)%Z -> (0 <= j <= 100000)%Z -> near (fsub (of_int j) (fmul (of_int (ks + 1)) (lit 1 2))) (IZR j - (IZR ks + 1) / 2) (/ 67108864).
Proof.
  intros K Hj. assert (0 <= IZR j <= 100000) by (split; apply IZR_le; lia). assert (0 <= IZR ks <= 1) by (split; apply IZR_le; lia). assert (X := near_sub _ _ _ _ _ _ 20 (near_int j ltac:(lia)) (shift_near ks K) ltac:(lia)). rewrite bpow_pos in X. change (IZR (2 ^ 20)) with 1048576 in X.
  change (20 - 54)%Z with (-34)%Z in X. replace (bpow radix2 (-34)) with (/ 17179869184) in X by now rewrite bpow_neg. specialize (X ltac:(rewrite !Rabs_pos_eq; lra)). eapply near_weak; [exact X|]. lra.
Qed.
Lemma north_near n m : (1 <= n <= 13377)%Z -> (1 <= m <= n)%Z -> near (fsub (of_int 1) (fmul (of_int (m * m)) (fdiv (of_int 4) (of_int (12 * n * n))))) (1 - IZR m * IZR m / (3 * (IZR n * IZR n))) (1 / 10 ^ 11).
Proof.
  intros Hn Hm. destruct (cap_gap n m Hm) as [G _]. assert (NB : 1 <= IZR n <= 13377) by (split; apply IZR_le; lia). cbv zeta in G. assert (X := near_sub _ _ _ _ _ _ 3 (near_int 1 ltac:(lia)) (cap_z_near n m Hn Hm) ltac:(lia)). rewrite bp3 in X. change (3 - 54)%Z with (-51)%Z in X. rewrite bp51 in X.
  set (q := IZR m * IZR m / (3 * (IZR n * IZR n))) in *. assert (0 <= / (3 * (IZR n * IZR n))) by (left; apply Rinv_0_lt_compat; nra).
  specialize (X ltac:(rewrite !Rabs_pos_eq; lra)). eapply near_weak; [exact X|lra].
Qed.
Lemma south_near n m : (1 <= n <= 13377)%Z -> (1 <= m <= n)%Z -> near (fadd (of_int (-1)) (fmul (of_int (m * m)) (fdiv (of_int 4) (of_int (12 * n * n))))) (- (1 - IZR m * IZR m / (3 * (IZR n * IZR n)))) (1 / 10 ^ 11)
  /\ near (fsub (fmul (of_int (m * m)) (fdiv (of_int 4) (of_int (12 * n * n)))) (of_int 1)) (- (1 - IZR m * IZR m / (3 * (IZR n * IZR n)))) (1 / 10 ^ 11).
Proof.
  intros Hn Hm. destruct (cap_gap n m Hm) as [G _]. assert (NB : 1 <= IZR n <= 13377) by (split; apply IZR_le; lia). cbv zeta in G. 
  assert (X := near_add _ _ _ _ _ _ 3 (near_int (-1) ltac:(lia)) (cap_z_near n m Hn Hm) ltac:(lia)). assert (Y := near_sub _ _ _ _ _ _ 3 (cap_z_near n m Hn Hm) (near_int 1 ltac:(lia)) ltac:(lia)). rewrite bp3 in X, Y. change (3 - 54)%Z with (-51)%Z in X, Y. rewrite bp51 in X, Y.
  set (q := IZR m * IZR m / (3 * (IZR n * IZR n))) in *. assert (0 <= / (3 * (IZR n * IZR n))) by (left; apply Rinv_0_lt_compat; nra).
  specialize (X ltac:(rewrite Rabs_left, Rabs_pos_eq; lra)). specialize (Y ltac:(rewrite !Rabs_pos_eq; lra)). split.
  - replace (- (1 - q)) with (-1 + q) by ring. eapply near_weak; [exact X|lra].
  - replace (- (1 - q)) with (q - 1) by ring. eapply near_weak; [exact Y|lra].
Qed.
