(** Round trips between pixels and vectors in double arithmetic. *)
From Coq Require Import ZArith List Bool Reals Lra Lia Psatz.
From Flocq Require Import Core IEEE754.BinarySingleNaN.
From Verif Require Import CLib FloatModel FloatLemmas GeoLemmas TleProofs3 PipeProofs5 CalendarProofs2 CalendarProofs3 CalendarProofs4.
From Verif Require Import HealpixModel HealpixSpec HealpixAngModel HealpixRealModel HealpixFloatModel HealpixFloatSpec HealpixAng64Model HealpixAng64Spec HealpixVecModel HealpixVecSpec HealpixProofs1 HealpixProofs2 HealpixProofs3 HealpixProofs4 HealpixProofs5 HealpixProofs6 HealpixProofs7 HealpixProofs8 HealpixProofs9 HealpixProofs10 HealpixProofs11 HealpixProofs12 HealpixProofs13 HealpixProofs14 HealpixProofs15 HealpixProofs16 HealpixProofs17 HealpixProofs18 HealpixProofs19 HealpixProofs20.
Import ListNotations.
Open Scope R_scope.

(** The sine of the colatitude from the height. *)
Lemma sine_of_ok z : fin z -> Rabs (toR z) <= 1 - 1 / 10 ^ 11 -> fin (sine_of z) /\ 1 / 10 ^ 6 <= toR (sine_of z) <= 101 / 100 /\ Rabs (toR (sine_of z) * toR (sine_of z) + toR z * toR z - 1) <= 1 / 10 ^ 14.
Proof.
  intros F H. assert (H' := Rabs_le_inv _ _ H). assert (NZ := near_exact z F). set (t := toR z) in *.
  assert (A := near_sub _ _ _ _ _ _ 1 (near_int 1 ltac:(lia)) NZ ltac:(lia)). change (bpow radix2 1) with 2 in A. specialize (A ltac:(rewrite (Rabs_pos_eq 1) by lra; lra)).
  assert (B := near_add _ _ _ _ _ _ 1 (near_int 1 ltac:(lia)) NZ ltac:(lia)). change (bpow radix2 1) with 2 in B. specialize (B ltac:(rewrite (Rabs_pos_eq 1) by lra; lra)).
  change (1 - 54)%Z with (-53)%Z in A, B. rewrite bp53 in A, B.
  assert (C := near_mul _ _ _ _ _ _ 2 2 3 A B ltac:(lia)). rewrite bp3 in C. change (3 - 54)%Z with (-51)%Z in C. rewrite bp51 in C. specialize (C ltac:(apply Rabs_le; lra) ltac:(apply Rabs_le; lra) ltac:(lra)).
  unfold sine_of. set (g := fmul (fsub (of_int 1) z) (fadd (of_int 1) z)) in *. clearbody g. destruct C as [FG NG]. apply Rabs_le_inv in NG.
  assert (T2 : 1 / 10 ^ 11 <= (1 - t) * (1 + t) <= 1). { split; [|nra]. replace ((1 - t) * (1 + t)) with (1 - Rabs t * Rabs t). { assert (0 <= Rabs t) by apply Rabs_pos. assert (Rabs t * Rabs t <= Rabs t * 1) by (apply Rmult_le_compat_l; lra). lra. } rewrite <- Rabs_mult, (Rabs_pos_eq (t * t)) by apply Rle_0_sqr. ring. }
  assert (G0 : 1 / 10 ^ 12 <= toR g <= 101 / 100) by lra. destruct (fsqrt_R g FG ltac:(lra)) as [FR ER]. split; [exact FR|]. assert (S0 := sqrt_pos (toR g)). assert (SS := sqrt_sqrt (toR g) ltac:(lra)). set (r := sqrt (toR g)) in *.
  assert (R6 : 1 / 10 ^ 6 <= r) by (destruct (Rle_lt_dec (1 / 10 ^ 6) r) as [|W]; [assumption|exfalso; assert (r * r <= r * (1 / 10 ^ 6)) by (apply Rmult_le_compat_l; lra); lra]).
  assert (R1 : r <= 1005 / 1000) by (destruct (Rle_lt_dec r (1005 / 1000)) as [|W]; [assumption|exfalso; assert (1005 / 1000 * (1005 / 1000) <= r * r) by (apply Rmult_le_compat; lra); lra]).
  assert (X : Rabs r <= bpow radix2 1) by (change (bpow radix2 1) with 2; rewrite Rabs_pos_eq; lra).
  assert (E := RN_err r 1 ltac:(lia) X). change (1 - 54)%Z with (-53)%Z in E. rewrite bp53 in E. rewrite ER. set (v := RN r) in *. apply Rabs_le_inv in E.
  assert (LO : 1 / 10 ^ 6 <= v). { assert (Q : 3 / 10 ^ 6 <= r); [|lra]. destruct (Rle_lt_dec (3 / 10 ^ 6) r) as [|W2]; [assumption|exfalso]. assert (r * r <= 9 / 10 ^ 12) by (apply Rle_trans with (3 / 10 ^ 6 * (3 / 10 ^ 6)); [apply Rmult_le_compat; lra|lra]). lra. }
  split; [lra|]. replace (v * v + t * t - 1) with ((v - r) * (v + r) + (toR g - (1 - t) * (1 + t))) by (rewrite <- SS; ring).
  assert (K := small_prod (v - r) (v + r) _ 3 E ltac:(lra)). apply Rabs_le. lra.
Qed.

(** A vector made of height, sine and longitude. *)
Lemma made (f : b64 -> b64) (g : R -> R) s phi : (forall x, fin x -> Rabs (toR x) <= 7 -> fin (f x) /\ Rabs (toR (f x) - g (toR x)) <= 1 / 10 ^ 12) -> (forall t, -1 <= g t <= 1) -> fin s -> fin phi -> 1 / 10 ^ 10 <= toR s <= 11 / 10 -> Rabs (toR phi) <= 7 ->
  exists e, fin (fmul s (f phi)) /\ toR (fmul s (f phi)) = 1 * (toR s * (g (toR phi) + e)) /\ Rabs e <= 102 / 10 ^ 14.
Proof.
  intros GF GB Fs Fp Hs Hp. destruct (GF phi Fp Hp) as [F D]. assert (B := GB (toR phi)). apply Rabs_le_inv in D. set (c := toR (f phi)) in *. assert (CB : Rabs c <= 101 / 100) by (apply Rabs_le; lra). assert (CB' := Rabs_le_inv _ _ CB).
  assert (SC : Rabs (toR s * c) <= 112 / 100) by (rewrite Rabs_mult, (Rabs_pos_eq (toR s)) by lra; assert (toR s * Rabs c <= 11 / 10 * (101 / 100)) by (apply Rmult_le_compat; try apply Rabs_pos; lra); lra).
  destruct (fmul_R s (f phi) 1 Fs F ltac:(lia)) as [FX EX]; [change (bpow radix2 1) with 2; fold c; lra|]. fold c in EX.
  exists (toR (fmul s (f phi)) / toR s - g (toR phi)). split; [exact FX|]. split; [field; lra|].
  assert (R1 := RN_any (toR s * c)). rewrite <- EX in R1. set (x := toR (fmul s (f phi))) in *. assert (T : bpow radix2 (-1000) <= 1 / 10 ^ 14 * toR s).
  { apply Rle_trans with (bpow radix2 (-120)); [apply bpow_le; lia|]. rewrite bpow_neg. change (IZR (2 ^ 120)) with 1329227995784915872903807060280344576. lra. }
  assert (Q : Rabs (x / toR s - c) <= 11 / 10 ^ 15).
  { apply Rmult_le_reg_l with (toR s); [lra|]. rewrite <- (Rabs_pos_eq (toR s)) at 1 by lra. rewrite <- Rabs_mult. replace (toR s * (x / toR s - c)) with (x - toR s * c) by (field; lra). eapply Rle_trans; [exact R1|].
    rewrite Rabs_mult, (Rabs_pos_eq (toR s)) by lra. assert (toR s * Rabs c <= toR s * (101 / 100)) by (apply Rmult_le_compat_l; lra). unfold v52. lra. }
  apply Rabs_le_inv in Q. apply Rabs_le. lra.
Qed.

(** Longitudes only up to turns. *)
Lemma vec_ok fc fs ft z s phi : good_cos_turn fc -> good_sin_turn fs -> good_angle ft -> fin z -> fin s -> fin phi -> 1 / 10 ^ 10 <= toR s <= 11 / 10 -> Rabs (toR z) <= 11 / 10 -> Rabs (toR phi) <= 7 ->
  Rabs (toR s * toR s + toR z * toR z - 1) <= 41 / 10 ^ 14 -> let '(x, y, z') := make_vec fc fs z s phi in
  near (fdiv z' (vec_length x y z')) (toR z) (26 / 10 ^ 13) /\ (toR s <= 1 / 5 -> near (fdiv (fsqrt (axis_square x y)) (vec_length x y z')) (toR s) (2 / 10 ^ 12))
  /\ fin (ft y x) /\ exists k, (Z.abs k <= 3)%Z /\ Rabs (toR (ft y x) - (toR phi + IZR k * (2 * PI))) <= 4 / 10 ^ 12.
Proof.
  intros GC GS GA Fz Fs Fp Hs Hz Hp Hu. unfold make_vec. destruct (made fc cos s phi GC COS_bound Fs Fp Hs Hp) as (e1 & F1 & E1 & B1). destruct (made fs sin s phi GS SIN_bound Fs Fp Hs Hp) as (e2 & F2 & E2 & B2).
  assert (HL : bpow radix2 (-300) <= 1 <= bpow radix2 300) by (change 1 with (bpow radix2 0); split; apply bpow_le; lia). assert (Ez : toR z = 1 * toR z) by ring.
  set (x := fmul s (fc phi)) in *. set (y := fmul s (fs phi)) in *.
  split; [exact (height_back 1 (toR s) (toR z) (toR phi) e1 e2 x y z F1 F2 Fz HL E1 E2 Ez B1 B2 Hs Hz Hu)|]. split; [exact (sine_back 1 (toR s) (toR z) (toR phi) e1 e2 x y z F1 F2 Fz HL E1 E2 Ez B1 B2 Hs Hz Hu)|].
  apply (longitude_back 1 (toR s) (toR phi) e1 e2 x y F1 F2 HL E1 E2 B1 B2 Hs ft GA). lra.
Qed.
