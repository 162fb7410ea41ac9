(** Relative errors of double operations, and the doubles of pixel centres with 64-bit pixel numbers. *)
From Coq Require Import ZArith List Bool Reals Lra Lia Psatz.
From Flocq Require Import Core IEEE754.BinarySingleNaN Relative.
From Verif Require Import CLib FloatModel FloatLemmas GeoLemmas CalendarProofs2 CalendarProofs3 CalendarProofs4.
From Verif Require Import HealpixModel HealpixSpec HealpixAngModel HealpixRealModel HealpixFloatModel HealpixAng64Model HealpixProofs1 HealpixProofs3 HealpixProofs4 HealpixProofs5 HealpixProofs6 HealpixProofs7 HealpixProofs8 HealpixProofs9 HealpixProofs10 HealpixProofs11 HealpixProofs12 HealpixProofs13.
Import ListNotations.
Open Scope R_scope.

Definition rel (x : b64) (r e : R) : Prop := fin x /\ Rabs (toR x - r) <= e * Rabs r.
Definition v52 := / 4503599627370496.
Definition big (r : R) : Prop := r = 0 \/ bpow radix2 (-300) <= Rabs r <= bpow radix2 300.
Definition small (e : R) : Prop := 0 <= e <= / 67108864.

Lemma RN_zero : RN 0 = 0. Proof. apply round_0; auto with typeclass_instances. Qed.
Lemma RN_relative x : x = 0 \/ bpow radix2 (-1000) <= Rabs x -> Rabs (RN x - x) <= / 2 * v52 * Rabs x.
Proof.
  intros [-> | H].
  - rewrite RN_zero. rewrite Rminus_eq_0, Rabs_R0. lra.
  - assert (K := relative_error_N_FLT radix2 (-1074) 53 ltac:(lia) (fun n => negb (Z.even n)) x). 
    assert (B : bpow radix2 (-1074 + 53 - 1) <= Rabs x) by (eapply Rle_trans; [|exact H]; apply bpow_le; lia). specialize (K B).
    eapply Rle_trans; [exact K|]. apply Req_le. unfold v52. change (- (53) + 1)%Z with (-52)%Z. rewrite bpow_neg. reflexivity.
Qed.
Lemma bigger r x : big r -> r <> 0 -> / 2 * Rabs r <= Rabs x <= 2 * Rabs r -> bpow radix2 (-1000) <= Rabs x /\ Rabs x <= bpow radix2 400.
Proof.
  intros [H|H] N B; [contradiction|]. assert (bpow radix2 (-1000) <= / 2 * bpow radix2 (-300)).
  { change (/ 2) with (bpow radix2 (-1)). rewrite <- bpow_plus. apply bpow_le. lia. }
  assert (2 * bpow radix2 300 <= bpow radix2 400). { change 2 with (bpow radix2 1). rewrite <- bpow_plus. apply bpow_le. lia. } lra.
Qed.
Lemma rel_weak x r e f : rel x r e -> e <= f -> rel x r f.
Proof. intros [F H] L. split; [exact F|]. eapply Rle_trans; [exact H|]. apply Rmult_le_compat_r; [apply Rabs_pos|exact L]. Qed.
Lemma rel_round x r e : small e -> Rabs (x - r) <= e * Rabs r -> big r -> Rabs x <= bpow radix2 400 /\ Rabs (RN x - r) <= (e + v52) * Rabs r.
Proof.
  intros E H B. unfold small in E. destruct (Req_dec r 0) as [-> | N].
  - rewrite Rabs_R0, Rmult_0_r in *. assert (X : x = 0). { destruct (Req_dec x 0) as [|K]; [assumption|]. exfalso. assert (0 < Rabs (x - 0)) by (apply Rabs_pos_lt; lra). lra. }
    subst x. rewrite Rabs_R0. split; [apply bpow_ge_0|]. rewrite RN_zero. rewrite Rminus_eq_0, Rabs_R0. lra.
  - assert (P := Rabs_pos_lt r N). assert (U : Rabs x <= Rabs r + e * Rabs r). { replace x with (r + (x - r)) by ring. eapply Rle_trans; [apply Rabs_triang|]. lra. }
    assert (L : Rabs r - e * Rabs r <= Rabs x). { assert (K := Rabs_triang_inv r x). rewrite Rabs_minus_sym in K. lra. }
    assert (e * Rabs r <= / 67108864 * Rabs r) by (apply Rmult_le_compat_r; lra).
    destruct (bigger r x B N ltac:(lra)) as [X1 X2]. split; [exact X2|]. assert (D := RN_relative x (or_intror X1)). 
    replace (RN x - r) with ((RN x - x) + (x - r)) by ring. eapply Rle_trans; [apply Rabs_triang|]. unfold v52 in *. lra.
Qed.
Lemma rel_mul x y r s e f : rel x r e -> rel y s f -> small e -> small f -> small (e + f) -> big (r * s) -> rel (fmul x y) (r * s) (e + f + 2 * v52).
Proof.
  intros [Fx Hx] [Fy Hy] E F EF B. unfold small in *. set (dx := toR x - r) in *. set (dy := toR y - s) in *.
  assert (X : toR x = r + dx) by (unfold dx; ring). assert (Y : toR y = s + dy) by (unfold dy; ring).
  assert (H : Rabs (toR x * toR y - r * s) <= (e + f + e * f) * Rabs (r * s)).
  { rewrite X, Y. replace ((r + dx) * (s + dy) - r * s) with (dx * s + (r * dy + dx * dy)) by ring. rewrite Rabs_mult. assert (A := Rabs_pos r). assert (A' := Rabs_pos s).
    eapply Rle_trans; [apply Rabs_triang|]. eapply Rle_trans; [apply Rplus_le_compat_l, Rabs_triang|]. rewrite !Rabs_mult. assert (D := Rabs_pos dx). assert (D' := Rabs_pos dy).
    assert (Rabs dx * Rabs s <= e * Rabs r * Rabs s) by (apply Rmult_le_compat_r; assumption). assert (Rabs r * Rabs dy <= Rabs r * (f * Rabs s)) by (apply Rmult_le_compat_l; assumption).
    assert (Rabs dx * Rabs dy <= e * Rabs r * (f * Rabs s)) by (apply Rmult_le_compat; assumption). lra. }
  assert (Q : e * f <= v52). { unfold v52. replace (/ 4503599627370496) with (/ 67108864 * / 67108864) by lra. apply Rmult_le_compat; lra. }
  assert (Q0 : 0 <= e * f) by (apply Rmult_le_pos; lra).
  assert (S2 : e + f + e * f <= / 67108864 + v52) by lra.
  assert (H' : Rabs (toR x * toR y - r * s) <= (e + f + v52) * Rabs (r * s)) by (eapply Rle_trans; [exact H|]; apply Rmult_le_compat_r; [apply Rabs_pos|lra]).
  assert (K : Rabs (toR x * toR y) <= bpow radix2 400 /\ Rabs (RN (toR x * toR y) - r * s) <= (e + f + v52 + v52) * Rabs (r * s)).
  { destruct (Req_dec (r * s) 0) as [Z|N].
    - rewrite Z in *. rewrite Rabs_R0, !Rmult_0_r in *. assert (W : toR x * toR y = 0). { destruct (Req_dec (toR x * toR y) 0) as [|C]; [assumption|]. exfalso. assert (0 < Rabs (toR x * toR y - 0)) by (apply Rabs_pos_lt; lra). lra. }
      rewrite W, Rabs_R0. split; [apply bpow_ge_0|]. rewrite RN_zero. rewrite Rminus_eq_0, Rabs_R0. lra.
    - assert (P := Rabs_pos_lt _ N). assert (P2 : (e + f + v52) * Rabs (r * s) <= / 4 * Rabs (r * s)) by (apply Rmult_le_compat_r; unfold v52; lra).
      assert (U : Rabs (toR x * toR y) <= Rabs (r * s) + / 4 * Rabs (r * s)). { replace (toR x * toR y) with (r * s + (toR x * toR y - r * s)) by ring. eapply Rle_trans; [apply Rabs_triang|]. lra. }
      assert (L : Rabs (r * s) - / 4 * Rabs (r * s) <= Rabs (toR x * toR y)). { assert (K := Rabs_triang_inv (r * s) (toR x * toR y)). rewrite (Rabs_minus_sym (r * s)) in K. lra. }
      destruct (bigger (r * s) (toR x * toR y) B N ltac:(lra)) as [X1 X2]. split; [exact X2|]. assert (D := RN_relative _ (or_intror X1)).
      replace (RN (toR x * toR y) - r * s) with ((RN (toR x * toR y) - toR x * toR y) + (toR x * toR y - r * s)) by ring. eapply Rle_trans; [apply Rabs_triang|]. unfold v52 in *. lra. }
  destruct K as [K1 K2]. destruct (fmul_R x y 400 Fx Fy ltac:(lia) K1) as [FM EM]. split; [exact FM|]. rewrite EM. eapply Rle_trans; [exact K2|]. apply Req_le. ring.
Qed.
Lemma rel_div x y r s e f : rel x r e -> rel y s f -> small e -> small f -> small (e + f + 4 * v52) -> s <> 0 -> big (r / s) -> rel (fdiv x y) (r / s) (e + f + 5 * v52).
Proof.
  intros [Fx Hx] [Fy Hy] E F EF N B. unfold small in *. set (dx := toR x - r) in *. set (dy := toR y - s) in *.
  assert (X : toR x = r + dx) by (unfold dx; ring). assert (Y : toR y = s + dy) by (unfold dy; ring). assert (PS := Rabs_pos_lt s N).
  assert (FS : f * Rabs s <= / 67108864 * Rabs s) by (apply Rmult_le_compat_r; lra).
  assert (YL : Rabs s - f * Rabs s <= Rabs (toR y)). { assert (K := Rabs_triang_inv s (toR y)). rewrite Rabs_minus_sym in K. fold dy in K. lra. }
  assert (Y0 : toR y <> 0). { intro Z. rewrite Z, Rabs_R0 in YL. lra. }
  assert (PY := Rabs_pos_lt _ Y0).
  assert (H : Rabs (toR x / toR y - r / s) <= (e + f + 4 * v52) * Rabs (r / s)).
  { replace (toR x / toR y - r / s) with ((dx * s - r * dy) / (s * toR y)) by (unfold dx, dy; field; split; assumption).
    unfold Rdiv. rewrite !Rabs_mult, !Rabs_inv, Rabs_mult.
    assert (A : Rabs (dx * s - r * dy) <= (e + f) * (Rabs r * Rabs s)).
    { eapply Rle_trans; [apply Rabs_triang|]. rewrite Rabs_Ropp, !Rabs_mult. assert (Rabs dx * Rabs s <= e * Rabs r * Rabs s) by (apply Rmult_le_compat_r; lra).
      assert (Rabs r * Rabs dy <= Rabs r * (f * Rabs s)) by (apply Rmult_le_compat_l; [apply Rabs_pos|assumption]). lra. }
    assert (I : / Rabs (toR y) <= (1 + 2 * f) * / Rabs s).
    { apply Rmult_le_reg_r with (Rabs (toR y)); [lra|]. rewrite Rinv_l by lra. apply Rle_trans with ((1 + 2 * f) * / Rabs s * (Rabs s - f * Rabs s)).
      - replace ((1 + 2 * f) * / Rabs s * (Rabs s - f * Rabs s)) with ((1 + 2 * f) * (1 - f)) by (field; lra). nra.
      - apply Rmult_le_compat_l; [|exact YL]. apply Rmult_le_pos; [lra|]. left. now apply Rinv_0_lt_compat. }
    assert (R0 := Rabs_pos r). assert (IS : 0 < / Rabs s) by now apply Rinv_0_lt_compat. assert (IY : 0 < / Rabs (toR y)) by now apply Rinv_0_lt_compat.
    rewrite Rinv_mult. replace (Rabs (dx * s - r * dy) * (/ Rabs s * / Rabs (toR y))) with (Rabs (dx * s - r * dy) * / Rabs s * / Rabs (toR y)) by ring.
    apply Rle_trans with ((e + f) * Rabs r * ((1 + 2 * f) * / Rabs s)).
    - apply Rmult_le_compat; [|lra| |exact I]. { apply Rmult_le_pos; [apply Rabs_pos|lra]. } apply Rle_trans with ((e + f) * (Rabs r * Rabs s) * / Rabs s); [apply Rmult_le_compat_r; lra|]. apply Req_le. field. lra.
    - replace ((e + f) * Rabs r * ((1 + 2 * f) * / Rabs s)) with ((e + f + 2 * ((e + f) * f)) * (Rabs r * / Rabs s)) by ring. apply Rmult_le_compat_r; [apply Rmult_le_pos; lra|].
      assert ((e + f) * f <= (/ 67108864) * (/ 67108864)) by (unfold v52 in EF; apply Rmult_le_compat; lra). unfold v52. lra. }
  destruct (rel_round (toR x / toR y) (r / s) _ EF H B) as [K1 K2]. destruct (fdiv_R x y 400 Fx Y0 ltac:(lia) K1) as [FM EM]. split; [exact FM|]. rewrite EM. eapply Rle_trans; [exact K2|]. apply Req_le. ring.
Qed.
Lemma rel_sqrt x r e : rel x r e -> small e -> 0 < r -> big (sqrt r) -> rel (fsqrt x) (sqrt r) (e + v52).
Proof.
  intros [Fx Hx] E P B. unfold small in *. rewrite (Rabs_pos_eq r) in Hx by lra. assert (ER : e * r <= / 67108864 * r) by (apply Rmult_le_compat_r; lra).
  assert (H0 := Hx). apply Rabs_le_inv in H0. assert (X0 : 0 <= toR x) by lra. destruct (fsqrt_R x Fx X0) as [FS ES]. split; [exact FS|]. rewrite ES.
  assert (SR : 0 < sqrt r) by now apply sqrt_lt_R0. assert (SX : 0 <= sqrt (toR x)) by apply sqrt_pos. assert (QR : sqrt r * sqrt r = r) by (apply sqrt_sqrt; lra). assert (QX : sqrt (toR x) * sqrt (toR x) = toR x) by (apply sqrt_sqrt; lra).
  assert (H : Rabs (sqrt (toR x) - sqrt r) <= e * Rabs (sqrt r)).
  { rewrite (Rabs_pos_eq (sqrt r)) by lra. apply Rmult_le_reg_r with (sqrt (toR x) + sqrt r); [lra|]. rewrite <- (Rabs_pos_eq (sqrt (toR x) + sqrt r)) at 1 by lra. rewrite <- Rabs_mult.
    replace ((sqrt (toR x) - sqrt r) * (sqrt (toR x) + sqrt r)) with (sqrt (toR x) * sqrt (toR x) - sqrt r * sqrt r) by ring. rewrite QX, QR. eapply Rle_trans; [exact Hx|].
    replace (e * sqrt r * (sqrt (toR x) + sqrt r)) with (e * (sqrt r * sqrt r) + e * (sqrt r * sqrt (toR x))) by ring. rewrite QR. assert (0 <= e * (sqrt r * sqrt (toR x))); [|lra]. apply Rmult_le_pos; [lra|]. apply Rmult_le_pos; lra. }
  apply rel_round; assumption.
Qed.
Lemma big_range r : / 10 ^ 30 <= Rabs r <= 10 ^ 30 -> big r.
Proof.
  intros H. right. assert (bpow radix2 (-300) <= / 10 ^ 30). { rewrite bpow_neg. apply Rinv_le_contravar; [lra|]. apply Rle_trans with (IZR (10 ^ 30)); [change (IZR (10 ^ 30)) with 1000000000000000000000000000000; lra|]. apply IZR_le. apply Z.leb_le. vm_compute. reflexivity. }
  assert (10 ^ 30 <= bpow radix2 300). { rewrite bpow_pos. apply Rle_trans with (IZR (10 ^ 30)); [change (IZR (10 ^ 30)) with 1000000000000000000000000000000; lra|]. apply IZR_le. apply Z.leb_le. vm_compute. reflexivity. } lra.
Qed.
Lemma big_pos r a b : a <= r <= b -> / 10 ^ 30 <= a -> b <= 10 ^ 30 -> big r.
Proof. intros H A B. apply big_range. rewrite Rabs_pos_eq; [lra|]. assert (0 < / 10 ^ 30) by (apply Rinv_0_lt_compat; lra). lra. Qed.
Lemma rel_int z : (Z.abs z < 2 ^ 63)%Z -> rel (of_int z) (IZR z) v52.
Proof.
  intros H. assert (A : Rabs (IZR z) <= bpow radix2 63) by (rewrite <- abs_IZR, bpow_pos; apply IZR_le; lia). destruct (of_int_RN z 63 ltac:(lia) A) as [F E]. split; [exact F|]. rewrite E.
  assert (B : big (IZR z)).
  { destruct (Z.eq_dec z 0) as [-> | N]; [left; reflexivity|]. apply big_range. rewrite <- abs_IZR. assert (1 <= IZR (Z.abs z) <= IZR (2 ^ 63)) by (split; apply IZR_le; lia). change (IZR (2 ^ 63)) with 9223372036854775808 in *. lra. }
  destruct (rel_round (IZR z) (IZR z) 0) as [_ K]; [unfold small; lra|rewrite Rminus_eq_0, Rabs_R0, Rmult_0_l; lra|exact B|]. eapply Rle_trans; [exact K|]. apply Req_le. ring.
Qed.
Lemma rel_int_exact z : (Z.abs z <= 2 ^ 53)%Z -> rel (of_int z) (IZR z) 0.
Proof. intros H. destruct (near_int z H) as [F K]. split; [exact F|]. rewrite Rmult_0_l. exact K. Qed.
Lemma rel_near x r e a : rel x r e -> 0 <= e -> Rabs r <= a -> near x r (e * a).
Proof. intros [F H] E A. split; [exact F|]. eapply Rle_trans; [exact H|]. apply Rmult_le_compat_l; assumption. Qed.
Lemma near_rel x r e : near x r e -> 1 <= Rabs r -> 0 <= e -> rel x r e.
Proof. intros [F H] A E. split; [exact F|]. eapply Rle_trans; [exact H|]. rewrite <- (Rmult_1_r e) at 1. apply Rmult_le_compat_l; assumption. Qed.
