(** Lemmas on the real reading of <math.h>. *)
From Coq Require Import ZArith Reals Lra Lia Bool Machin.
From Verif Require Import CLib ArithModel.
Open Scope R_scope.

Lemma Rltb_t x y : Rltb x y = true <-> x < y.
Proof. unfold Rltb; destruct (Rlt_dec x y); split; intros; try easy. Qed.
Lemma Rltb_f x y : Rltb x y = false <-> y <= x.
Proof. unfold Rltb; destruct (Rlt_dec x y); split; intros; try easy; lra. Qed.
Lemma Rleb_t x y : Rleb x y = true <-> x <= y.
Proof. unfold Rleb; destruct (Rle_dec x y); split; intros; try easy. Qed.
Lemma Rleb_f x y : Rleb x y = false <-> y < x.
Proof. unfold Rleb; destruct (Rle_dec x y); split; intros; try easy; lra. Qed.
Lemma Reqb_t x y : Reqb x y = true <-> x = y.
Proof. unfold Reqb; destruct (Req_EM_T x y); split; intros; try easy. Qed.
Lemma Reqb_f x y : Reqb x y = false <-> x <> y.
Proof. unfold Reqb; destruct (Req_EM_T x y); split; intros; try easy. Qed.

(** pow. *)
Lemma Rcpow_pos x y : 0 < x -> Rcpow x y = Rpower x y.
Proof. intros H. unfold Rcpow. destruct (Rlt_dec 0 x); [reflexivity | lra]. Qed.
Lemma Rcpow_nat x n : (0 < n)%nat -> Rcpow x (INR n) = x ^ n.
Proof.
  intros H. unfold Rcpow. destruct (Rlt_dec 0 x) as [P|P]; [apply Rpower_pow; exact P|].
  assert (I : Int_part (INR n) = Z.of_nat n).
  { destruct (base_Int_part (INR n)) as [A B]. set (z := Int_part _) in *. rewrite INR_IZR_INZ in A, B.
    assert ((z < Z.of_nat n + 1)%Z) by (apply lt_IZR; rewrite plus_IZR; lra). assert ((Z.of_nat n - 1 < z)%Z) by (apply lt_IZR; rewrite minus_IZR; lra). lia. }
  rewrite I, <- INR_IZR_INZ. destruct (Req_EM_T _ _) as [_|N]; [|congruence]. destruct n; [lia|]. cbn [Z.of_nat powerRZ]. rewrite SuccNat2Pos.id_succ. reflexivity.
Qed.

(** atan2 is the polar angle in (-PI, PI]. *)
Lemma sc2 x : sin x * sin x + cos x * cos x = 1.
Proof. generalize (sin2_cos2 x); unfold Rsqr; lra. Qed.

Lemma cos_atan_pos x : 0 < cos (atan x).
Proof. destruct (atan_bound x). apply cos_gt_0; lra. Qed.

Lemma atan_dir x y : 0 < x -> x = sqrt (x * x + y * y) * cos (atan (y / x)) /\ y = sqrt (x * x + y * y) * sin (atan (y / x)).
Proof.
  intros H. set (t := atan (y / x)).
  assert (C := cos_atan_pos (y / x)). fold t in C.
  assert (T : sin t / cos t = y / x). { change (tan t = y / x). apply tan_atan. }
  assert (S : sin t = y / x * cos t). { rewrite <- T. field. lra. }
  assert (Q := sc2 t). rewrite S in Q.
  assert (N : 0 < x * x + y * y). { assert (0 < x * x) by (apply Rmult_lt_0_compat; lra). assert (0 <= y * y) by apply Rle_0_sqr. lra. }
  assert (K : sqrt (x * x + y * y) = x / cos t).
  { apply sqrt_lem_1; [lra | apply Rlt_le, Rdiv_lt_0_compat; lra |].
    assert (x * x + y * y = x * x / (cos t * cos t)); [|rewrite H0; field; lra].
    replace (x * x) with (x * x * 1) at 2 by ring. rewrite <- Q. field. lra. }
  rewrite K, S. split; field; lra.
Qed.

Lemma Ratan2_polar y x : x * x + y * y <> 0 ->
  x = sqrt (x * x + y * y) * cos (Ratan2 y x) /\ y = sqrt (x * x + y * y) * sin (Ratan2 y x).
Proof.
  intros N. unfold Ratan2. destruct (Rlt_dec 0 x) as [P|P].
  - apply atan_dir; exact P.
  - destruct (Rlt_dec x 0) as [M|M].
    + destruct (atan_dir (- x) (- y)) as [E1 E2]; [lra|].
      replace (- y / - x) with (y / x) in E1, E2 by (field; lra).
      replace (- x * - x + - y * - y) with (x * x + y * y) in E1, E2 by ring.
      destruct (Rle_dec 0 y).
      * rewrite neg_cos, neg_sin. lra.
      * unfold Rminus. rewrite cos_plus, sin_plus, cos_neg, sin_neg, cos_PI, sin_PI. lra.
    + assert (x = 0) by lra. subst x. replace (0 * 0 + y * y) with (y * y) by ring.
      change (y * y) with (Rsqr y). rewrite sqrt_Rsqr_abs. unfold Rabs.
      destruct (Rlt_dec 0 y) as [Q|Q]; destruct (Rcase_abs y); try lra.
      * rewrite cos_PI2, sin_PI2. lra.
      * destruct (Rlt_dec y 0); [|lra]. rewrite cos_neg, sin_neg, cos_PI2, sin_PI2. lra.
      * destruct (Rlt_dec y 0); [lra|]. assert (y = 0) by lra. subst y. exfalso. apply N. ring.
Qed.

Lemma Ratan2_range y x : - PI < Ratan2 y x <= PI.
Proof.
  assert (P := PI_RGT_0). unfold Ratan2.
  destruct (Rlt_dec 0 x). { destruct (atan_bound (y / x)). lra. }
  destruct (Rlt_dec x 0).
  - assert (I : / x < 0) by (apply Rinv_lt_0_compat; lra).
    destruct (atan_bound (y / x)). destruct (Rle_dec 0 y).
    + assert (atan (y / x) <= 0). { rewrite <- atan_0. destruct (Req_dec y 0). { subst. unfold Rdiv. rewrite Rmult_0_l. lra. }
        apply Rlt_le, atan_increasing. unfold Rdiv. assert (0 < y * - / x) by (apply Rmult_lt_0_compat; lra). lra. }
      lra.
    + assert (0 < atan (y / x)). { rewrite <- atan_0. apply atan_increasing. unfold Rdiv.
        assert (0 < - y * - / x) by (apply Rmult_lt_0_compat; lra). lra. }
      lra.
  - destruct (Rlt_dec 0 y); [lra|]. destruct (Rlt_dec y 0); lra.
Qed.

Lemma Ratan2_right y x : 0 <= x -> - PI / 2 <= Ratan2 y x <= PI / 2.
Proof.
  intros H. assert (P := PI_RGT_0). unfold Ratan2.
  destruct (Rlt_dec 0 x). { destruct (atan_bound (y / x)). lra. }
  destruct (Rlt_dec x 0); [lra|]. destruct (Rlt_dec 0 y); [lra|]. destruct (Rlt_dec y 0); lra.
Qed.

(** Two angles in one turn with the same cosine and sine are equal. *)
Lemma angle_unique a b : Rabs (a - b) < 2 * PI -> cos a = cos b -> sin a = sin b -> a = b.
Proof.
  intros H C S.
  assert (D : cos (a - b) = 1). { rewrite cos_minus, C, S. generalize (sc2 b). lra. }
  set (d := a - b) in *. assert (K : cos d = 1 - 2 * sin (d / 2) * sin (d / 2)).
  { replace d with (2 * (d / 2)) at 1 by field. apply cos_2a_sin. }
  assert (Z : sin (d / 2) = 0). { assert (sin (d / 2) * sin (d / 2) = 0) by lra. apply Rmult_integral in H0. tauto. }
  apply Rabs_def2 in H. assert (P := PI_RGT_0).
  destruct (Rtotal_order (d / 2) 0) as [L | [L | L]].
  - assert (0 < sin (- (d / 2))) by (apply sin_gt_0; lra). rewrite sin_neg in H0. lra.
  - unfold d in L. lra.
  - assert (0 < sin (d / 2)) by (apply sin_gt_0; lra). lra.
Qed.

(** 2 asin sqrt((1-c)/2) is the angle in [0, PI] with cosine c. *)
Lemma half_chord c : -1 <= c <= 1 -> 2 * asin (sqrt ((1 - c) / 2)) = acos c.
Proof.
  intros H. set (a := acos c). assert (B : 0 <= a <= PI) by apply acos_bound.
  assert (K : cos a = c) by (apply cos_acos; exact H).
  assert (Q : cos a = 1 - 2 * sin (a / 2) * sin (a / 2)). { replace a with (2 * (a / 2)) at 1 by field. apply cos_2a_sin. }
  assert (P := PI_RGT_0). assert (0 <= sin (a / 2)) by (apply sin_ge_0; lra).
  replace ((1 - c) / 2) with (Rsqr (sin (a / 2))) by (unfold Rsqr; lra).
  rewrite sqrt_Rsqr by assumption. rewrite asin_sin by lra. lra.
Qed.

Lemma pi_bounds : 3.1415926 < PI < 3.1415927.
Proof. assert (H := PI_2_3_7_ineq 5). unfold tg_alt, PI_2_3_7_tg, Ratan_seq in H. cbn [sum_f_R0 mult plus pow INR] in H. lra. Qed.
