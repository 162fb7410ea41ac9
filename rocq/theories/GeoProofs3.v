(** Precession, right ascension differences, position angles. *)
From Coq Require Import ZArith Reals Lra Lia Bool Psatz.
From Verif Require Import CLib ArithModel GeoModel GeoSpec GeoLemmas GeoProofs1 GeoProofs2.
Open Scope R_scope.

(** *** Precession to J2000 *)
Definition prec_m (t : R) : R := (307496 / 100000 + 186 / 100000 * t / 2) * (PI / 180) / 240.
Definition prec_n (t : R) : R := (133621 / 100000 - 57 / 100000 * t / 2) * (PI / 180) / 240.

Lemma j2000_eq jd ra dec : 
  let t := centuries jd in
  let raw := ra - t * (prec_m t + prec_n t * sin ra * tan dec) * 100 in
  epoch_of_date_to_j2000 ideal jd ra dec =
    (if Rltb raw 0 then raw + 2 * PI else if Rleb (2 * PI) raw then raw - 2 * PI else raw, dec - t * (prec_n t * cos ra) * 100).
Proof. cbv zeta. unfold epoch_of_date_to_j2000, prec_m, prec_n, centuries. ideal_. lits. reflexivity. Qed.

Lemma j2000_identity ra dec : 0 <= ra < 2 * PI -> epoch_of_date_to_j2000 ideal 2451545 ra dec = (ra, dec).
Proof.
  intros H. rewrite j2000_eq. replace (centuries 2451545) with 0 by (unfold centuries; field). rewrite !Rmult_0_l, !Rminus_0_r.
  replace (Rltb ra 0) with false by (symmetry; apply Rltb_f; lra). replace (Rleb (2 * PI) ra) with false by (symmetry; apply Rleb_f; lra).
  reflexivity.
Qed.

Lemma pi_lower : 3 < PI.
Proof. generalize pi_bounds. lra. Qed.

Lemma tan_small y : 0 < y < 1 -> tan y <= y / (1 - y * y / 2).
Proof.
  intros H. assert (P := pi_lower).
  assert (S1 : sin y < y) by (apply sin_lt_x; lra). assert (S0 : 0 < sin y) by (apply sin_gt_0; lra).
  assert (SH : sin (y / 2) < y / 2) by (apply sin_lt_x; lra). assert (SH0 : 0 < sin (y / 2)) by (apply sin_gt_0; lra).
  assert (C : 1 - y * y / 2 < cos y). { assert (Q := hav y). nra. }
  assert (D : 0 < 1 - y * y / 2) by nra. unfold tan, Rdiv.
  apply Rmult_le_compat; try lra. { apply Rlt_le, Rinv_0_lt_compat. lra. } apply Rinv_le_contravar; lra.
Qed.

Lemma tan_minus_pi2 y : 0 < y < PI / 2 -> tan (PI / 2 - y) = / tan y.
Proof.
  intros H. assert (0 < sin y) by (apply sin_gt_0; lra). assert (0 < cos y) by (apply cos_gt_0; lra).
  unfold tan. rewrite sin_shift, cos_shift. field. lra.
Qed.

Lemma dec_margin dec : - (PI / 2) < dec < PI / 2 -> Rabs (tan dec) <= 100 -> Rabs dec <= PI / 2 - 975 / 100000.
Proof.
  intros H T. assert (P := pi_lower).
  assert (K : forall d, 0 <= d < PI / 2 -> tan d <= 100 -> d <= PI / 2 - 975 / 100000).
  { intros d D TD. destruct (Rle_dec d (PI / 2 - 975 / 100000)) as [L|L]; [exact L|]. exfalso. apply Rnot_le_lt in L.
    assert (I : tan (PI / 2 - 975 / 100000) < tan d) by (apply tan_increasing; lra).
    rewrite tan_minus_pi2 in I by lra. assert (Q : tan (975 / 100000) <= 975 / 100000 / (1 - 975 / 100000 * (975 / 100000) / 2)) by (apply tan_small; lra).
    assert (0 < tan (975 / 100000)) by (apply tan_gt_0; lra).
    assert (100 < / tan (975 / 100000)). { rewrite <- (Rinv_inv 100). apply Rinv_lt_contravar; [nra|]. lra. }
    lra. }
  unfold Rabs in *. destruct (Rcase_abs dec) as [N|N].
  - apply K; [lra|]. rewrite tan_neg. destruct (Rcase_abs (tan dec)); lra.
  - apply K; [lra|]. destruct (Rcase_abs (tan dec)); lra.
Qed.

Lemma j2000_in_range jd ra dec ra' dec' : Rabs (centuries jd) <= 1 -> 0 <= ra < 2 * PI -> - (PI / 2) < dec < PI / 2 -> Rabs (tan dec) <= 100 ->
  epoch_of_date_to_j2000 ideal jd ra dec = (ra', dec') ->
  0 <= ra' < 2 * PI /\ - (PI / 2) < dec' < PI / 2.
Proof.
  intros T R D TD. rewrite j2000_eq. set (t := centuries jd) in *. intros E.
  assert (E1 := f_equal fst E). assert (E2 := f_equal snd E). cbn [fst snd] in E1, E2. clear E.
  assert (P := pi_lower). assert (P4 := PI_4).
  assert (M := dec_margin dec D TD).
  assert (TT : -1 <= t <= 1) by (unfold Rabs in T; destruct (Rcase_abs t); lra).
  assert (MM : 0 < prec_m t < 0.0003). { unfold prec_m. split.
    - assert (0 < (307496 / 100000 + 186 / 100000 * t / 2) * (PI / 180)) by (apply Rmult_lt_0_compat; lra). lra.
    - assert ((307496 / 100000 + 186 / 100000 * t / 2) <= 3.08) by lra.
      assert ((307496 / 100000 + 186 / 100000 * t / 2) * (PI / 180) <= 3.08 * (4 / 180)) by (apply Rmult_le_compat; lra). lra. }
  assert (NB : 0 < prec_n t < 0.0000972). { unfold prec_n.
    assert (PU := pi_bounds).
    assert (1.3 < (133621 / 100000 - 57 / 100000 * t / 2) <= 1.3365) by lra. 
    split.
    - assert (0 < (133621 / 100000 - 57 / 100000 * t / 2) * (PI / 180)) by (apply Rmult_lt_0_compat; lra). lra.
    - assert ((133621 / 100000 - 57 / 100000 * t / 2) * (PI / 180) <= 1.3365 * (3.1416 / 180)) by (apply Rmult_le_compat; lra). lra. }
  set (m := prec_m t) in *. set (n := prec_n t) in *.
  assert (SB := SIN_bound ra). assert (CB := COS_bound ra).
  assert (X : Rabs (sin ra * tan dec) <= 100).
  { rewrite Rabs_mult. assert (Rabs (sin ra) <= 1) by (unfold Rabs; destruct (Rcase_abs (sin ra)); lra).
    assert (0 <= Rabs (sin ra)) by apply Rabs_pos. assert (0 <= Rabs (tan dec)) by apply Rabs_pos. nra. }
  assert (XB : -100 <= sin ra * tan dec <= 100) by (unfold Rabs in X; destruct (Rcase_abs (sin ra * tan dec)); lra).
  set (x := sin ra * tan dec) in *. replace (n * sin ra * tan dec) with (n * x) in E1 by (unfold x; ring).
  assert (W : -0.01002 < m + n * x < 0.01002) by nra. set (w := m + n * x) in *.
  assert (V : -0.01002 <= t * w <= 0.01002) by nra. set (v := t * w) in *.
  assert (U : -0.0000972 <= t * (n * cos ra) <= 0.0000972). { assert (-0.0000972 <= n * cos ra <= 0.0000972) by nra. nra. }
  split.
  - destruct (Rltb (ra - v * 100) 0) eqn:A1; [apply Rltb_t in A1; lra|]. apply Rltb_f in A1.
    destruct (Rleb (2 * PI) (ra - v * 100)) eqn:A2; [apply Rleb_t in A2 | apply Rleb_f in A2]; lra.
  - unfold Rabs in M. destruct (Rcase_abs dec); lra.
Qed.
