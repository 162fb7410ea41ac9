(** Separation, polar angle, topocentric place, the Sun. *)
From Coq Require Import ZArith Reals Lra Lia Bool Psatz.
From Verif Require Import CLib ArithModel GeoModel GeoSpec GeoLemmas.
Open Scope R_scope.

Ltac ideal_ := unfold vx, vy, vz, int in *; cbn [num add sub mul div opp ltn len eqn cst c_pi c_2pi c_deg c_rad c_hrs c_sqrt c_fabs
  c_fmod c_sin c_cos c_tan c_asin c_atan c_atan2 c_pow ideal fst snd] in *.
Ltac ideal1 := ideal_; unfold Rdiv in *; rewrite ?Rinv_1, ?Rmult_1_r in *; change (fun r1 r2 : R => r1 * / r2) with Rdiv in *.

Lemma cos_2pi_minus x : cos (2 * PI - x) = cos x.
Proof. unfold Rminus. rewrite cos_plus, cos_neg, sin_neg, cos_2PI, sin_2PI. ring. Qed.

Lemma cos_plus_2pi x : cos (x + 2 * PI) = cos x.
Proof. rewrite cos_plus, cos_2PI, sin_2PI. ring. Qed.
Lemma sin_plus_2pi x : sin (x + 2 * PI) = sin x.
Proof. rewrite sin_plus, cos_2PI, sin_2PI. ring. Qed.
Lemma cos_minus_2pi x : cos (x - 2 * PI) = cos x.
Proof. rewrite cos_minus, cos_2PI, sin_2PI. ring. Qed.
Lemma sin_minus_2pi x : sin (x - 2 * PI) = sin x.
Proof. rewrite sin_minus, cos_2PI, sin_2PI. ring. Qed.
Lemma cos_Rabs x : cos (Rabs x) = cos x.
Proof. unfold Rabs. destruct (Rcase_abs x); [apply cos_neg | reflexivity]. Qed.

Lemma hav x : sin (x / 2) * sin (x / 2) = (1 - cos x) / 2.
Proof. assert (cos x = 1 - 2 * sin (x / 2) * sin (x / 2)). { replace x with (2 * (x / 2)) at 1 by field. apply cos_2a_sin. } lra. Qed.

Lemma dot_dir a1 d1 a2 d2 : dot (dir a1 d1) (dir a2 d2) = sin d1 * sin d2 + cos d1 * cos d2 * cos (a2 - a1).
Proof. unfold dot, dir. rewrite cos_minus. ring. Qed.

Lemma dot_dir_bound a1 d1 a2 d2 : -1 <= dot (dir a1 d1) (dir a2 d2) <= 1.
Proof.
  assert (H : forall u1 u2 u3 v1 v2 v3 : R, u1*u1+u2*u2+u3*u3 = 1 -> v1*v1+v2*v2+v3*v3 = 1 -> -1 <= u1*v1+u2*v2+u3*v3 <= 1).
  { intros. assert (0 <= (u1-v1)*(u1-v1)) by apply Rle_0_sqr. assert (0 <= (u2-v2)*(u2-v2)) by apply Rle_0_sqr.
    assert (0 <= (u3-v3)*(u3-v3)) by apply Rle_0_sqr. assert (0 <= (u1+v1)*(u1+v1)) by apply Rle_0_sqr.
    assert (0 <= (u2+v2)*(u2+v2)) by apply Rle_0_sqr. assert (0 <= (u3+v3)*(u3+v3)) by apply Rle_0_sqr. lra. }
  assert (K : forall a d, cos d * cos a * (cos d * cos a) + cos d * sin a * (cos d * sin a) + sin d * sin d = 1).
  { intros. replace (cos d * cos a * (cos d * cos a) + cos d * sin a * (cos d * sin a)) with
      (cos d * cos d * (sin a * sin a + cos a * cos a)) by ring. rewrite sc2. generalize (sc2 d). lra. }
  unfold dot, dir. apply H; apply K.
Qed.

Lemma skysep_acos t1 p1 t2 p2 : skysep_h ideal t1 p1 t2 p2 = degrees (acos (dot (dir t1 p1) (dir t2 p2))).
Proof.
  unfold skysep_h, degrees. ideal_. rewrite <- half_chord by apply dot_dir_bound.
  replace (2 / 1) with 2 by field. replace (0 / 1) with 0 by field.
  set (u1 := if Rltb t1 0 then t1 + 2 * PI else t1). set (u2 := if Rltb t2 0 then t2 + 2 * PI else t2).
  set (d := Rabs (u2 - u1)). set (r := if Rltb PI d then 2 * PI - d else d).
  assert (C : cos r = cos (t2 - t1)).
  { assert (cos r = cos (u2 - u1)). { unfold r. destruct (Rltb PI d); [rewrite cos_2pi_minus|]; apply cos_Rabs. }
    rewrite H. rewrite !cos_minus. unfold u1, u2. destruct (Rltb t1 0), (Rltb t2 0); rewrite ?cos_plus_2pi, ?sin_plus_2pi; reflexivity. }
  rewrite hav, hav, C, dot_dir. do 4 f_equal. rewrite cos_minus. field.
Qed.

Lemma skysep_angle t1 p1 t2 p2 :
  exists a, angle_between (dir t1 p1) (dir t2 p2) a /\ skysep_h ideal t1 p1 t2 p2 = degrees a.
Proof.
  exists (acos (dot (dir t1 p1) (dir t2 p2))). split; [|apply skysep_acos]. split; [apply acos_bound|].
  apply cos_acos, dot_dir_bound.
Qed.

Lemma degrees_pi : degrees PI = 180.
Proof. unfold degrees. assert (P := PI_RGT_0). field. lra. Qed.

Lemma skysep_range t1 p1 t2 p2 : 0 <= skysep_h ideal t1 p1 t2 p2 <= 180.
Proof.
  rewrite skysep_acos. destruct (acos_bound (dot (dir t1 p1) (dir t2 p2))). assert (P := PI_RGT_0).
  rewrite <- degrees_pi. unfold degrees. assert (0 < 180 / PI) by (apply Rdiv_lt_0_compat; lra). split; [|apply Rmult_le_compat_r; lra].
  apply Rmult_le_pos; lra.
Qed.

Lemma skysep_sym t1 p1 t2 p2 : skysep_h ideal t1 p1 t2 p2 = skysep_h ideal t2 p2 t1 p1.
Proof. rewrite !skysep_acos. do 2 f_equal. unfold dot, dir. ring. Qed.

Lemma skysep_zero t1 p1 t2 p2 : skysep_h ideal t1 p1 t2 p2 = 0 <-> dir t1 p1 = dir t2 p2.
Proof.
  rewrite skysep_acos. assert (P := PI_RGT_0). assert (K : 0 < 180 / PI) by (apply Rdiv_lt_0_compat; lra).
  set (c := dot (dir t1 p1) (dir t2 p2)). split.
  - intros H. unfold degrees in H. apply Rmult_integral in H. destruct H as [H|H]; [|lra].
    assert (c = 1). { rewrite <- (cos_acos c) by apply dot_dir_bound. rewrite H. apply cos_0. }
    unfold c, dot, dir in *.
    assert (E : forall a d, cos d * cos a * (cos d * cos a) + cos d * sin a * (cos d * sin a) + sin d * sin d = 1).
    { intros. replace (cos d * cos a * (cos d * cos a) + cos d * sin a * (cos d * sin a)) with
        (cos d * cos d * (sin a * sin a + cos a * cos a)) by ring. rewrite sc2. generalize (sc2 d). lra. }
    generalize (E t1 p1) (E t2 p2).
    set (u1 := cos p1 * cos t1) in *. set (u2 := cos p1 * sin t1) in *. set (u3 := sin p1) in *.
    set (v1 := cos p2 * cos t2) in *. set (v2 := cos p2 * sin t2) in *. set (v3 := sin p2) in *.
    intros E1 E2.
    assert (Q : (u1-v1)*(u1-v1) + (u2-v2)*(u2-v2) + (u3-v3)*(u3-v3) = 0) by lra.
    assert (0 <= (u1-v1)*(u1-v1)) by apply Rle_0_sqr. assert (0 <= (u2-v2)*(u2-v2)) by apply Rle_0_sqr.
    assert (0 <= (u3-v3)*(u3-v3)) by apply Rle_0_sqr.
    assert (Z : forall x, x * x = 0 -> x = 0) by (intros x E0; apply Rmult_integral in E0; tauto).
    assert (u1 - v1 = 0) by (apply Z; lra). assert (u2 - v2 = 0) by (apply Z; lra). assert (u3 - v3 = 0) by (apply Z; lra).
    f_equal; [f_equal|]; lra.
  - intros E. assert (c = 1). { unfold c. rewrite E. unfold dot, dir.
      replace (cos p2 * cos t2 * (cos p2 * cos t2) + cos p2 * sin t2 * (cos p2 * sin t2)) with
        (cos p2 * cos p2 * (sin t2 * sin t2 + cos t2 * cos t2)) by ring. rewrite sc2. generalize (sc2 p2). lra. }
    rewrite H. rewrite acos_1. unfold degrees. apply Rmult_0_l.
Qed.

(** *** atan_circ *)
Lemma atan_circ_polar x y : polar_angle x y (atan_circ ideal x y).
Proof.
  assert (P := PI_RGT_0). unfold polar_angle, atan_circ. ideal_. replace (0 / 1) with 0 by field. replace (2 / 1) with 2 by field. replace (3 / 1) with 3 by field.
  destruct (Reqb x 0) eqn:X.
  - apply Reqb_t in X. subst x. replace (0 * 0 + y * y) with (Rsqr y) by (unfold Rsqr; ring). rewrite sqrt_Rsqr_abs.
    replace (Rltb 0 0) with false by (symmetry; apply Rltb_f; lra).
    destruct (Rltb 0 y) eqn:Y.
    + apply Rltb_t in Y. replace (Rltb (PI / 2) 0) with false by (symmetry; apply Rltb_f; lra).
      rewrite cos_PI2, sin_PI2, Rabs_right by lra. lra.
    + apply Rltb_f in Y. destruct (Rltb y 0) eqn:Y2.
      * apply Rltb_t in Y2. replace (Rltb (3 * (PI / 2)) 0) with false by (symmetry; apply Rltb_f; lra).
        rewrite cos_3PI2, sin_3PI2, Rabs_left by lra. lra.
      * apply Rltb_f in Y2. replace (Rltb 0 0) with false by (symmetry; apply Rltb_f; lra). replace y with 0 by lra.
        rewrite Rabs_R0, sin_0. lra.
  - apply Reqb_f in X. destruct (atan_bound (y / x)) as [L U].
    destruct (Rltb x 0) eqn:N.
    + apply Rltb_t in N. destruct (atan_dir (- x) (- y)) as [E1 E2]; [lra|].
      replace (- y / - x) with (y / x) in E1, E2 by (field; lra).
      replace (- x * - x + - y * - y) with (x * x + y * y) in E1, E2 by ring.
      replace (Rltb (atan (y / x) + PI) 0) with false by (symmetry; apply Rltb_f; lra).
      rewrite neg_cos, neg_sin. lra.
    + apply Rltb_f in N. destruct (atan_dir x y) as [E1 E2]; [lra|].
      destruct (Rltb (atan (y / x)) 0) eqn:T.
      * apply Rltb_t in T. rewrite cos_plus_2pi, sin_plus_2pi. lra.
      * apply Rltb_f in T. lra.
Qed.

Lemma atan_circ_origin : atan_circ ideal 0 0 = 0.
Proof.
  unfold atan_circ. ideal_. replace (0 / 1) with 0 by field.
  replace (Reqb 0 0) with true by (symmetry; apply Reqb_t; reflexivity).
  replace (Rltb 0 0) with false by (symmetry; apply Rltb_f; lra). cbv iota. replace (Rltb 0 0) with false by (symmetry; apply Rltb_f; lra). reflexivity.
Qed.

Lemma sqrt_sqr_le a b : 0 <= b -> a * a <= b * b -> sqrt (a * a) <= b.
Proof. intros. rewrite <- (sqrt_square b) by assumption. apply sqrt_le_1_alt. assumption. Qed.

(** *** Topocentric place *)
Lemma direction_of x y z ra : 0 < x * x + y * y + z * z ->
  x = sqrt (x * x + y * y) * cos ra -> y = sqrt (x * x + y * y) * sin ra ->
  let d := sqrt (x * x + y * y + z * z) in
  - (PI / 2) <= asin (z / d) <= PI / 2 /\ scale d (dir ra (asin (z / d))) = (x, y, z).
Proof.
  intros N X Y d. assert (D : 0 < d) by (apply sqrt_lt_R0; exact N).
  assert (DD : d * d = x * x + y * y + z * z) by (apply sqrt_sqrt; lra).
  assert (B : -1 <= z / d <= 1).
  { assert (z * z <= d * d). { assert (0 <= x * x) by apply Rle_0_sqr. assert (0 <= y * y) by apply Rle_0_sqr. lra. }
    assert (Rabs z <= d). { rewrite <- (Rabs_right d) by lra. apply Rsqr_le_abs_0. exact H. }
    assert (Rabs (z / d) <= 1). { unfold Rdiv. rewrite Rabs_mult. rewrite Rabs_inv. rewrite (Rabs_right d) by lra.
      apply (Rmult_le_reg_r d); [lra|]. rewrite Rmult_assoc, Rinv_l by lra. lra. }
    apply Rcomplements_abs in H1 || (unfold Rabs in H1; destruct (Rcase_abs (z / d)); lra). }
  split; [apply asin_bound|].
  unfold scale, dir. rewrite sin_asin by exact B. rewrite cos_asin by exact B.
  assert (C : d * sqrt (1 - (z / d)²) = sqrt (x * x + y * y)).
  { rewrite <- (sqrt_square d) at 1 by lra. rewrite <- sqrt_mult_alt by nra. f_equal. unfold Rsqr. rewrite Rmult_minus_distr_l.
    replace (d * d * (z / d * (z / d))) with (z * z) by (field; lra). lra. }
  f_equal; [f_equal|].
  - rewrite <- Rmult_assoc, C. lra.
  - rewrite <- Rmult_assoc, C. lra.
  - field. lra.
Qed.

Lemma polar_from_atan2 x y : x * x + y * y <> 0 ->
  let ra := Ratan2 y x in
  let ra := if Rltb ra 0 then ra + 2 * PI else ra in
  0 <= ra < 2 * PI /\ x = sqrt (x * x + y * y) * cos ra /\ y = sqrt (x * x + y * y) * sin ra.
Proof.
  intros N. cbv zeta. destruct (Ratan2_polar y x N) as [E1 E2]. destruct (Ratan2_range y x) as [L U]. assert (P := PI_RGT_0).
  destruct (Rltb (Ratan2 y x) 0) eqn:T.
  - apply Rltb_t in T. rewrite cos_plus_2pi, sin_plus_2pi. repeat split; try assumption; lra.
  - apply Rltb_f in T. repeat split; try assumption; lra.
Qed.

Lemma Ratan2_0_0 : Ratan2 0 0 = 0.
Proof. unfold Ratan2. destruct (Rlt_dec 0 0); [lra|]. reflexivity. Qed.

Lemma topocentric (obs sat : rvec) ra dec delta : minus sat obs <> (0, 0, 0) ->
  get_satellite_ra_dec_delta ideal obs sat = (ra, dec, delta) ->
  0 <= ra < 2 * PI /\ - (PI / 2) <= dec <= PI / 2 /\ 0 < delta /\ scale delta (dir ra dec) = minus sat obs.
Proof.
  destruct obs as [[o0 o1] o2], sat as [[s0 s1] s2]. unfold minus. intros N. unfold get_satellite_ra_dec_delta. ideal_.
  replace (0 / 1) with 0 by field. rewrite Rplus_0_l.
  set (x := s0 - o0) in *. set (y := s1 - o1) in *. set (z := s2 - o2) in *. intros E.
  assert (E1 := f_equal (fun w => fst (fst w)) E). assert (E2 := f_equal (fun w => snd (fst w)) E). assert (E3 := f_equal snd E).
  cbn [fst snd] in E1, E2, E3. clear E.
  assert (SX : 0 <= x * x) by apply Rle_0_sqr. assert (SY : 0 <= y * y) by apply Rle_0_sqr. assert (SZ : 0 <= z * z) by apply Rle_0_sqr.
  assert (Z : forall t, t * t = 0 -> t = 0) by (intros t E0; apply Rmult_integral in E0; tauto).
  assert (PP : 0 < x * x + y * y + z * z).
  { destruct (Rle_lt_or_eq_dec 0 (x * x + y * y + z * z)); [lra | assumption |].
    exfalso. apply N. rewrite (Z x), (Z y), (Z z) by lra. reflexivity. }
  assert (P := PI_RGT_0).
  assert (Q : 0 <= ra < 2 * PI /\ x = sqrt (x * x + y * y) * cos ra /\ y = sqrt (x * x + y * y) * sin ra).
  { destruct (Req_dec (x * x + y * y) 0) as [O|O].
    - assert (X0 : x = 0) by (apply Z; lra). assert (Y0 : y = 0) by (apply Z; lra). rewrite O, sqrt_0.
      rewrite X0, Y0, Ratan2_0_0 in E1. replace (Rltb 0 0) with false in E1 by (symmetry; apply Rltb_f; lra). rewrite X0, Y0. lra.
    - subst ra. apply polar_from_atan2. exact O. }
  destruct Q as [R1 [X Y]]. destruct (direction_of x y z ra PP X Y) as [B V].
  subst dec delta. repeat split; try apply B; try lra; try (apply sqrt_lt_R0; exact PP). exact V.
Qed.

(** *** The Sun *)
Lemma dir_unit ra dec : dot (dir ra dec) (dir ra dec) = 1.
Proof.
  unfold dot, dir. replace (cos dec * cos ra * (cos dec * cos ra) + cos dec * sin ra * (cos dec * sin ra)) with
    (cos dec * cos dec * (sin ra * sin ra + cos ra * cos ra)) by ring. rewrite sc2. generalize (sc2 dec). lra.
Qed.

Lemma sun_direction jd ra dec : lpsun_radec ideal jd = (ra, dec) ->
  0 <= ra < 2 * PI /\ - (PI / 2) <= dec <= PI / 2 /\
  dir ra dec = (cos (sun_lambda ideal jd), cos (sun_epsilon ideal jd) * sin (sun_lambda ideal jd), sin (sun_epsilon ideal jd) * sin (sun_lambda ideal jd)).
Proof.
  unfold lpsun_radec. ideal_. set (l := sun_lambda ideal jd). set (e := sun_epsilon ideal jd). intros E.
  assert (E1 := f_equal fst E). assert (E2 := f_equal snd E). cbn [fst snd] in E1, E2. clear E.
  destruct (atan_circ_polar (cos l) (cos e * sin l)) as [R1 [X Y]]. rewrite E1 in R1, X, Y.
  assert (U : cos l * cos l + cos e * sin l * (cos e * sin l) + sin e * sin l * (sin e * sin l) = 1).
  { replace (cos e * sin l * (cos e * sin l)) with (cos e * cos e * (sin l * sin l)) by ring.
    replace (sin e * sin l * (sin e * sin l)) with (sin e * sin e * (sin l * sin l)) by ring.
    rewrite Rplus_assoc, <- Rmult_plus_distr_r. rewrite (Rplus_comm (cos e * cos e)), sc2. generalize (sc2 l). lra. }
  destruct (direction_of (cos l) (cos e * sin l) (sin e * sin l) ra) as [B V]; [lra | exact X | exact Y |].
  rewrite U, sqrt_1 in B, V. unfold Rdiv in B, V. rewrite Rinv_1, Rmult_1_r, E2 in B, V.
  split; [exact R1|]. split; [exact B|]. rewrite <- V. unfold scale. destruct (dir ra dec) as [[a b] c]. rewrite !Rmult_1_l. reflexivity.
Qed.
