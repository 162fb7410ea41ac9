(** The right ascension difference, the flat separation and the position angle. *)
From Coq Require Import ZArith Reals Lra Lia Bool Psatz.
From Coquelicot Require Import Coquelicot.
From Verif Require Import CLib ArithModel GeoModel GeoSpec GeoLemmas GeoProofs1 GeoProofs2 GeoProofs3.
Open Scope R_scope.

(** *** Spherical and flat right triangles *)
Lemma increasing_from_0 (f f' : R -> R) b : 0 <= b ->
  (forall t, 0 <= t <= b -> is_derive f t (f' t)) -> (forall t, 0 <= t <= b -> 0 <= f' t) -> f 0 <= f b.
Proof.
  intros B D P. destruct (Req_dec b 0) as [->|N]; [lra|].
  destruct (MVT_cor2 f f' 0 b) as [c [E C]]; [lra | |].
  - intros c C. apply is_derive_Reals, D, C.
  - assert (0 <= f' c) by (apply P; lra). nra.
Qed.

Lemma tan_convex c t : 0 <= c <= 1 -> 0 <= t < PI / 2 -> tan (c * t) <= c * tan t.
Proof.
  intros C T. assert (P := pi_lower).
  assert (CP : forall u, 0 <= u <= t -> 0 < cos u) by (intros; apply cos_gt_0; lra).
  assert (CQ : forall u, 0 <= u <= t -> 0 < cos (c * u)). { intros u U. apply cos_gt_0; nra. }
  assert (H := increasing_from_0 (fun u => c * tan u - tan (c * u)) (fun u => c * (1 + tan u * tan u) - c * (1 + tan (c * u) * tan (c * u))) t).
  cbv beta in H. rewrite Rmult_0_r, tan_0 in H.
  assert (0 <= c * tan t - tan (c * t)); [|lra].
  replace (c * 0 - 0) with 0 in H by ring. apply H; [lra | |].
  - intros u U. unfold tan. specialize (CP u U). specialize (CQ u U). auto_derive; [repeat split; lra|].
    assert (S1 := sc2 u). assert (S2 := sc2 (c * u)). field_simplify; [|lra|lra]. f_equal; ring.
  - intros u U. assert (tan (c * u) <= tan u). { destruct (Req_dec (c * u) u) as [E|E]; [rewrite E; lra|]. apply Rlt_le, tan_increasing; nra. }
    assert (0 <= tan (c * u)). { destruct (Req_dec (c * u) 0) as [E|E]; [rewrite E, tan_0; lra|]. apply Rlt_le, tan_gt_0; nra. }
    assert (Q : tan (c * u) * tan (c * u) <= tan u * tan u) by (apply Rmult_le_compat; lra).
    assert (0 <= c * (tan u * tan u - tan (c * u) * tan (c * u))) by (apply Rmult_le_pos; lra). lra.
Qed.

Lemma cos_hypotenuse x y : 0 <= x -> 0 <= y -> sqrt (x * x + y * y) <= PI / 2 -> cos (sqrt (x * x + y * y)) <= cos x * cos y.
Proof.
  intros X Y R. assert (P := pi_lower). set (r := sqrt (x * x + y * y)) in *.
  assert (RR : r * r = x * x + y * y) by (apply sqrt_sqrt; nra). assert (R0 : 0 <= r) by apply sqrt_pos.
  assert (XR : x <= r) by nra. assert (YR : y <= r) by nra.
  assert (CX : 0 <= cos x) by (apply cos_ge_0; lra). assert (CY : 0 <= cos y) by (apply cos_ge_0; lra).
  destruct (Req_dec r (PI / 2)) as [E|E]. { rewrite E, cos_PI2. apply Rmult_le_pos; assumption. }
  destruct (Req_dec r 0) as [Z|Z]. { assert (x = 0) by lra. assert (y = 0) by lra. subst x y. rewrite Z, cos_0. lra. }
  set (c := x / r). set (s := y / r).
  assert (XC : c * r = x) by (unfold c; field; lra). assert (YS : s * r = y) by (unfold s; field; lra).
  assert (C1 : 0 <= c <= 1). { split; [apply Rmult_le_pos; [lra|apply Rlt_le, Rinv_0_lt_compat; lra]|]. apply (Rmult_le_reg_r r); lra. }
  assert (S1 : 0 <= s <= 1). { split; [apply Rmult_le_pos; [lra|apply Rlt_le, Rinv_0_lt_compat; lra]|]. apply (Rmult_le_reg_r r); lra. }
  assert (CS : c * c + s * s = 1). { apply (Rmult_eq_reg_r (r * r)); [|nra]. replace ((c * c + s * s) * (r * r)) with (c * r * (c * r) + s * r * (s * r)) by ring. rewrite XC, YS. lra. }
  assert (CP : forall u, 0 <= u <= r -> 0 < cos u) by (intros; apply cos_gt_0; lra).
  assert (CC : forall u, 0 <= u <= r -> 0 < cos (c * u)) by (intros; apply cos_gt_0; nra).
  assert (CD : forall u, 0 <= u <= r -> 0 < cos (s * u)) by (intros; apply cos_gt_0; nra).
  assert (H := increasing_from_0 (fun u => cos (c * u) * cos (s * u) / cos u)
    (fun u => cos (c * u) * cos (s * u) / cos u * (tan u - c * tan (c * u) - s * tan (s * u))) r R0).
  cbv beta in H. rewrite !Rmult_0_r, cos_0, XC, YS in H.
  assert (1 <= cos x * cos y / cos r).
  { replace 1 with (1 * 1 / 1) by field. apply H.
    - intros u U. specialize (CP u U). specialize (CC u U). specialize (CD u U). unfold tan. auto_derive; [lra|]. field. lra.
    - intros u U. apply Rmult_le_pos.
      + apply Rmult_le_pos; [apply Rmult_le_pos; apply Rlt_le; auto|]. apply Rlt_le, Rinv_0_lt_compat. auto.
      + assert (T1 : tan (c * u) <= c * tan u) by (apply tan_convex; lra).
        assert (T2 : tan (s * u) <= s * tan u) by (apply tan_convex; lra).
        assert (c * tan (c * u) <= c * (c * tan u)) by (apply Rmult_le_compat_l; lra).
        assert (s * tan (s * u) <= s * (s * tan u)) by (apply Rmult_le_compat_l; lra).
        replace (tan u) with ((c * c + s * s) * tan u) at 1 by (rewrite CS; ring). nra. }
  assert (0 < cos r) by (apply cos_gt_0; lra).
  apply (Rmult_le_compat_r (cos r)) in H0; [|lra]. unfold Rdiv in H0. rewrite Rmult_assoc, Rinv_l in H0; lra.
Qed.

(** The great circle is no longer than the straight line of the (RA, Dec) chart. *)
Lemma chart_no_shorter a1 d1 a2 d2 a b : 
  cos a = cos (a2 - a1) -> b = d2 - d1 -> - (PI / 2) <= d1 <= PI / 2 -> - (PI / 2) <= d2 <= PI / 2 ->
  forall g, angle_between (dir a1 d1) (dir a2 d2) g -> g <= sqrt (a * a + b * b).
Proof.
  intros A B D1 D2 g [G1 G2]. assert (P := pi_lower). rewrite dot_dir, <- A in G2.
  destruct (Rle_dec (sqrt (a * a + b * b)) PI) as [L|L]; [|lra].
  set (x := Rabs a / 2). set (y := Rabs b / 2).
  assert (Q : sqrt (x * x + y * y) = sqrt (a * a + b * b) / 2).
  { replace (x * x + y * y) with ((a * a + b * b) / (2 * 2)).
    - rewrite sqrt_div_alt by lra. rewrite sqrt_square by lra. reflexivity.
    - unfold x, y. assert (Rabs a * Rabs a = a * a) by (rewrite <- Rabs_mult; apply Rabs_right, Rle_ge, Rle_0_sqr).
      assert (Rabs b * Rabs b = b * b) by (rewrite <- Rabs_mult; apply Rabs_right, Rle_ge, Rle_0_sqr). nra. }
  assert (X : 0 <= x) by (unfold x; generalize (Rabs_pos a); lra). assert (Y : 0 <= y) by (unfold y; generalize (Rabs_pos b); lra).
  assert (H := cos_hypotenuse x y X Y). rewrite Q in H.
  assert (C : cos (sqrt (a * a + b * b) / 2) <= cos x * cos y) by (apply H; lra).
  assert (CX : cos x * cos x = (1 + cos a) / 2).
  { assert (E := hav (Rabs a)). fold x in E. assert (S := sc2 x). rewrite cos_Rabs in E. lra. }
  assert (CY : cos y * cos y = (1 + cos b) / 2).
  { assert (E := hav (Rabs b)). fold y in E. assert (S := sc2 y). rewrite cos_Rabs in E. lra. }
  assert (CG : cos (g / 2) * cos (g / 2) = (1 + cos g) / 2).
  { assert (E := hav g). assert (S := sc2 (g / 2)). lra. }
  assert (KK : cos d1 * cos d2 <= (1 + cos b) / 2).
  { subst b. rewrite cos_minus. assert (C1 := COS_bound (d1 + d2)). rewrite cos_plus in C1. lra. }
  assert (K0 : 0 <= cos d1 * cos d2) by (apply Rmult_le_pos; apply cos_ge_0; lra).
  assert (CB : cos b = cos d1 * cos d2 + sin d1 * sin d2) by (subst b; rewrite cos_minus; ring).
  assert (CA := COS_bound a).
  assert (F : cos x * cos y * (cos x * cos y) <= cos (g / 2) * cos (g / 2)). { nra. }
  assert (HG : 0 <= cos (g / 2)) by (apply cos_ge_0; lra).
  assert (HH : 0 <= cos (sqrt (a * a + b * b) / 2)). { generalize (sqrt_pos (a * a + b * b)); intros. apply cos_ge_0; lra. }
  assert (F2 : cos (sqrt (a * a + b * b) / 2) <= cos (g / 2)).
  { apply Rsqr_incr_0; unfold Rsqr; [|assumption|assumption]. eapply Rle_trans; [|exact F]. apply Rmult_le_compat; lra. }
  assert (S0 := sqrt_pos (a * a + b * b)).
  apply cos_decr_0 in F2; lra.
Qed.

(** *** The RA difference *)
Lemma congruent_refl a : congruent a a.
Proof. exists 0%Z. ring. Qed.

Lemma ra_diff_eq ra t : ra_diff ideal ra t = (let d := ra - t + 2 * PI in if Rltb PI d then d - 2 * PI else d).
Proof. reflexivity. Qed.

Lemma ra_diff_congruent ra t : congruent (ra_diff ideal ra t) (ra - t).
Proof.
  rewrite ra_diff_eq. cbv zeta. destruct (Rltb PI (ra - t + 2 * PI)); [exists 0%Z; ring | exists 1%Z; ring].
Qed.

Lemma congruent_trig a b : congruent a b -> cos a = cos b /\ sin a = sin b.
Proof.
  intros [k ->]. assert (N : forall (n : nat) x, cos (x + IZR (Z.of_nat n) * (2 * PI)) = cos x /\ sin (x + IZR (Z.of_nat n) * (2 * PI)) = sin x).
  { intros n x. rewrite <- INR_IZR_INZ. replace (x + INR n * (2 * PI)) with (x + 2 * INR n * PI) by ring. split; [apply cos_period | apply sin_period]. }
  destruct (Z_le_gt_dec 0 k).
  - destruct (N (Z.to_nat k) b) as [A B]. rewrite Z2Nat.id in A, B by assumption. auto.
  - destruct (N (Z.to_nat (- k)) (b + IZR k * (2 * PI))) as [A B]. rewrite Z2Nat.id, opp_IZR in A, B by lia.
    replace (b + IZR k * (2 * PI) + - IZR k * (2 * PI)) with b in A, B by ring. auto.
Qed.

Lemma ra_diff_range ra t : 0 <= ra < 2 * PI -> 0 <= t < 2 * PI -> (- PI < ra_diff ideal ra t <= PI <-> ra - t <= PI).
Proof.
  intros R T. assert (P := pi_lower). rewrite ra_diff_eq. cbv zeta.
  destruct (Rltb PI (ra - t + 2 * PI)) eqn:E; [apply Rltb_t in E | apply Rltb_f in E]; lra.
Qed.

Lemma ra_diff_short ra t : 0 <= ra < 2 * PI -> 0 <= t < 2 * PI -> (short_way t ra (ra_diff ideal ra t) <-> ra - t <= PI).
Proof.
  intros R T. unfold short_way. rewrite <- ra_diff_range by assumption. split; [tauto|]. intros H. split; [apply ra_diff_congruent | exact H].
Qed.

(** On the wrong side: the long way round. *)
Lemma ra_diff_long ra t : PI < ra - t -> ra_diff ideal ra t = ra - t :> R.
Proof.
  intros H. assert (P := pi_lower). rewrite ra_diff_eq. cbv zeta. replace (Rltb PI (ra - t + 2 * PI)) with true by (symmetry; apply Rltb_t; lra). ring.
Qed.

Lemma flat_sep_eq ra dec tra tdec :
  flat_sep ideal ra dec tra tdec = degrees (sqrt (ra_diff ideal ra tra * ra_diff ideal ra tra + (dec - tdec) * (dec - tdec))).
Proof. reflexivity. Qed.

Lemma degrees_le a b : degrees a <= degrees b <-> a <= b.
Proof.
  unfold degrees. assert (P := PI_RGT_0). assert (0 < 180 / PI) by (apply Rdiv_lt_0_compat; lra). split; intros; [apply (Rmult_le_reg_r (180 / PI)) | apply Rmult_le_compat_r]; lra.
Qed.

(** What the default search reports is within the radius. *)
Lemma flat_sep_bounds ra dec tra tdec g : - (PI / 2) <= dec <= PI / 2 -> - (PI / 2) <= tdec <= PI / 2 ->
  angle_between (dir tra tdec) (dir ra dec) g -> degrees g <= flat_sep ideal ra dec tra tdec.
Proof.
  intros D T G. rewrite flat_sep_eq. apply degrees_le. eapply chart_no_shorter; [|reflexivity|exact T|exact D|exact G].
  apply congruent_trig, ra_diff_congruent.
Qed.

(** On the short way, on the same parallel of the equator it is exact. *)
Lemma flat_sep_equator ra tra : 0 <= ra < 2 * PI -> 0 <= tra < 2 * PI -> ra - tra <= PI ->
  angle_between (dir tra 0) (dir ra 0) (Rabs (ra_diff ideal ra tra)) /\ flat_sep ideal ra 0 tra 0 = degrees (Rabs (ra_diff ideal ra tra)).
Proof.
  intros R T L. assert (B := proj2 (ra_diff_range ra tra R T) L). assert (C := proj1 (congruent_trig _ _ (ra_diff_congruent ra tra))).
  set (d := ra_diff ideal ra tra) in *. split.
  - split. { unfold Rabs; destruct (Rcase_abs d); lra. } rewrite dot_dir, cos_Rabs, sin_0, cos_0, C. ring.
  - rewrite flat_sep_eq. fold d. replace (d * d + (0 - 0) * (0 - 0)) with (Rsqr d) by (unfold Rsqr; ring). rewrite sqrt_Rsqr_abs. reflexivity.
Qed.

(** *** Position angle *)
Lemma motion_angle_right ra dec ra1 dec1 : 0 <= ra < 2 * PI -> 0 <= ra1 < 2 * PI -> ra1 - ra <= PI ->
  (dec1 <> dec \/ ra_diff ideal ra1 ra * cos dec <> 0) ->
  position_angle ra dec ra1 dec1 (motion_angle ideal ra dec ra1 dec1).
Proof.
  intros R R1 L N. exists (ra_diff ideal ra1 ra). split; [apply ra_diff_short; assumption|].
  unfold polar_angle, motion_angle. ideal_. lits. apply polar_from_atan2.
  set (y := ra_diff ideal ra1 ra * cos dec) in *. set (x := dec1 - dec).
  intros Z. assert (0 <= x * x) by apply Rle_0_sqr. assert (0 <= y * y) by apply Rle_0_sqr.
  assert (ZZ : forall t, t * t = 0 -> t = 0) by (intros t E0; apply Rmult_integral in E0; tauto).
  destruct N as [N|N]; apply N; [assert (x = 0) by (apply ZZ; lra); unfold x in *; lra | apply ZZ; lra].
Qed.

Lemma motion_angle_range ra dec ra1 dec1 : 0 <= motion_angle ideal ra dec ra1 dec1 < 2 * PI.
Proof.
  unfold motion_angle. ideal_. lits. set (y := ra_diff ideal ra1 ra * cos dec). set (x := dec1 - dec).
  assert (P := pi_lower). destruct (Ratan2_range y x) as [L U]. destruct (Rltb (Ratan2 y x) 0) eqn:E; [apply Rltb_t in E | apply Rltb_f in E]; lra.
Qed.
