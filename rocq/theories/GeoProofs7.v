(** The parallactic angle. *)
From Coq Require Import ZArith Reals Lra Lia Bool Psatz.
From Verif Require Import CLib ArithModel GeoLemmas GeoModel GeoSpec ParSpec GeoProofs1 GeoProofs2 GeoProofs5.
Open Scope R_scope.

Lemma deg_range t : - PI < t <= PI -> -180 < t * (180 / PI) <= 180.
Proof.
  intros [L U]. assert (P := PI_RGT_0). assert (K : 0 < 180 / PI) by (apply Rdiv_lt_0_compat; lra).
  assert (A1 : - PI * (180 / PI) = -180) by (field; lra). assert (A2 : PI * (180 / PI) = 180) by (field; lra).
  split; [apply (Rmult_lt_compat_r (180 / PI)) in L | apply (Rmult_le_compat_r (180 / PI)) in U]; lra.
Qed.
Lemma deg_back t : radians (t * (180 / PI)) = t.
Proof. unfold radians. field. apply PI_neq0. Qed.

Lemma parang_right dec ha lat h : dechalat2alt ideal dec ha lat = Ok h -> ha <> 0 -> 1 / 1000000 <= cos (radians lat) -> cos dec <> 0 ->
  parallactic dec (hour_angle ha) (radians lat) (hz_parang ideal h).
Proof.
  unfold dechalat2alt, hour_angle. ideal_. lits. fold (radians lat). set (la := radians lat).
  intros E H0 NP CD. replace (Reqb ha 0) with false in E by (symmetry; apply Reqb_f; exact H0).
  replace (Rltb (cos la) (1 / 1000000)) with false in E by (symmetry; apply Rltb_f; exact NP).
  replace (Reqb (cos dec) 0) with false in E by (symmetry; apply Reqb_f; exact CD).
  fold (radians (ha * 15)) in E. set (hr := radians (ha * 15)) in *.
  set (y := -1 * cos dec * sin hr) in *. set (x := sin dec * cos la - cos dec * cos hr * sin la) in *. set (t := Ratan2 y x) in *.
  cbn [bind] in E.
  set (sp := -1 * sin t * cos la / cos dec) in E. set (cp := -1 * cos t * cos hr - sin t * sin hr * sin la) in E.
  assert (X : hz_parang ideal h = Ratan2 sp cp * (180 / PI) :> R) by (injection E as <-; reflexivity). clear E. rewrite X.
  split. { apply deg_range, Ratan2_range. }
  rewrite deg_back.
  assert (NN : dot (zenith la) (sky_north dec hr) = cos dec * sin la - sin dec * cos la * cos hr) by (unfold dot, zenith, sky_north; ring).
  assert (EE : dot (zenith la) (sky_east hr) = cos la * sin hr) by (unfold dot, zenith, sky_east; ring). rewrite NN, EE.
  assert (S1 := sc2 hr). assert (S2 := sc2 la). assert (S3 := sc2 dec). assert (S4 := sc2 t).
  exists (sqrt (x * x + y * y)). split; [apply sqrt_pos|].
  assert (SQ : x * x + y * y = (cos dec * sin la - sin dec * cos la * cos hr) ^ 2 + (cos la * sin hr) ^ 2).
  { unfold x, y. clear -S1 S2 S3. set (cd := cos dec) in *. set (sd := sin dec) in *. set (cl := cos la) in *. set (sl := sin la) in *. set (ch := cos hr) in *. set (sh := sin hr) in *. clearbody cd sd cl sl ch sh.
    transitivity ((sd * sd) * (cl * cl) - 2 * sd * cl * cd * ch * sl + (cd * cd) * (ch * ch) * (sl * sl) + (cd * cd) * (sh * sh)); [ring|].
    transitivity ((cd * cd) * (sl * sl) - 2 * sd * cl * cd * ch * sl + (sd * sd) * (cl * cl) * (ch * ch) + (cl * cl) * (sh * sh)); [|ring].
    replace (sl * sl) with (1 - cl * cl) by lra. replace (sd * sd) with (1 - cd * cd) by lra. replace (sh * sh) with (1 - ch * ch) by lra. ring. }
  destruct (Req_dec (x * x + y * y) 0) as [O|O].
  - rewrite O, sqrt_0. rewrite O in SQ.
    assert (A1 := pow2_ge_0 (cos dec * sin la - sin dec * cos la * cos hr)). assert (A2 := pow2_ge_0 (cos la * sin hr)).
    assert (Z : forall v, v ^ 2 = 0 -> v = 0) by (intros v E0; destruct (Req_dec v 0); [assumption|]; exfalso; apply (pow_nonzero v 2) in H; lra).
    rewrite (Z (cos dec * sin la - sin dec * cos la * cos hr)), (Z (cos la * sin hr)) by lra. lra.
  - destruct (Ratan2_polar y x O) as [E1 E2]. fold t in E1, E2. set (r := sqrt (x * x + y * y)) in *.
    assert (RP : 0 < r). { apply sqrt_lt_R0. assert (0 <= x * x) by apply Rle_0_sqr. assert (0 <= y * y) by apply Rle_0_sqr. lra. }
    assert (RR : r * r = x * x + y * y). { apply sqrt_sqrt. assert (0 <= x * x) by apply Rle_0_sqr. assert (0 <= y * y) by apply Rle_0_sqr. lra. }
    assert (P1 : r * sp = cos la * sin hr).
    { unfold sp. transitivity (-1 * (r * sin t) * cos la / cos dec); [field; exact CD|]. rewrite <- E2. unfold y. field. exact CD. }
    assert (P2 : r * cp = cos dec * sin la - sin dec * cos la * cos hr).
    { unfold cp. transitivity (-1 * (r * cos t) * cos hr - (r * sin t) * sin hr * sin la); [ring|]. rewrite <- E1, <- E2. unfold x, y.
      transitivity (cos dec * sin la * (sin hr * sin hr + cos hr * cos hr) - sin dec * cos la * cos hr); [ring|]. rewrite S1. ring. }
    assert (U : cp * cp + sp * sp = 1).
    { assert (r * r * (cp * cp + sp * sp) = r * r * 1); [|apply Rmult_eq_reg_l in H; nra].
      transitivity ((r * cp) ^ 2 + (r * sp) ^ 2); [ring|]. rewrite P1, P2, <- SQ. lra. }
    destruct (Ratan2_polar sp cp ltac:(lra)) as [F1 F2]. rewrite U, sqrt_1 in F1, F2.
    split; [rewrite <- P2; rewrite F1 at 1; ring | rewrite <- P1; rewrite F2 at 1; ring].
Qed.

Lemma Ratan2_0m : Ratan2 0 (-1) = PI.
Proof.
  destruct (Ratan2_polar 0 (-1) ltac:(lra)) as [E1 E2]. replace (-1 * -1 + 0 * 0) with 1 in * by ring. rewrite sqrt_1 in *.
  destruct (Ratan2_range 0 (-1)) as [L U]. set (t := Ratan2 0 (-1)) in *. destruct (Rlt_dec t PI) as [Q|Q]; [|lra]. exfalso.
  destruct (Rlt_dec 0 t) as [T|T]; [assert (A := sin_gt_0 t T Q); lra|].
  destruct (Req_dec t 0) as [Z|Z]; [rewrite Z, cos_0 in E1; lra|]. assert (A := sin_lt_0_var t L ltac:(lra)). lra.
Qed.
Lemma parallactic_180 dec h lat : parallactic dec h lat 180 <-> dot (zenith lat) (sky_east h) = 0 /\ dot (zenith lat) (sky_north dec h) <= 0.
Proof.
  unfold parallactic. replace (radians 180) with PI by (unfold radians; field). rewrite cos_PI, sin_PI. split.
  - intros (_ & k & K & A & B). lra.
  - intros [A B]. split; [lra|]. exists (- dot (zenith lat) (sky_north dec h)). lra.
Qed.

(** On the meridian the result is always 180. *)
Lemma parang_meridian dec lat h : dechalat2alt ideal dec 0 lat = Ok h -> cos dec <> 0 ->
  hz_parang ideal h = 180 :> R /\ (parallactic dec (hour_angle 0) (radians lat) (hz_parang ideal h) <-> sin (radians lat - dec) <= 0).
Proof.
  unfold dechalat2alt. ideal_. lits. intros E CD. replace (Reqb 0 0) with true in E by (symmetry; apply Reqb_t; reflexivity).
  replace (Reqb (cos dec) 0) with false in E by (symmetry; apply Reqb_f; exact CD). cbn [bind] in E.
  assert (X : hz_parang ideal h = 180 :> R).
  { injection E as <-. cbn [hz_parang]. rewrite Ratan2_0m. field. apply PI_neq0. }
  split; [exact X|]. rewrite X, parallactic_180. unfold hour_angle. replace (radians (0 * 15)) with 0 by (unfold radians; ring).
  unfold dot, zenith, sky_east, sky_north. rewrite sin_0, cos_0, sin_minus. split; [intros [_ B]; lra|]. intros B. split; lra.
Qed.
(** For a polar observer too. *)
Lemma parang_polar dec ha lat h : dechalat2alt ideal dec ha lat = Ok h -> ha <> 0 -> ~ 1 / 1000000 <= cos (radians lat) -> cos dec <> 0 ->
  hz_parang ideal h = 180 :> R.
Proof.
  unfold dechalat2alt. ideal_. lits. fold (radians lat). intros E H0 NP CD. replace (Reqb ha 0) with false in E by (symmetry; apply Reqb_f; exact H0).
  replace (Rltb (cos (radians lat)) (1 / 1000000)) with true in E by (symmetry; apply Rltb_t; lra).
  replace (Reqb (cos dec) 0) with false in E by (symmetry; apply Reqb_f; exact CD). cbn [bind] in E.
  injection E as <-. cbn [hz_parang]. fold (radians (ha * 15)). assert (S := sc2 (radians (ha * 15))).
  replace (-1 * cos (radians (ha * 15)) * cos (radians (ha * 15)) - sin (radians (ha * 15)) * sin (radians (ha * 15))) with (-1) by lra.
  rewrite Ratan2_0m. field. apply PI_neq0.
Qed.
(** The two wrong cases, and one right. *)
Lemma wrong_parang_meridian : exists dec lat h, dechalat2alt ideal dec 0 lat = Ok h /\ hz_parang ideal h = 180 :> R /\
  ~ parallactic dec (hour_angle 0) (radians lat) 180 /\ parallactic dec (hour_angle 0) (radians lat) 0.
Proof.
  destruct (horizon_defined 0 0 45) as [h H]. exists 0, 45, h. split; [exact H|].
  destruct (parang_meridian 0 45 h H) as [X Q]; [rewrite cos_0; lra|]. split; [exact X|]. rewrite X in Q.
  assert (S : 0 < sin (radians 45 - 0)). { replace (radians 45 - 0) with (PI / 4) by (unfold radians; field). apply sin_gt_0; assert (P := PI_RGT_0); lra. }
  split; [intros N; apply Q in N; lra|]. unfold parallactic. split; [lra|]. exists (sin (radians 45 - 0)). split; [lra|].
  unfold hour_angle. replace (radians (0 * 15)) with 0 by (unfold radians; ring). replace (radians 0) with 0 by (unfold radians; ring).
  unfold dot, zenith, sky_east, sky_north. rewrite sin_minus, sin_0, cos_0. lra.
Qed.
Lemma wrong_parang_polar : exists dec ha lat h, dechalat2alt ideal dec ha lat = Ok h /\ hz_parang ideal h = 180 :> R /\
  ~ parallactic dec (hour_angle ha) (radians lat) 180 /\ parallactic dec (hour_angle ha) (radians lat) 0.
Proof.
  destruct (horizon_defined 0 1 90) as [h H]. exists 0, 1, 90, h. split; [exact H|].
  assert (L : radians 90 = PI / 2) by (unfold radians; field).
  split. { apply (parang_polar 0 1 90 h H); rewrite ?L, ?cos_PI2, ?cos_0; lra. }
  rewrite parallactic_180, L. unfold parallactic, dot, zenith, sky_east, sky_north. rewrite cos_PI2, sin_PI2, cos_0, sin_0.
  split; [intros [_ B]; lra|]. split; [lra|]. exists 1. replace (radians 0) with 0 by (unfold radians; ring). rewrite cos_0, sin_0. lra.
Qed.
Lemma ex_parang : exists h, dechalat2alt ideal 0 6 45 = Ok h /\ parallactic 0 (hour_angle 6) (radians 45) (hz_parang ideal h) /\
  parallactic 0 (hour_angle 6) (radians 45) 45.
Proof.
  assert (P := PI_RGT_0). destruct (horizon_defined 0 6 45) as [h H]. exists h. split; [exact H|].
  assert (L : radians 45 = PI / 4) by (unfold radians; field). assert (HA : hour_angle 6 = PI / 2) by (unfold hour_angle, radians; field).
  assert (S4 : 0 < sin (PI / 4)) by (apply sin_gt_0; lra).
  split. { apply parang_right; [exact H | lra | | rewrite cos_0; lra]. rewrite L, cos_PI4. assert (0 < sqrt 2 < 2). { split; [apply sqrt_lt_R0; lra|]. rewrite <- (sqrt_pow2 2) at 2 by lra. apply sqrt_lt_1; lra. }
    apply (Rmult_le_reg_r (sqrt 2)); [lra|]. replace (1 / sqrt 2 * sqrt 2) with 1 by (field; lra). lra. }
  unfold parallactic. rewrite L, HA. split; [lra|]. exists 1. unfold dot, zenith, sky_east, sky_north. rewrite cos_PI2, sin_PI2, cos_0, sin_0, sin_PI4, cos_PI4. lra.
Qed.
