(** The numerical integration: Newton's equations and the Runge-Kutta step. *)
From Coq Require Import ZArith List Reals Lra Lia Psatz Bool.
From Flocq Require Import Core.
From Verif Require Import CLib FloatModel ArithModel GeoLemmas OrbModel OrbSpec DeepModel DeepSpec DeepTerms DeepProofs1 DeepProofs7.
Import ListNotations.
Open Scope R_scope.

Definition dist4 (v : vec4 ideal) : R := snd v.

Lemma norm_polar lon lat d : 0 <= d -> norm (polar lon lat d) = d.
Proof.
  intros H. unfold norm, polar, dot. cbn [c_x c_y c_z]. transitivity (sqrt (d * d)); [|apply sqrt_square, H]. f_equal. assert (K := sc2 lon). assert (K2 := sc2 lat).
  replace (d * cos lat * cos lon * (d * cos lat * cos lon) + d * cos lat * sin lon * (d * cos lat * sin lon) + d * sin lat * (d * sin lat))
    with (d * d * (cos lat * cos lat * (sin lon * sin lon + cos lon * cos lon) + sin lat * sin lat)) by ring. rewrite K. replace (cos lat * cos lat * 1 + sin lat * sin lat) with (sin lat * sin lat + cos lat * cos lat) by ring. rewrite K2. ring.
Qed.

(** The positions are polar forms. *)
Section Bodies.
Context (jd : R).
Let T := (jd - 2451545) / 36525.
Definition code_lon : R :=
  moon_L T + 6288774 / 1000000 * PI / 180 * sin (moon_M' T) + 1274027 / 1000000 * PI / 180 * sin (2 * moon_D T - moon_M' T)
  + 658314 / 1000000 * PI / 180 * sin (2 * moon_D T) + 213618 / 1000000 * PI / 180 * sin (2 * moon_M' T)
  - 185166 / 1000000 * PI / 180 * sin (moon_M T) - 114332 / 1000000 * PI / 180 * sin (2 * moon_F T).
Definition code_dist : R :=
  385000560 - 20905355 * cos (moon_M' T) - 3699111 * cos (2 * moon_D T - moon_M' T) - 2955968 * cos (2 * moon_D T) - 569925 * cos (2 * moon_M T).
Lemma args : forall a b, a * PI / 180 + b * PI / 180 * T = deg (a + b * T).
Proof. intros a b. unfold deg. field. Qed.
Lemma positions : lunar_solar_position ideal jd =
  ((code_dist * cos (moon_lat T) * cos code_lon, code_dist * cos (moon_lat T) * sin code_lon, code_dist * sin (moon_lat T), code_dist),
   (sun_dist T * cos (sun_lon T), sun_dist T * sin (sun_lon T), 0, sun_dist T)).
Proof.
  assert (A1 : 2183164477 / 10000000 * PI / 180 + 48126788123421 / 100000000 * PI / 180 * T = moon_L T) by (rewrite args; unfold moon_L; f_equal; lra).
  assert (A2 : 1349633964 / 10000000 * PI / 180 + 4771988675055 / 10000000 * PI / 180 * T = moon_M' T) by (rewrite args; unfold moon_M'; f_equal; lra).
  assert (A3 : 28046646 / 100000 * PI / 180 + 3600076983 / 100000 * PI / 180 * T = deg (280.46646 + 36000.76983 * T)) by (rewrite args; f_equal; lra).
  assert (A4 : 3575291092 / 10000000 * PI / 180 + 359990502909 / 10000000 * PI / 180 * T = moon_M T) by (rewrite args; unfold moon_M; f_equal; lra).
  assert (A5 : 932720950 / 10000000 * PI / 180 + 4832020175233 / 10000000 * PI / 180 * T = moon_F T) by (rewrite args; unfold moon_F; f_equal; lra).
  assert (A6 : 2978501921 / 10000000 * PI / 180 + 4452671114034 / 10000000 * PI / 180 * T = moon_D T) by (rewrite args; unfold moon_D; f_equal; lra).
  unfold lunar_solar_position. rewrite !int_ideal, !cst_ideal.
  change (div ideal (sub ideal jd 2451545) 36525) with T. change (o_pi ideal) with PI.
  cbn [add sub mul div opp c_sin c_cos ideal]. rewrite A1, A2, A3, A4, A5, A6.
  cbn zeta.
  assert (B1 : 5128122 / 1000000 * PI / 180 * sin (moon_F T) + 280602 / 1000000 * PI / 180 * sin (moon_M' T + moon_F T) + 277693 / 1000000 * PI / 180 * sin (moon_M' T - moon_F T)
      + 173237 / 1000000 * PI / 180 * sin (2 * moon_D T - moon_F T) = moon_lat T) by (unfold moon_lat, deg; lra).
  assert (B2 : deg (280.46646 + 36000.76983 * T) + 1914602 / 1000000 * PI / 180 * sin (moon_M T) = sun_lon T) by (unfold sun_lon, deg; lra).
  assert (B3 : 149597870700 / 1 * (1 - 16708634 / 1000000000 * cos (moon_M T)) = sun_dist T) by (unfold sun_dist; lra).
  change (num ideal) with R in *. rewrite B1, B2, B3. reflexivity.
Qed.
Lemma code_dist_pos : 300000000 < code_dist.
Proof.
  unfold code_dist. assert (C1 := COS_bound (moon_M' T)). assert (C2 := COS_bound (2 * moon_D T - moon_M' T)). assert (C3 := COS_bound (2 * moon_D T)). assert (C4 := COS_bound (2 * moon_M T)). lra.
Qed.
Lemma sun_dist_pos : 140000000000 < sun_dist T.
Proof. unfold sun_dist. assert (C1 := COS_bound (moon_M T)). lra. Qed.
Lemma moon_polar : moon_at jd = polar code_lon (moon_lat T) code_dist /\ dist4 (fst (lunar_solar_position ideal jd)) = norm (moon_at jd).
Proof.
  unfold moon_at. rewrite positions. cbn [fst snd first3 dist4]. split; [reflexivity|]. symmetry. apply norm_polar. assert (X := code_dist_pos). lra.
Qed.
Lemma sun_polar : sun_at jd = polar (sun_lon T) 0 (sun_dist T) /\ dist4 (snd (lunar_solar_position ideal jd)) = norm (sun_at jd).
Proof.
  assert (E : sun_at jd = polar (sun_lon T) 0 (sun_dist T)). { unfold sun_at. rewrite positions. cbn [fst snd first3]. unfold polar. rewrite cos_0, sin_0. f_equal; ring. }
  split; [exact E|]. rewrite E. rewrite norm_polar by (assert (X := sun_dist_pos); lra). rewrite positions. reflexivity.
Qed.
End Bodies.

Lemma vector_len_norm v : vector_len ideal v = norm (to3 v).
Proof. destruct v as [[x y] z]. reflexivity. Qed.
Lemma ext_ideal (x y : num ideal) : eqn ideal x y = true -> lunar_solar_position ideal x = lunar_solar_position ideal y.
Proof. intros H. apply Reqb_t in H. rewrite H. reflexivity. Qed.
(** One body. *)
Lemma pull_attraction gm o pos accel : dist4 o = norm (first3 o) ->
  to3 (pull ideal gm o pos accel) = plus (to3 accel) (minus (attraction gm (to3 pos) (first3 o)) (attraction gm origin (first3 o))).
Proof.
  destruct o as [[[ox oy] oz] od]. destruct pos as [[x y] z]. destruct accel as [[ax ay] az]. intros D. cbn [dist4 snd first3] in D.
  unfold pull. rewrite vector_len_norm. cbn [to3 first3]. unfold attraction.
  assert (O : minus (v3 ox oy oz) origin = v3 ox oy oz) by (unfold minus, plus, scale, origin; cbn [c_x c_y c_z]; f_equal; ring). rewrite O. rewrite <- D.
  assert (M : minus (v3 ox oy oz) (v3 x y z) = v3 (ox - x) (oy - y) (oz - z)) by (unfold minus, plus, scale; cbn [c_x c_y c_z]; f_equal; ring). rewrite M.
  cbn [add sub mul div ideal]. set (d := norm (v3 (ox - x) (oy - y) (oz - z))).
  replace (od * od * od) with (od ^ 3) by ring. replace (d * d * d) with (d ^ 3) by ring.
  unfold minus, plus, scale. cbn [c_x c_y c_z]. f_equal; ring.
Qed.
(** The cache will give the positions for jd. *)
Definition ready (h : cache ideal) (jd : R) : Prop := snd (cached_lunar_solar_position ideal h jd) = lunar_solar_position ideal jd /\ sound ideal (fst (cached_lunar_solar_position ideal h jd)).
Lemma sound_ready h jd : sound ideal h -> ready h jd.
Proof. intros S. split; [apply (sound_right ideal ext_ideal h jd S) | apply cached_sound, S]. Qed.
Lemma history_ready js jd : jd <> 0 -> ready (after_dates ideal js) jd.
Proof.
  intros N. split; [apply cache_ideal; exists jd; split; [left; reflexivity | exact N]|]. rewrite <- after_snoc. destruct (after_cases ideal (js ++ [jd])) as [S|[Z _]]; [exact S|]. exfalso. apply N.
  assert (X : eqn ideal (int ideal 0) jd = true) by (apply Z, in_or_app; right; left; reflexivity). rewrite int_ideal in X. apply Reqb_t in X. symmetry. exact X.
Qed.
Lemma accel_newton h jd pos : ready h jd -> exists a, calc_accel ideal h jd pos = (fst (cached_lunar_solar_position ideal h jd), a) /\ to3 a = newton (moon_at jd) (sun_at jd) (to3 pos).
Proof.
  intros [R _]. unfold calc_accel. destruct (cached_lunar_solar_position ideal h jd) as [h' [lu so]]. cbn [fst snd] in *. destruct pos as [[x y] z]. eexists. split; [reflexivity|].
  destruct (moon_polar jd) as [_ DM]. destruct (sun_polar jd) as [_ DS]. unfold moon_at, sun_at in DM, DS. rewrite <- R in DM, DS. cbn [fst snd] in DM, DS.
  rewrite pull_attraction by exact DM. rewrite pull_attraction by exact DS. unfold newton, moon_at, sun_at. rewrite <- R. cbn [fst snd]. rewrite vector_len_norm.
  rewrite !cst_ideal. replace (132712439940000000000 / 1) with GM_sun by (unfold GM_sun; lra). replace (4902798000000 / 1) with GM_moon by (unfold GM_moon; lra).
  set (P := minus (attraction GM_moon (to3 (x, y, z)) (first3 lu)) (attraction GM_moon origin (first3 lu))). set (Q := minus (attraction GM_sun (to3 (x, y, z)) (first3 so)) (attraction GM_sun origin (first3 so))).
  assert (E : to3 (mul ideal (div ideal (opp ideal (398600440000000 / 1)) (mul ideal (mul ideal (norm (to3 (x, y, z))) (norm (to3 (x, y, z)))) (norm (to3 (x, y, z))))) x,
                   mul ideal (div ideal (opp ideal (398600440000000 / 1)) (mul ideal (mul ideal (norm (to3 (x, y, z))) (norm (to3 (x, y, z)))) (norm (to3 (x, y, z))))) y,
                   mul ideal (div ideal (opp ideal (398600440000000 / 1)) (mul ideal (mul ideal (norm (to3 (x, y, z))) (norm (to3 (x, y, z)))) (norm (to3 (x, y, z))))) z) = attraction GM_earth (to3 (x, y, z)) origin).
  { unfold attraction. cbn [to3 mul div opp ideal]. assert (M : minus origin (v3 x y z) = v3 (- x) (- y) (- z)) by (unfold minus, plus, scale, origin; cbn [c_x c_y c_z]; f_equal; ring). rewrite M.
    assert (NN : norm (v3 (- x) (- y) (- z)) = norm (v3 x y z)) by (unfold norm, dot; cbn [c_x c_y c_z]; f_equal; ring). rewrite NN. set (n := norm (v3 x y z)). replace (n * n * n) with (n ^ 3) by ring. unfold scale, GM_earth. cbn [c_x c_y c_z]. unfold Rdiv. rewrite Rinv_1. f_equal; ring. }
  rewrite E. unfold plus. cbn [c_x c_y c_z]. f_equal; ring.
Qed.
Lemma deriv_motion h jd s moon sun t : ready h jd -> moon t = moon_at jd -> sun t = sun_at jd ->
  exists h' k, calc_state_vector_deriv ideal h jd s = (h', k) /\ sound ideal h' /\ to6 k = motion moon sun t (to6 s).
Proof.
  intros S M U. unfold calc_state_vector_deriv. destruct (accel_newton h jd (fst s) S) as (a & E & V). rewrite E. do 2 eexists. split; [reflexivity|]. split; [apply S|].
  unfold to6, motion. cbn [fst snd]. rewrite V, M, U. reflexivity.
Qed.
Lemma along6_ideal h s k : to6 (along6 ideal h s k) = plus6 (to6 s) (scale6 h (to6 k)).
Proof. destruct s as [[[a b] c] [[d e] f]]. destruct k as [[[a' b'] c'] [[d' e'] f']]. reflexivity. Qed.
Lemma mix6_ideal w s k0 k1 k2 k3 : to6 (mix6 ideal w s k0 k1 k2 k3) = plus6 (to6 s) (scale6 w (plus6 (to6 k0) (plus6 (scale6 2 (to6 k1)) (plus6 (scale6 2 (to6 k2)) (to6 k3))))).
Proof.
  destruct s as [[[a b] c] [[d e] f]]. destruct k0 as [[[a0 b0] c0] [[d0 e0] f0]]. destruct k1 as [[[a1 b1] c1] [[d1 e1] f1]]. destruct k2 as [[[a2 b2] c2] [[d2 e2] f2]]. destruct k3 as [[[a3 b3] c3] [[d3 e3] f3]].
  unfold mix6, mix, mix1, to6, plus6, scale6, plus, scale. cbn [fst snd to3 c_x c_y c_z]. rewrite int_ideal. cbn [add mul ideal]. f_equal; f_equal; ring.
Qed.
(** The step. *)
Lemma step_rk4 h jd dt s : ready h jd -> exists h' s', high_step ideal h jd dt s = (h', s') /\ sound ideal h'
  /\ to6 s' = runge_kutta plus6 scale6 (motion (fun t => moon_at (jd + t / 86400)) (fun t => sun_at (jd + t / 86400))) 0 (86400 * dt) (to6 s).
Proof.
  intros S. set (mo := fun t => moon_at (jd + t / 86400)). set (su := fun t => sun_at (jd + t / 86400)). unfold high_step, runge_kutta. rewrite !int_ideal, cst_ideal. unfold minutes_per_day. rewrite int_ideal.
  cbn [add mul div ideal]. replace (dt * (60 * 1440)) with (86400 * dt) by ring. set (H := 86400 * dt).
  assert (T0 : jd + 0 / 86400 = jd) by field. assert (T1 : jd + (0 + H / 2) / 86400 = jd + dt / 2) by (unfold H; field). assert (T2 : jd + (0 + H) / 86400 = jd + dt) by (unfold H; field).
  replace (H * (5 / 10)) with (H / 2) by field.
  destruct (deriv_motion h jd s mo su 0 S) as (h0 & k0 & -> & S0 & K0); [unfold mo; rewrite T0; reflexivity | unfold su; rewrite T0; reflexivity|].
  destruct (deriv_motion h0 (jd + dt / 2) (along6 ideal (H / 2) s k0) mo su (0 + H / 2) (sound_ready _ _ S0)) as (h1 & k1 & -> & S1 & K1); [unfold mo; rewrite T1; reflexivity | unfold su; rewrite T1; reflexivity|].
  destruct (deriv_motion h1 (jd + dt / 2) (along6 ideal (H / 2) s k1) mo su (0 + H / 2) (sound_ready _ _ S1)) as (h2 & k2 & -> & S2 & K2); [unfold mo; rewrite T1; reflexivity | unfold su; rewrite T1; reflexivity|].
  destruct (deriv_motion h2 (jd + dt) (along6 ideal H s k2) mo su (0 + H) (sound_ready _ _ S2)) as (h3 & k3 & -> & S3 & K3); [unfold mo; rewrite T2; reflexivity | unfold su; rewrite T2; reflexivity|].
  do 2 eexists. split; [reflexivity|]. split; [exact S3|]. rewrite mix6_ideal, K3, K2, K1, K0, !along6_ideal, K2, K1, K0. rewrite !along6_ideal, ?K1, ?K0, ?along6_ideal, ?K0. reflexivity.
Qed.

Lemma walk_rk4 dts : forall h jd s, ready h jd -> to6 (snd (walk ideal dts h jd s)) = integrate moon_at sun_at dts jd (to6 s).
Proof.
  induction dts as [|dt r IH]; intros h jd s S; [reflexivity|]. rewrite walk_1. destruct (step_rk4 h jd dt s S) as (h' & s' & -> & S' & E). cbn [fst snd integrate]. change (add ideal jd dt) with (jd + dt). rewrite IH by apply sound_ready, S'. rewrite E. reflexivity.
Qed.
