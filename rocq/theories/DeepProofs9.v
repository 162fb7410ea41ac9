(** The positions of the Moon and the Sun against Meeus. *)
From Coq Require Import ZArith List Reals Lra Lia Psatz Bool.
From Flocq Require Import Core.
From Verif Require Import CLib ArithModel GeoLemmas OrbModel OrbSpec DeepModel DeepSpec DeepTerms DeepProofs8.
Open Scope R_scope.

Lemma close jd : let T := (jd - 2451545) / 36525 in
  exists lon d, moon_at jd = polar lon (moon_lat T) d /\ sun_at jd = polar (sun_lon T) 0 (sun_dist T)
    /\ Rabs (lon - moon_lon T) <= deg (/ 20000) /\ Rabs (d - moon_dist T) <= 1139850.
Proof.
  intros T. exists (code_lon jd), (code_dist jd). destruct (moon_polar jd) as [M _]. destruct (sun_polar jd) as [S _]. split; [exact M|]. split; [exact S|]. split.
  - unfold code_lon, moon_lon, deg. fold T. assert (P := PI_RGT_0). assert (B := SIN_bound (moon_M T)). set (s := sin (moon_M T)) in *.
    match goal with |- Rabs ?x <= _ => replace x with (- (PI / 3600000) * s) by (unfold deg; lra) end.
    rewrite Rabs_mult, Rabs_Ropp, (Rabs_pos_eq (PI / 3600000)) by lra. assert (Rabs s <= 1) by (apply Rabs_le; exact B). assert (Q := Rabs_pos s). nra.
  - unfold code_dist, moon_dist. fold T. assert (B1 := COS_bound (2 * moon_M T)). assert (B2 := COS_bound (2 * moon_M' T)). apply Rabs_le. lra.
Qed.
Lemma cos_small y : 0 <= y <= 1 / 10 -> 99 / 100 <= cos y.
Proof.
  intros B. replace y with (2 * (y / 2)) by field. rewrite cos_2a_sin.
  assert (S : 0 <= sin (y / 2) <= y / 2).
  { assert (P := pi_bounds). split; [apply sin_ge_0; lra|]. destruct (Req_dec y 0) as [->|N]; [replace (0 / 2) with 0 by field; rewrite sin_0; lra|]. left. apply sin_lt_x. lra. }
  nra.
Qed.
(** A date (January 2005) at which the mean anomaly of the Sun is 6 turns. *)
Definition T2005 : R := (360 * 6 - 357.5291092) / 35999.0502909.
Lemma far_dist : exists jd, 1100000 < Rabs (norm (moon_at jd) - moon_dist ((jd - 2451545) / 36525)).
Proof.
  set (jd := 2451545 + 36525 * T2005). exists jd. destruct (moon_polar jd) as [M _]. rewrite M, norm_polar by (assert (X := code_dist_pos jd); lra).
  assert (ET : (jd - 2451545) / 36525 = T2005) by (unfold jd; field). unfold code_dist. rewrite ET. unfold moon_dist.
  assert (P := pi_bounds).
  assert (C1 : cos (2 * moon_M T2005) = 1).
  { assert (E1 : 357.5291092 + 35999.0502909 * T2005 = 2160) by (unfold T2005; lra).
    replace (2 * moon_M T2005) with (0 + 2 * INR 12 * PI) by (unfold moon_M, deg; rewrite E1; replace (INR 12) with 12 by (rewrite INR_IZR_INZ; reflexivity); lra). rewrite cos_period. apply cos_0. }
  set (x := 2 * (134.9633964 + 477198.8675055 * T2005) - 360 * 133).
  assert (X : 176 <= x <= 177) by (unfold x, T2005; lra).
  assert (C2 : cos (2 * moon_M' T2005) <= - (99 / 100)).
  { replace (2 * moon_M' T2005) with (deg x + 2 * INR 133 * PI) by (unfold moon_M', deg, x; replace (INR 133) with 133 by (rewrite INR_IZR_INZ; reflexivity); lra). rewrite cos_period.
    replace (deg x) with (PI - deg (180 - x)) by (unfold deg; lra). rewrite Rtrigo_facts.cos_pi_minus. apply Ropp_le_contravar. apply cos_small. unfold deg. nra. }
  rewrite C1. match goal with |- _ < Rabs ?e => replace e with (569925 * (cos (2 * moon_M' T2005) - 1)) by ring end. rewrite Rabs_left by lra. lra.
Qed.
