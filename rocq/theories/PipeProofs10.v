(** The zenith of date against J2000 coordinates. *)
From Coq Require Import ZArith Reals Lra Lia Bool Psatz List.
From Verif Require Import CLib ArithModel GeoLemmas GeoModel GeoSpec TimeModel TimeSpec OrbModel OrbTerms DeepModel DeepProofs1 DeepProofs7 PipeModel PipeSpec PipeTerms.
From Verif Require Import GeoProofs1 GeoProofs2 GeoProofs3 GeoProofs4 GeoProofs5 GeoProofs6 GeoExamples PipeProofs1 PipeProofs2 PipeProofs3 PipeProofs4 PipeProofs6 PipeProofs9.
Open Scope R_scope.

Lemma principal x : exists t, - PI < t <= PI /\ cos t = cos x /\ sin t = sin x.
Proof.
  assert (S := sin2_cos2 x). unfold Rsqr in S. assert (N : cos x * cos x + sin x * sin x <> 0) by lra.
  destruct (Ratan2_polar _ _ N) as [E1 E2]. replace (cos x * cos x + sin x * sin x) with 1 in E1, E2 by lra. rewrite sqrt_1, Rmult_1_l in E1, E2.
  exists (Ratan2 (sin x) (cos x)). split; [apply Ratan2_range|]. split; congruence.
Qed.

Definition zenith_request (lon : R) : request ideal := mk_request ideal 0 lon 0 61041 1 0 0 false false false false true.
Lemma zenith_jd lon : jd_of ideal (zenith_request lon) = 2461041.5 :> R.
Proof. rewrite jd_eq. cbn [zenith_request rq_mjd]. lra. Qed.

Lemma zenith_wrong : exists (q : request ideal) f t n k s p dist, at_zenith ideal q = true /\ rq_haversine ideal q = true /\ prepare ideal q = Ok f /\
  select_ephemeris ideal (d_orb ideal t) = 0%Z /\ satellite ideal n k q f t (cache0 ideal) = Ok (cache0 ideal, Seen ideal s) /\
  propagate (minutes_at t (jd_of ideal q)) (d_orb ideal t) = Ok p /\ sg_code1 ideal s = 0%Z /\ sg_code2 ideal s = 0%Z /\
  0 < dist /\ minus (pl_pos ideal p) (site (rq_lat ideal q) (rq_lon ideal q) (rq_ht ideal q) (jd_of ideal q)) = scale dist (vertical (rq_lat ideal q) (rq_lon ideal q) (jd_of ideal q)) /\
  33 / 100 < sg_sep ideal s.
Proof.
  assert (P := pi_bounds). set (jd := 2461041.5).
  destruct (flat_where 0) as (p & rho & phi & P1 & P2 & P3 & P4).
  destruct (flat_where (1 / 60)) as (p2 & rho2 & phi2 & Q1 & Q2 & _).
  destruct (principal (phi - sidereal jd)) as (th & T1 & T2 & T3).
  set (lon := degrees th). assert (RL : radians lon = th) by (unfold lon, radians, degrees; field; lra).
  assert (LB : Rabs lon <= 180). { unfold lon, degrees. apply Rabs_le. assert (0 < 180 / PI) by (apply Rdiv_lt_0_compat; lra).
    assert (PI * (180 / PI) = 180) by (field; lra). split; nra. }
  set (q := zenith_request lon). assert (J := zenith_jd lon). fold q jd in J.
  assert (JO : jd_ok q). { unfold jd_ok. rewrite J. unfold jd. split; [lra|]. cbn [q zenith_request rq_lon]. lra. }
  destruct (prepare_ok q JO) as [f F]. set (t := mk_dorb ideal o_flat jd).
  assert (M1 : minutes_at t (jd_of ideal q) = 0) by (unfold minutes_at; rewrite J; cbn [t d_epoch]; ring).
  assert (M2 : minutes_at t (jd_of ideal q + IZR (rq_delta ideal q) / 86400) = 1 / 60).
  { unfold minutes_at. rewrite J. cbn [t d_epoch q zenith_request rq_delta]. field. }
  destruct (near_seen 0 0 q f t (cache0 ideal) p p2 eq_refl eq_refl eq_refl flat_near) as [s S]; [rewrite M1; exact P1 | rewrite M2; exact Q1 |].
  exists q, f, t, 0%nat, 0%nat, s, p, (rho - 6378.140).
  destruct (seen_inv _ _ _ _ _ _ _ _ S) as (pos & pos2 & ra0 & dec0 & ra2 & dec2 & dist2 & geo & PO & G1 & _ & E1 & _ & _ & _ & SE & _).
  apply near_positions in PO; [|exact flat_near]. destruct PO as (p' & p2' & A1 & A2 & -> & -> & A3 & A4).
  rewrite M1 in A1. cbn [t d_orb] in A1. rewrite P1 in A1. injection A1 as <-. rewrite M2 in A2. cbn [t d_orb] in A2. rewrite Q1 in A2. injection A2 as <-.
  assert (C0 : radians 0 = 0) by (unfold radians; ring).
  assert (TC : cos (radians lon + sidereal jd) = cos phi).
  { rewrite RL, cos_plus, T2, T3, <- cos_plus. f_equal. ring. }
  assert (TS : sin (radians lon + sidereal jd) = sin phi).
  { rewrite RL, sin_plus, T2, T3, <- sin_plus. f_equal. ring. }
  assert (V : vertical 0 lon jd = (cos phi, sin phi, 0)). { unfold vertical, dir. rewrite C0, cos_0, sin_0, TC, TS. f_equal; f_equal; ring. }
  assert (SI : site 0 lon 0 jd = (6378.140 * cos phi, 6378.140 * sin phi, 0)).
  { unfold site, geodetic, prime_vertical. rewrite C0, sin_0, cos_0, TC, TS. rewrite !Rmult_0_r, Rminus_0_r, sqrt_1. f_equal; f_equal; field. }
  assert (MM : minus (pl_pos ideal p) (site 0 lon 0 jd) = scale (rho - 6378.140) (cos phi, sin phi, 0)).
  { etransitivity; [apply (f_equal (fun v => minus v (site 0 lon 0 jd)) P4)|]. rewrite SI. unfold minus, scale. f_equal; [f_equal|]; ring. }
  split; [reflexivity|]. split; [reflexivity|]. split; [exact F|]. split; [exact flat_near|]. split; [exact S|]. rewrite M1. split; [exact P1|].
  split; [rewrite A3; exact P2|]. split; [rewrite A4; exact Q2|]. split; [lra|].
  split. { cbn [q zenith_request rq_lat rq_lon rq_ht]. fold q. rewrite J, V. exact MM. }
  destruct (prepared q f JO F) as (O1 & _ & _ & _ & _ & _ & _ & Z & _). change (at_zenith ideal q) with true in Z. destruct Z as (_ & Z & _).
  cbn [q zenith_request rq_lat rq_lon] in Z. fold q in Z. rewrite J, V in Z.
  rewrite O1, (observer_site q) in G1; [| cbn [q zenith_request rq_lat]; rewrite C0, cos_0; lra | rewrite J; unfold jd; lra].
  cbn [q zenith_request rq_lat rq_lon rq_ht] in G1. fold q in G1. rewrite J in G1.
  assert (SC := sin2_cos2 phi). unfold Rsqr in SC.
  assert (N : minus (pl_pos ideal p) (site 0 lon 0 jd) <> (0, 0, 0)).
  { rewrite MM. unfold scale. intros E. assert (X := f_equal (fun v => fst (fst v)) E). assert (Y := f_equal (fun v => snd (fst v)) E). cbn [fst snd] in X, Y.
    apply Rmult_integral in X. apply Rmult_integral in Y. destruct X as [X|X]; [lra|]. destruct Y as [Y|Y]; [lra|]. rewrite X, Y in SC. lra. }
  destruct (topocentric _ _ _ _ _ N G1) as (B1 & B2 & B3 & B4). rewrite MM in B4. set (d := sg_dist ideal s) in *. change (num ideal) with R in d.
  unfold scale, dir in B4. assert (X := f_equal (fun v => fst (fst v)) B4). assert (Y := f_equal (fun v => snd (fst v)) B4). assert (W := f_equal snd B4). cbn [fst snd] in X, Y, W. clear B4.
  assert (D0 : dec0 = 0).
  { rewrite Rmult_0_r in W. apply Rmult_integral in W. destruct W as [W|W]; [lra|]. destruct (Rtotal_order dec0 0) as [L|[L|L]]; [|exact L|].
    - assert (sin dec0 < 0) by (apply sin_lt_0_var; lra). lra.
    - assert (0 < sin dec0) by (apply sin_gt_0; lra). lra. }
  rewrite D0, cos_0, !Rmult_1_l in X, Y.
  assert (DD : d = rho - 6378.140).
  { assert (R0 := sin2_cos2 ra0). unfold Rsqr in R0.
    assert (Q : d * d = (rho - 6378.140) * (rho - 6378.140)).
    { replace (d * d) with (d * cos ra0 * (d * cos ra0) + d * sin ra0 * (d * sin ra0)) by (transitivity (d * d * (sin ra0 * sin ra0 + cos ra0 * cos ra0)); [ring | rewrite R0; ring]).
      rewrite X, Y. transitivity ((rho - 6378.140) * (rho - 6378.140) * (sin phi * sin phi + cos phi * cos phi)); [ring | rewrite SC; ring]. }
    nra. }
  rewrite DD in X, Y. apply Rmult_eq_reg_l in X; [|lra]. apply Rmult_eq_reg_l in Y; [|lra].
  rewrite J, D0 in E1. destruct (j2000_shift _ _ _ _ _ E1) as [E2 _].
  unfold separations in SE. cbn [q zenith_request rq_georef rq_haversine] in SE. injection SE as SE _.
  destruct (skysep_angle (fr_ra ideal f) (fr_dec ideal f) (sg_ra ideal s) (sg_dec ideal s)) as (a & [AR AC] & AD).
  assert (SA : sg_sep ideal s = degrees a :> R) by exact (eq_trans (eq_sym SE) AD). change (num ideal) with R in *. rewrite SA. rewrite Z, E2 in AC. unfold dot, dir in AC.
  set (sh := ra_shift jd ra0 0) in *. set (de := 0 - dec_shift jd ra0) in *. rewrite <- X, <- Y in AC.
  assert (AC' : cos a = cos de * cos sh).
  { rewrite AC. rewrite cos_minus, sin_minus. assert (R0 := sin2_cos2 ra0). unfold Rsqr in R0. transitivity (cos de * cos sh * (sin ra0 * sin ra0 + cos ra0 * cos ra0)); [ring | rewrite R0; ring]. }
  assert (SH : sh = 26 * radians (15 * (3.07496 + 0.00186 * 0.13) / 3600)).
  { unfold sh, ra_shift, precession_m. replace (centuries jd) with 0.26 by (unfold centuries, jd; lra). rewrite tan_0. rewrite Rmult_0_r, Rplus_0_r. unfold radians. lra. }
  assert (SR : 333 / 1000 * (PI / 180) < sh < 1). { rewrite SH. unfold radians. split; lra. }
  assert (CS : 0 < cos sh) by (apply cos_gt_0; lra).
  assert (LE : cos a <= cos sh). { rewrite AC'. assert (CB := COS_bound de). nra. }
  assert (GE : sh <= a). { apply cos_decr_0; lra. }
  unfold degrees. apply Rlt_le_trans with (sh * (180 / PI)).
  - apply Rlt_le_trans with (333 / 1000 * (PI / 180) * (180 / PI)); [replace (333 / 1000 * (PI / 180) * (180 / PI)) with (333 / 1000) by (field; lra); lra|].
    apply Rmult_le_compat_r; [apply Rlt_le, Rdiv_lt_0_compat; lra | lra].
  - apply Rmult_le_compat_r; [apply Rlt_le, Rdiv_lt_0_compat; lra | lra].
Qed.
