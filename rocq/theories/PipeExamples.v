(** The frame of a request put together, and runs. *)
From Coq Require Import ZArith Reals Lra Lia Bool Psatz List.
From Verif Require Import CLib ArithModel GeoLemmas GeoModel GeoSpec TimeModel TimeSpec OrbModel OrbTerms DeepModel DeepProofs1 DeepProofs7 PipeModel PipeSpec PipeTerms.
From Verif Require Import GeoProofs1 GeoProofs2 GeoProofs3 GeoProofs4 GeoProofs5 GeoProofs6 GeoExamples OrbExamples OrbProofs8 PipeProofs1 PipeProofs2 PipeProofs3 PipeProofs4 PipeProofs5 PipeProofs6 PipeProofs7 PipeProofs8.
Import ListNotations.
Open Scope R_scope.

Lemma frame_observer (q : request ideal) f : jd_ok q -> prepare ideal q = Ok f -> 0 < cos (radians (rq_lat ideal q)) ->
  let jd := jd_of ideal q in let jd2 := jd + IZR (rq_delta ideal q) / 86400 in
  fr_obs ideal f = site (rq_lat ideal q) (rq_lon ideal q) (rq_ht ideal q) jd /\
  (0 <= jd2 -> fr_obs2 ideal f = site (rq_lat ideal q) (rq_lon ideal q) (rq_ht ideal q) jd2) /\
  0 <= fr_lmst ideal f < 24 /\ (exists k, fr_lmst ideal f = gmst_hours jd + rq_lon ideal q / 15 - 24 * IZR k :> R) /\
  -24 < fr_gmst ideal f <= 24 /\ (exists k, fr_gmst ideal f = gmst_hours jd - 24 * IZR k :> R) /\ (2451545 <= jd -> 0 <= fr_gmst ideal f).
Proof.
  intros J H C jd jd2. destruct (prepared q f J H) as (O1 & O2 & L1 & L2 & G1 & G2 & G3 & _). assert (J0 : 0 <= jd) by apply J.
  rewrite O1, (observer_site q _ C) by (fold jd; lra). split; [reflexivity|].
  split. { intros J2. rewrite O2. apply (observer_site q _ C). fold jd jd2. lra. } auto.
Qed.
Lemma frame_target (q : request ideal) f : jd_ok q -> prepare ideal q = Ok f -> let jd := jd_of ideal q in
  if (rq_georef ideal q || rq_single ideal q || negb (rq_in_region ideal q))%bool
  then 0 <= fr_ra ideal f < 2 * PI /\ dir (fr_ra ideal f) (fr_dec ideal f) = vertical (rq_lat ideal q) (rq_lon ideal q) jd /\ fr_dec ideal f = radians (rq_lat ideal q) :> R /\
       hz_alt ideal (fr_hz ideal f) = 90 :> R
  else fr_ra ideal f = radians (rq_ra ideal q) :> R /\ fr_dec ideal f = radians (rq_de ideal q) :> R.
Proof.
  intros J H jd. destruct (prepared q f J H) as (_ & _ & _ & _ & _ & _ & _ & D & _). assert (Z := zenith_horizon q f J H). unfold at_zenith in *.
  destruct (rq_georef ideal q || rq_single ideal q || negb (rq_in_region ideal q))%bool; [|exact D]. destruct (Z eq_refl) as [A _]. tauto.
Qed.
Lemma frame_sun (q : request ideal) f : jd_ok q -> prepare ideal q = Ok f -> let jd := jd_of ideal q in
  0 <= fr_sun_ra ideal f < 2 * PI /\ scale 149597870.700 (dir (fr_sun_ra ideal f) (fr_sun_dec ideal f)) = sun_at jd /\ fr_sun_km ideal f = sun_at jd /\
  exists a, angle_between (dir (fr_ra ideal f) (fr_dec ideal f)) (dir (fr_sun_ra ideal f) (fr_sun_dec ideal f)) a /\ fr_sun_sep ideal f = degrees a :> R.
Proof.
  intros J H jd. destruct (prepared q f J H) as (_ & _ & _ & _ & _ & _ & _ & _ & S1 & S2 & S3 & S4). split; [exact S2|]. split; [rewrite S1; reflexivity|]. split; [exact S3 | exact S4].
Qed.

Lemma pa_seen n k (q : request ideal) f t h h' s : satellite ideal n k q f t h = Ok (h', Seen ideal s) ->
  0 <= sg_ra ideal s < 2 * PI -> 0 <= sg_ra1 ideal s < 2 * PI -> sg_ra1 ideal s - sg_ra ideal s <= PI -> sg_dec1 ideal s <> sg_dec ideal s :> R ->
  position_angle (sg_ra ideal s) (sg_dec ideal s) (sg_ra1 ideal s) (sg_dec1 ideal s) (sg_pa ideal s).
Proof.
  intros H R1 R2 D N. destruct (seen_inv _ _ _ _ _ _ _ _ H) as (pos & pos2 & ra0 & dec0 & ra2 & dec2 & dist2 & geo & _ & _ & _ & _ & _ & _ & _ & _ & _ & -> & _).
  apply motion_angle_right; auto.
Qed.
(** With -E and -H: the distance on the Earth of the point below. *)
Lemma separation_geo n k (q : request ideal) f t h h' s : satellite ideal n k q f t h = Ok (h', Seen ideal s) ->
  rq_georef ideal q = true -> rq_haversine ideal q = true ->
  exists g a, sg_geo ideal s = Some g /\
    angle_between (dir (radians (rq_lon ideal q)) (radians (rq_lat ideal q))) (dir (radians (pl_lon ideal g)) (radians (pl_lat ideal g))) a /\
    sg_sep ideal s = degrees a :> R.
Proof.
  intros H G V. destruct (seen_inv _ _ _ _ _ _ _ _ H) as (pos & pos2 & ra0 & dec0 & ra2 & dec2 & dist2 & geo & _ & _ & _ & _ & _ & GE & _ & S & _).
  unfold separations in S. rewrite G, V in S. destruct geo as [g|]; [|discriminate]. injection S as S _.
  destruct (skysep_angle (radians (rq_lon ideal q)) (radians (rq_lat ideal q)) (radians (pl_lon ideal g)) (radians (pl_lat ideal g))) as (a & A1 & A2).
  exists g, a. split; [symmetry; exact GE|]. split; [exact A1|]. exact (eq_trans (eq_sym S) A2).
Qed.

(** The satellite of PipeProofs5 at its epoch, on 2000 March 20, 12h. *)
Definition low_now : dorb ideal := mk_dorb ideal o_low 2451624.
Lemma march_ok : jd_ok march_request.
Proof. unfold jd_ok. rewrite march_jd. split; [lra|]. cbn [march_request rq_lon]. rewrite Rabs_R0. lra. Qed.
Lemma march_cos : 0 < cos (radians (rq_lat ideal march_request)).
Proof. cbn [march_request rq_lat]. replace (radians 0) with 0 by (unfold radians; ring). rewrite cos_0. lra. Qed.
Lemma ex_frame : exists f, prepare ideal march_request = Ok f /\ norm (fr_obs ideal f) = 6378.140 /\ 0 < cos (fr_sun_dec ideal f) * cos (fr_sun_ra ideal f).
Proof.
  destruct (prepare_ok march_request march_ok) as [f F]. exists f. split; [exact F|].
  destruct (frame_observer _ _ march_ok F march_cos) as (-> & _). destruct (frame_sun _ _ march_ok F) as (_ & S & _). split.
  - cbn [march_request rq_lat rq_lon rq_ht]. unfold site, geodetic, prime_vertical. replace (radians 0) with 0 by (unfold radians; ring).
    rewrite sin_0, cos_0, !Rmult_0_r, Rminus_0_r, sqrt_1. set (t := 0 + sidereal _). unfold norm, dot.
    assert (E := sin2_cos2 t). unfold Rsqr in E.
    match goal with |- sqrt ?x = _ => replace x with (6378.140 * 6378.140 * (sin t * sin t + cos t * cos t)) by field end.
    rewrite E, Rmult_1_r. apply sqrt_square. lra.
  - rewrite march_jd in S. destruct sun_march as (sx & sy & sz & S0 & S1 & S2 & _). rewrite S0 in S. unfold scale, dir in S. assert (X := f_equal (fun v => fst (fst v)) S). cbn [fst] in X.
    change (num ideal) with R in *. lra.
Qed.
Lemma ex_seen : exists f s, prepare ideal march_request = Ok f /\ satellite ideal 0 0 march_request f low_now (cache0 ideal) = Ok (cache0 ideal, Seen ideal s) /\
  sg_code1 ideal s = 0%Z /\ sg_code2 ideal s = 0%Z /\ sg_lit ideal s = true /\ 2000 < sg_dist ideal s.
Proof.
  destruct (prepare_ok march_request march_ok) as [f F].
  assert (M1 : minutes_at low_now (jd_of ideal march_request) = 0) by (unfold minutes_at; rewrite march_jd; cbn [low_now d_epoch]; ring).
  assert (M2 : minutes_at low_now (jd_of ideal march_request + IZR (rq_delta ideal march_request) / 86400) = 1 / 60).
  { unfold minutes_at. rewrite march_jd. cbn [low_now d_epoch march_request rq_delta]. field. }
  destruct (low_where 0 ltac:(rewrite Rabs_R0; lra)) as (p & rho & ux & uy & uz & P1 & P2 & P3 & P4 & P5 & P6).
  destruct (low_where (1 / 60) ltac:(rewrite Rabs_pos_eq; lra)) as (p2 & rho2 & vx & vy & vz & Q1 & Q2 & Q3 & Q4 & Q5 & Q6).
  destruct (near_seen 0 0 march_request f low_now (cache0 ideal) p p2 eq_refl eq_refl eq_refl low_near) as [s S]; [rewrite M1; exact P1 | rewrite M2; exact Q1 |].
  exists f, s. split; [exact F|]. split; [exact S|].
  destruct (place_seen 0 0 march_request f low_now _ _ s march_ok F S march_cos) as (pos & pos2 & PO & D & _ & L).
  { rewrite march_jd. cbn [march_request rq_delta]. lra. }
  apply near_positions in PO; [|exact low_near]. destruct PO as (p' & p2' & E1 & E2 & -> & -> & E3 & E4).
  rewrite M1 in E1. cbn [low_now d_orb] in E1. rewrite P1 in E1. injection E1 as <-. rewrite M2 in E2. cbn [low_now d_orb] in E2. rewrite Q1 in E2. injection E2 as <-.
  split; [rewrite E3; exact P2|]. split; [rewrite E4; exact Q2|]. unfold OrbSpec.XKMPER in *.
  destruct low_rates as (_ & R2 & R3). assert (NR := n_low_range).
  assert (A : Rabs ((low_M + low_w) * n_low * (1 / 60) - 0) <= 1 / 100). { assert (0 <= (low_M + low_w) * n_low <= 2 * (4304 / 100000)) by (split; [apply Rmult_le_pos; lra | apply Rmult_le_compat; lra]). apply Rabs_le. lra. }
  assert (CD := Rle_trans _ _ _ (cos_diff ((low_M + low_w) * n_low * (1 / 60)) 0) A). rewrite cos_0 in CD. apply OrbProofs3.Rabs_inv in Q6, CD.
  split.
  - apply L.
    + rewrite Q3, march_jd. destruct sun_march as (sx & sy & sz & -> & S1 & S2 & _). unfold minus. intros Z. assert (X := f_equal (fun v => fst (fst v)) Z). cbn [fst] in X. assert (vx <= 1) by nra. nra.
    + rewrite Q3, march_jd. destruct sun_march as (sx & sy & sz & -> & S1 & S2 & S3 & S4).
      apply lit_side; try assumption; try lra. assert (DB := dot_bound vy vz sy sz ltac:(nra) S3 S4). apply OrbProofs3.Rabs_inv in DB. nra.
  - cbn [march_request rq_lat rq_lon rq_ht] in D. fold march_request in D. rewrite march_jd in D.
    assert (SN : exists c z, site 0 0 0 2451624 = (6378.140 * c, 6378.140 * z, 0) /\ c * c + z * z = 1).
    { exists (cos (radians 0 + sidereal 2451624)), (sin (radians 0 + sidereal 2451624)). split.
      - unfold site, geodetic, prime_vertical. replace (radians 0) with 0 by (unfold radians; ring). rewrite sin_0, cos_0, !Rmult_0_r, Rminus_0_r, sqrt_1. f_equal; f_equal; field.
      - assert (E := sin2_cos2 (radians 0 + sidereal 2451624)). unfold Rsqr in E. lra. }
    destruct SN as (c & z & SN & CZ).
    assert (FAR : 2000 * 2000 < dot (minus (pl_pos ideal p) (site 0 0 0 2451624)) (minus (pl_pos ideal p) (site 0 0 0 2451624))).
    { rewrite P3, SN. unfold minus, dot.
      assert (CS : ux * c + uy * z <= 1). { assert (Q1' := Rle_0_sqr (ux - c)). assert (Q2' := Rle_0_sqr (uy - z)). assert (Q3' := Rle_0_sqr uz). unfold Rsqr in *. lra. }
      match goal with |- _ < ?x => replace x with (rho * rho * (ux * ux + uy * uy + uz * uz) + 6378.140 * 6378.140 * (c * c + z * z) - 2 * rho * 6378.140 * (ux * c + uy * z)) by ring end.
      rewrite P4, CZ. assert (rho * (ux * c + uy * z) <= rho * 1) by (apply Rmult_le_compat_l; lra). nra. }
    destruct D as (ra & dec & (_ & _ & D0 & D1) & _).
    { intros E. rewrite E in FAR. unfold dot in FAR. lra. }
    rewrite <- D1 in FAR. assert (DD : dot (scale (sg_dist ideal s) (dir ra dec)) (scale (sg_dist ideal s) (dir ra dec)) = sg_dist ideal s * sg_dist ideal s).
    { unfold dot, scale, dir. assert (E1' := sin2_cos2 ra). assert (E2' := sin2_cos2 dec). unfold Rsqr in *.
      transitivity (sg_dist ideal s * sg_dist ideal s * (cos dec * cos dec * (sin ra * sin ra + cos ra * cos ra) + sin dec * sin dec)); [ring|]. rewrite E1'. 
      replace (cos dec * cos dec * 1 + sin dec * sin dec) with 1 by lra. ring. }
    rewrite DD in FAR. nra.
Qed.
Lemma ex_two_satellites : exists f s, prepare ideal march_request = Ok f /\
  satellites ideal 0 0 march_request f [low_now; low_now] (cache0 ideal) = Ok [Seen ideal s; Seen ideal s].
Proof.
  destruct ex_seen as (f & s & F & S & _). exists f, s. split; [exact F|]. apply each_alone; rewrite ?march_jd; cbn [march_request rq_delta]; try lra.
  - repeat constructor; cbn [low_now d_epoch]; lra.
  - repeat constructor; exists (cache0 ideal); exact S.
Qed.
