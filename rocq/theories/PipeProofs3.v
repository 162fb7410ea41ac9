(** What is reported of a satellite, in real numbers. *)
From Coq Require Import ZArith Reals Lra Lia Bool Psatz.
From Verif Require Import CLib ArithModel GeoLemmas GeoModel GeoSpec TimeModel TimeSpec OrbModel OrbTerms DeepModel DeepProofs1 DeepProofs7 PipeModel PipeSpec PipeTerms PipeProofs1.
From Verif Require Import GeoProofs1 GeoProofs2 GeoProofs3 GeoProofs4 GeoProofs5 GeoProofs6 GeoExamples.
Open Scope R_scope.

Lemma isnan_ideal x : isnan ideal x = false.
Proof. unfold isnan. cbn [eqn ideal]. unfold Reqb. destruct (Req_EM_T x x); [reflexivity | congruence]. Qed.

(** Everything that [satellite] computed. *)
Lemma seen_inv n k (q : request ideal) f t h h' s : satellite ideal n k q f t h = Ok (h', Seen ideal s) ->
  let jd := jd_of ideal q in
  exists pos pos2 ra0 dec0 ra2 dec2 dist2 geo,
    positions n t h (minutes_at t jd) (minutes_at t (jd + IZR (rq_delta ideal q) / 86400)) pos pos2 (sg_code1 ideal s) (sg_code2 ideal s) /\
    get_satellite_ra_dec_delta ideal (fr_obs ideal f) pos = (ra0, dec0, sg_dist ideal s) /\
    get_satellite_ra_dec_delta ideal (fr_obs2 ideal f) pos2 = (ra2, dec2, dist2) /\
    epoch_of_date_to_j2000 ideal jd ra0 dec0 = (sg_ra ideal s, sg_dec ideal s) /\
    epoch_of_date_to_j2000 ideal jd ra2 dec2 = (sg_ra1 ideal s, sg_dec1 ideal s) /\
    geo = sg_geo ideal s /\ (if rq_geoloc ideal q || rq_single ideal q then exists g, geo = Some g /\ sat_geoLocation ideal k (fr_gmst ideal f) pos = Ok g else geo = None) /\
    separations ideal q f geo (sg_ra ideal s) (sg_dec ideal s) (sg_ra1 ideal s) (sg_dec1 ideal s) = Ok (sg_sep ideal s, sg_sep1 ideal s) /\
    sg_lit ideal s = negb (fst (fst (intersect_satsun_sphere ideal pos2 (fr_sun_km ideal f)))) /\
    sg_pa ideal s = motion_angle ideal (sg_ra ideal s) (sg_dec ideal s) (sg_ra1 ideal s) (sg_dec1 ideal s) /\
    sg_speed ideal s = skysep_h ideal (sg_ra ideal s) (sg_dec ideal s) (sg_ra1 ideal s) (sg_dec1 ideal s) * 60 / IZR (rq_delta ideal q) :> R /\
    sg_theta ideal s = PI / 2 - sg_dec ideal s :> R.
Proof.
  intros H jd. unfold satellite in H.
  set (t1 := mul ideal (sub ideal (jd_of ideal q) (d_epoch ideal t)) (int ideal 1440)) in H.
  assert (T1 : t1 = minutes_at t jd). { unfold t1, minutes_at. rewrite int_ideal. reflexivity. }
  destruct (SxP4 ideal n t1 t (SxP4_init ideal t) h) as [[[[pr h1] code1] p]|] eqn:P1; [|discriminate]. cbn [bind] in H.
  destruct p as [pos|]; [|discriminate].
  destruct (get_satellite_ra_dec_delta ideal (fr_obs ideal f) pos) as [[ra0 dec0] dist] eqn:G1. rewrite !isnan_ideal in H. cbn [Datatypes.orb] in H.
  destruct (if rq_geoloc ideal q || rq_single ideal q then _ else _) as [geo|] eqn:G in H; [|discriminate]. cbn [bind] in H.
  destruct (epoch_of_date_to_j2000 ideal (jd_of ideal q) ra0 dec0) as [ra dec] eqn:E1.
  match type of H with context [SxP4 ideal n ?x t pr h1] => set (t2 := x) in H end.
  assert (T2 : t2 = minutes_at t (jd + IZR (rq_delta ideal q) / 86400)).
  { unfold t2. rewrite T1. unfold minutes_at, jd. change (c_real ideal (rq_delta ideal q)) with (IZR (rq_delta ideal q)). rewrite !int_ideal.
    change ((jd_of ideal q - d_epoch ideal t) * 1440 + IZR (rq_delta ideal q) * 1440 / 86400 = (jd_of ideal q + IZR (rq_delta ideal q) / 86400 - d_epoch ideal t) * 1440). change (num ideal) with R. field. }
  destruct (SxP4 ideal n t2 t pr h1) as [[[[pr2 h2] code2] p2]|] eqn:P2; [|discriminate]. cbn [bind] in H.
  set (pos2 := match p2 with Some p => p | None => pos end).
  change (match p2 with None => pos | Some p => p end) with pos2 in H.
  destruct (get_satellite_ra_dec_delta ideal (fr_obs2 ideal f) pos2) as [[ra2 dec2] dist2] eqn:G2.
  destruct (epoch_of_date_to_j2000 ideal (jd_of ideal q) ra2 dec2) as [ra1 dec1] eqn:E2.
  destruct (separations ideal q f geo ra dec ra1 dec1) as [[sep sep1]|] eqn:S; [|discriminate]. cbn [bind] in H.
  injection H as <- <-. cbn [sg_code1 sg_code2 sg_geo sg_ra sg_dec sg_dist sg_ra1 sg_dec1 sg_sep sg_sep1 sg_lit sg_pa sg_speed sg_theta].
  rewrite T1 in P1. rewrite T2 in P2.
  exists pos, pos2, ra0, dec0, ra2, dec2, dist2, geo. split. { exists pr, h1, pr2, h2, p2. auto. }
  split; [exact G1|]. split; [exact G2|]. split; [exact E1|]. split; [exact E2|]. split; [reflexivity|].
  split. { destruct (rq_geoloc ideal q || rq_single ideal q)%bool; [|injection G as <-; reflexivity].
    destruct (sat_geoLocation ideal k (fr_gmst ideal f) pos) as [g|]; [|discriminate]. injection G as <-. exists g. auto. }
  split; [exact S|]. split; [reflexivity|]. split; [reflexivity|]. split.
  - match goal with |- context [60 / 1] => replace (60 / 1) with 60 by field end. reflexivity.
  - replace (2 / 1) with 2 by field. reflexivity.
Qed.

(** With real numbers every satellite whose propagator gives positions gets coordinates. *)
Lemma always_seen n k (q : request ideal) f t h h' l : satellite ideal n k q f t h = Ok (h', l) -> exists s, l = Seen ideal s.
Proof.
  intros H. unfold satellite in H.
  destruct (SxP4 ideal n _ t (SxP4_init ideal t) h) as [[[[pr h1] code1] p]|]; [|discriminate]. cbn [bind] in H. destruct p as [pos|]; [|discriminate].
  destruct (get_satellite_ra_dec_delta ideal (fr_obs ideal f) pos) as [[ra0 dec0] dist]. rewrite !isnan_ideal in H. cbn [Datatypes.orb] in H.
  destruct (if rq_geoloc ideal q || rq_single ideal q then _ else _) as [geo|]; [|discriminate]. cbn [bind] in H.
  destruct (epoch_of_date_to_j2000 ideal (jd_of ideal q) ra0 dec0) as [ra dec].
  destruct (SxP4 ideal n _ t pr h1) as [[[[pr2 h2] code2] p2]|]; [|discriminate]. cbn [bind] in H.
  destruct (get_satellite_ra_dec_delta ideal (fr_obs2 ideal f) _) as [[ra2 dec2] dist2].
  destruct (epoch_of_date_to_j2000 ideal (jd_of ideal q) ra2 dec2) as [ra1 dec1].
  destruct (separations ideal q f geo ra dec ra1 dec1) as [[sep sep1]|]; [|discriminate]. cbn [bind] in H. injection H as _ <-. eexists. reflexivity.
Qed.

(** The near-Earth propagator: the two positions are those of the element set, whatever happened before. *)
Lemma near_positions n t h m1 m2 pos pos2 c1 c2 : select_ephemeris ideal (d_orb ideal t) = 0%Z ->
  (positions n t h m1 m2 pos pos2 c1 c2 <-> exists p p2, propagate m1 (d_orb ideal t) = Ok p /\ propagate m2 (d_orb ideal t) = Ok p2 /\
     pos = pl_pos ideal p /\ pos2 = pl_pos ideal p2 /\ c1 = pl_code ideal p /\ c2 = pl_code ideal p2).
Proof.
  intros S. unfold positions, SxP4_init. rewrite S. cbn [Z.eqb]. unfold propagate. cbn [SxP4]. split.
  - intros (pr & h1 & pr2 & h2 & p2' & E1 & E2 & ->). cbn [SxP4] in E1.
    destruct (SGP4 ideal m1 _ _) as [p|]; [|discriminate]. cbn [bind] in E1. injection E1 as <- <- <- <-. cbn [SxP4] in E2.
    destruct (SGP4 ideal m2 _ _) as [p2|]; [|discriminate]. cbn [bind] in E2. injection E2 as _ _ <- <-. exists p, p2. repeat split.
  - intros (p & p2 & E1 & E2 & -> & -> & -> & ->). rewrite E1. cbn [bind]. do 4 eexists. exists (Some (pl_pos ideal p2)). split; [reflexivity|]. cbn [SxP4]. rewrite E2. cbn [bind]. split; reflexivity.
Qed.
