(** Place, separation, speed and shadow of a satellite as reported. *)
From Coq Require Import ZArith Reals Lra Lia Bool Psatz.
From Verif Require Import CLib ArithModel GeoLemmas GeoModel GeoSpec TimeModel TimeSpec OrbModel OrbTerms DeepModel DeepProofs1 DeepProofs7 PipeModel PipeSpec PipeTerms.
From Verif Require Import GeoProofs1 GeoProofs2 GeoProofs3 GeoProofs4 GeoProofs5 GeoProofs6 GeoExamples PipeProofs1 PipeProofs2 PipeProofs3.
Open Scope R_scope.

Section Sighting.
Context (n k : nat) (q : request ideal) (f : frame ideal) (t : dorb ideal) (h h' : cache ideal) (s : sighting ideal).
Context (J : jd_ok q) (PR : prepare ideal q = Ok f) (ST : satellite ideal n k q f t h = Ok (h', Seen ideal s)).
Let jd : R := jd_of ideal q.
Let jd2 : R := jd + IZR (rq_delta ideal q) / 86400.
Let lat : R := rq_lat ideal q.
Let lon : R := rq_lon ideal q.
Let ht : R := rq_ht ideal q.

Lemma place_seen : 0 < cos (radians lat) -> 0 <= jd2 ->
  exists pos pos2, positions n t h (minutes_at t jd) (minutes_at t jd2) pos pos2 (sg_code1 ideal s) (sg_code2 ideal s) /\
    (minus pos (site lat lon ht jd) <> (0, 0, 0) -> exists ra dec, seen_at (site lat lon ht jd) pos ra dec (sg_dist ideal s) /\
       j2000_of jd ra dec (sg_ra ideal s) (sg_dec ideal s)) /\
    (minus pos2 (site lat lon ht jd2) <> (0, 0, 0) -> exists ra dec dist, seen_at (site lat lon ht jd2) pos2 ra dec dist /\
       j2000_of jd ra dec (sg_ra1 ideal s) (sg_dec1 ideal s)) /\
    (minus (sun_at jd) pos2 <> (0, 0, 0) -> (sg_lit ideal s = true <-> ~ blocked erad pos2 (sun_at jd))).
Proof.
  intros C J2. destruct (seen_inv _ _ _ _ _ _ _ _ ST) as (pos & pos2 & ra0 & dec0 & ra2 & dec2 & dist2 & geo & P & G1 & G2 & E1 & E2 & _ & _ & _ & L & _).
  destruct (prepared q f J PR) as (O1 & O2 & _ & _ & _ & _ & _ & _ & _ & _ & SK & _).
  assert (J0 : 0 <= jd) by (destruct J as [[J0 _] _]; exact J0).
  rewrite O1, (observer_site q _ C) in G1 by (fold jd; lra). rewrite O2, (observer_site q _ C) in G2 by (fold jd jd2; lra).
  exists pos, pos2. split; [exact P|]. split; [|split].
  - intros N. exists ra0, dec0. split; [exact (topocentric _ _ _ _ _ N G1)|]. intros T D. exact (j2000_first_order _ _ _ _ _ T D E1).
  - intros N. exists ra2, dec2, dist2. split; [exact (topocentric _ _ _ _ _ N G2)|]. intros T D. exact (j2000_first_order _ _ _ _ _ T D E2).
  - intros N. rewrite L, SK. fold jd. rewrite <- (shadow_erad pos2 (sun_at jd) N).
    destruct (fst (fst (intersect_satsun_sphere ideal pos2 (sun_at jd)))); cbn [negb]; split; congruence.
Qed.

(** With -H, and the sky as the region. *)
Lemma separation_seen : rq_haversine ideal q = true -> rq_georef ideal q = false ->
  exists a a1, angle_between (dir (fr_ra ideal f) (fr_dec ideal f)) (dir (sg_ra ideal s) (sg_dec ideal s)) a /\ sg_sep ideal s = degrees a :> R /\
    angle_between (dir (fr_ra ideal f) (fr_dec ideal f)) (dir (sg_ra1 ideal s) (sg_dec1 ideal s)) a1 /\ sg_sep1 ideal s = degrees a1 :> R.
Proof.
  intros H G. destruct (seen_inv _ _ _ _ _ _ _ _ ST) as (pos & pos2 & ra0 & dec0 & ra2 & dec2 & dist2 & geo & _ & _ & _ & _ & _ & _ & _ & S & _).
  unfold separations in S. rewrite G, H in S. injection S as <- <-.
  destruct (skysep_angle (fr_ra ideal f) (fr_dec ideal f) (sg_ra ideal s) (sg_dec ideal s)) as (a & A1 & A2).
  destruct (skysep_angle (fr_ra ideal f) (fr_dec ideal f) (sg_ra1 ideal s) (sg_dec1 ideal s)) as (b & B1 & B2). exists a, b. auto.
Qed.
(** Without -H it is never reported closer than it is (declinations in range). *)
Lemma separation_flat : rq_haversine ideal q = false -> rq_georef ideal q = false ->
  - (PI / 2) <= fr_dec ideal f <= PI / 2 -> - (PI / 2) <= sg_dec ideal s <= PI / 2 ->
  forall a, angle_between (dir (fr_ra ideal f) (fr_dec ideal f)) (dir (sg_ra ideal s) (sg_dec ideal s)) a -> degrees a <= sg_sep ideal s.
Proof.
  intros H G D1 D2 a AB. destruct (seen_inv _ _ _ _ _ _ _ _ ST) as (pos & pos2 & ra0 & dec0 & ra2 & dec2 & dist2 & geo & _ & _ & _ & _ & _ & _ & _ & S & _).
  unfold separations in S. rewrite G, H in S. injection S as <- _. apply flat_sep_bounds; assumption.
Qed.
Lemma speed_seen : exists a, angle_between (dir (sg_ra ideal s) (sg_dec ideal s)) (dir (sg_ra1 ideal s) (sg_dec1 ideal s)) a /\
  sg_speed ideal s = degrees a * 60 / IZR (rq_delta ideal q) :> R.
Proof.
  destruct (seen_inv _ _ _ _ _ _ _ _ ST) as (pos & pos2 & ra0 & dec0 & ra2 & dec2 & dist2 & geo & _ & _ & _ & _ & _ & _ & _ & _ & _ & _ & S & _).
  destruct (skysep_angle (sg_ra ideal s) (sg_dec ideal s) (sg_ra1 ideal s) (sg_dec1 ideal s)) as (a & A1 & A2). exists a. split; [exact A1|].
  rewrite S. rewrite A2. reflexivity.
Qed.

(** The point below the satellite. *)
Lemma subpoint_seen : (5 <= k)%nat -> 2451545 <= jd -> (rq_geoloc ideal q || rq_single ideal q)%bool = true ->
  exists pos pos2 g, positions n t h (minutes_at t jd) (minutes_at t jd2) pos pos2 (sg_code1 ideal s) (sg_code2 ideal s) /\ sg_geo ideal s = Some g /\
    let '(x, y, z) := pos in 0 < x * x + y * y -> 81 / 100 * (erad * erad) <= x * x + y * y + z * z ->
      -180 <= pl_lon ideal g <= 180 /\ -90 < pl_lat ideal g < 90 /\
      near (2 / 1000000) (geodetic erad ecc2 (radians (pl_lon ideal g) + sidereal jd) (radians (pl_lat ideal g)) (pl_alt ideal g)) pos.
Proof.
  intros K J0 G. destruct (seen_inv _ _ _ _ _ _ _ _ ST) as (pos & pos2 & ra0 & dec0 & ra2 & dec2 & dist2 & geo & P & _ & _ & _ & _ & GE & GL & _).
  rewrite G in GL. destruct GL as (g & -> & GL). exists pos, pos2, g. split; [exact P|]. split; [symmetry; exact GE|].
  destruct (prepared q f J PR) as (_ & _ & _ & _ & G1 & [kk G2] & G3 & _). destruct pos as [[x y] z]. intros R1 R2.
  assert (G4 : 0 <= fr_gmst ideal f <= 24) by (split; [apply G3; exact J0 | lra]).
  destruct (place_right k (fr_gmst ideal f) x y z K G4 R1 R2) as (p & E & L1 & L2 & L3). rewrite E in GL. injection GL as <-.
  split; [exact L1|]. split; [exact L2|].
  replace (radians (pl_lon ideal p) + sidereal jd) with (radians (pl_lon ideal p + 15 * fr_gmst ideal f) + 2 * PI * IZR kk).
  - unfold geodetic in *. rewrite !OrbProofs4.cos_turns, !OrbProofs4.sin_turns. exact L3.
  - rewrite G2. unfold sidereal, radians. fold jd. change (num ideal) with R. field.
Qed.
End Sighting.
