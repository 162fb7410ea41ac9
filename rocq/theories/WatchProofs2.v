(** Sunlight and the objects printed for an event. *)
From Coq Require Import ZArith Reals Lra Lia Bool Psatz.
From Verif Require Import CLib ArithModel GeoLemmas GeoModel GeoSpec TimeModel TimeSpec TimeProofs OrbModel OrbTerms DeepModel DeepProofs1 DeepProofs7.
From Verif Require Import PipeModel PipeSpec PipeTerms WatchModel WatchTerms.
From Verif Require PipeExamples.
From Verif Require Import GeoProofs1 GeoProofs2 GeoProofs3 GeoProofs4 GeoProofs5 GeoProofs6 GeoExamples PipeProofs1 PipeProofs2 PipeProofs3 PipeProofs4 PipeProofs8 WatchProofs1.
Open Scope R_scope.

(** With a position everything is defined. *)
Lemma instant_defined n (w : watch ideal) t old h jd pos code : date_ok w jd -> position n t old h jd pos code ->
  exists h' i, instant_at ideal n w t old h jd = Ok (h', i) /\ in_pos ideal i = pos /\ in_code ideal i = code.
Proof.
  intros [J L] (pr & h' & p & E & PO). unfold instant_at. destruct (sidereal_ideal jd (w_lon ideal w) J L) as (l & g & -> & _). cbn [bind].
  match goal with |- context [SxP4 ideal n ?x t _ h] => replace x with (minutes_at t jd) by (unfold minutes_at; rewrite int_ideal; reflexivity) end.
  rewrite E. cbn [bind]. rewrite PO. destruct (get_satellite_ra_dec_delta ideal (standpoint ideal w jd) pos) as [[ra dec] dist].
  do 2 eexists. split; [reflexivity|]. split; reflexivity.
Qed.
Lemma sun_defined (w : watch ideal) jd l g z : exists u, get_sun_data ideal w jd l g z = Ok u.
Proof.
  unfold get_sun_data. destruct (lpsun_radec ideal jd) as [ra dec]. match goal with |- context [dechalat2alt ideal ?a ?b ?c] => destruct (horizon_defined a b c) as [hz ->] end. cbn [bind].
  destruct (sphrad2v ideal ra dec) as [[x y] z']. eexists. reflexivity.
Qed.
(** Near-Earth satellites. *)
Lemma near_position n t old h jd pos code : select_ephemeris ideal (d_orb ideal t) = 0%Z ->
  (position n t old h jd pos code <-> exists p, propagate (minutes_at t jd) (d_orb ideal t) = Ok p /\ pos = pl_pos ideal p /\ code = OrbModel.pl_code ideal p).
Proof.
  intros S. unfold position, SxP4_init. rewrite S. cbn [Z.eqb SxP4]. unfold propagate. split.
  - intros (pr & h1 & p & E & PO). cbn [SxP4] in E. destruct (SGP4 ideal _ _ _) as [q|]; [|discriminate]. cbn [bind] in E. injection E as <- <- <- <-. injection PO as <-. exists q. auto.
  - intros (q & E & -> & ->). rewrite E. cbn [bind]. do 3 eexists. split; reflexivity.
Qed.

Section Event.
Context (n : nat) (w : watch ideal) (t : dorb ideal) (old : option rvec) (h h' : cache ideal) (jd : R) (i : instant ideal).
Context (J : date_ok w jd) (ST : instant_at ideal n w t old h jd = Ok (h', i)).
Let lat : R := w_lat ideal w.
Let lon : R := w_lon ideal w.
Let ht : R := w_ht ideal w.
Let place : rvec := dir (in_ra ideal i) (in_dec ideal i).

Lemma lit_then u : get_sun_data ideal w jd (in_lmst ideal i) (in_gmst ideal i) (in_zra ideal i) = Ok u ->
  minus (sun_at jd) (in_pos ideal i) <> (0, 0, 0) -> (sunlit ideal i u = true <-> ~ blocked erad (in_pos ideal i) (sun_at jd)).
Proof.
  intros U N. destruct (sun_eq n w t old h h' jd i J ST u U) as (f & F & _ & _ & _ & _ & _ & _ & K).
  destruct (prepared _ f (req_ok w jd J) F) as (_ & _ & _ & _ & _ & _ & _ & _ & _ & _ & SK & _). rewrite req_jd in SK.
  unfold sunlit. rewrite K, SK. rewrite <- (shadow_erad (in_pos ideal i) (sun_at jd) N).
  destruct (fst (fst (intersect_satsun_sphere ideal (in_pos ideal i) (sun_at jd)))); cbn [negb]; split; congruence.
Qed.

Lemma sun_there u : get_sun_data ideal w jd (in_lmst ideal i) (in_gmst ideal i) (in_zra ideal i) = Ok u ->
  let sun := dir (radians (sd_ra ideal u)) (radians (sd_dec ideal u)) in
  0 <= sd_ra ideal u < 360 /\ -90 <= sd_dec ideal u <= 90 /\ scale 149597870.700 sun = sun_at jd /\
  (exists a, angle_between (vertical lat lon jd) sun a /\ sd_sep ideal u = degrees a :> R) /\
  (2451545 <= jd -> -180 < sd_lon ideal u <= 180 /\ dir (radians (sd_lon ideal u) + sidereal jd) (radians (sd_dec ideal u)) = sun) /\
  (1 / 1000000 <= cos (radians lat) ->
    (1 / 1000000 <= Rabs (radians (sd_dec ideal u) - radians lat) -> altitude_of sun lat lon jd (hz_alt ideal (sd_hz ideal u))) /\
    (in_lmst ideal i <> sd_ra ideal u / 15 :> R -> azimuth_of sun lat lon jd (hz_az ideal (sd_hz ideal u)))).
Proof.
  intros U sun. assert (P := PI_RGT_0). destruct (sun_eq n w t old h h' jd i J ST u U) as (f & F & L & R1 & R2 & R3 & R4 & R5 & R6).
  assert (JO := req_ok w jd J). assert (RA : radians (sd_ra ideal u) = fr_sun_ra ideal f) by (rewrite R1; unfold radians, degrees; change (num ideal) with R; field; lra).
  assert (RD : radians (sd_dec ideal u) = fr_sun_dec ideal f) by (rewrite R2; unfold radians, degrees; change (num ideal) with R; field; lra).
  unfold sun. rewrite RA, RD.
  destruct (prepared _ f JO F) as (_ & _ & _ & _ & _ & _ & _ & Z & _ & SR & _). change (at_zenith ideal (req w jd)) with true in Z. cbn iota in Z.
  destruct Z as (_ & Z & _). rewrite req_jd in Z. cbn [req rq_lat rq_lon] in Z. fold lat lon in Z.
  destruct (PipeExamples.frame_sun _ f JO F) as (_ & S1 & _ & a & S3 & S4). rewrite req_jd in S1.
  split. { rewrite R1. unfold degrees. assert (0 < 180 / PI) by (apply Rdiv_lt_0_compat; lra). assert (2 * PI * (180 / PI) = 360) by (field; lra).
    change (num ideal) with R in *. split; nra. }
  split. { rewrite R2. assert (SD : - (PI / 2) <= fr_sun_dec ideal f <= PI / 2).
    { assert (H := F). unfold prepare in H. rewrite req_jd in H. destruct (lmst_hr ideal jd _) as [[l g]|]; [|discriminate]. cbn [bind] in H.
      match type of H with context [if at_zenith ideal ?q then ?a else ?b] => destruct (if at_zenith ideal q then a else b) as [[ra dec] ha] end.
      match type of H with context [dechalat2alt ideal ?a ?b ?c] => destruct (dechalat2alt ideal a b c); [|discriminate] end. cbn [bind] in H.
      unfold lpsun_radec in H. match type of H with context [dechalat2alt ideal ?a ?b ?c] => destruct (dechalat2alt ideal a b c); [|discriminate] end. cbn [bind] in H.
      destruct (sphrad2v ideal _ _) as [[? ?] ?]. injection H as <-. cbn [fr_sun_dec]. change (c_asin ideal) with asin. apply asin_bound. }
    unfold degrees. assert (0 < 180 / PI) by (apply Rdiv_lt_0_compat; lra). assert (PI / 2 * (180 / PI) = 90) by (field; lra). change (num ideal) with R in *. split; nra. }
  split; [exact S1|]. split. { exists a. rewrite Z in S3. split; [exact S3|]. rewrite R5. exact S4. }
  split.
  - intros N. rewrite R3. assert (Q := sun_below _ f JO F). rewrite req_jd in Q. exact (Q N).
  - intros C. rewrite R4. assert (Q := sun_horizon _ f JO F C). rewrite req_jd in Q. destruct Q as [Q1 Q2]. split; [exact Q1|]. intros N. apply Q2. intros E. apply N.
    rewrite <- L, E, R1. unfold degrees. change (num ideal) with R. field. lra.
Qed.

Lemma event_inv k jdp e : event_at ideal k w jd jdp i = Ok e ->
  sat_geoLocation ideal k (in_gmst ideal i) (in_pos ideal i) = Ok (ev_geo ideal e) /\
  get_sun_data ideal w jd (in_lmst ideal i) (in_gmst ideal i) (in_zra ideal i) = Ok (ev_sun ideal e) /\
  dechalat2alt ideal (in_dec ideal i) (in_lmst ideal i - in_ra ideal i * (12 / PI)) lat = Ok (ev_hz ideal e) /\
  epoch_of_date_to_j2000 ideal jdp (in_ra ideal i) (in_dec ideal i) = (ev_ra ideal e, ev_dec ideal e).
Proof.
  intros H. unfold event_at in H. destruct (sat_geoLocation ideal k _ _) as [g|]; [|discriminate]. cbn [bind] in H.
  destruct (get_sun_data ideal w jd _ _ _) as [u|]; [|discriminate]. cbn [bind] in H.
  match type of H with context [dechalat2alt ideal ?a ?b ?c] => destruct (dechalat2alt ideal a b c) as [hz|] eqn:HZ; [|discriminate] end. cbn [bind] in H.
  destruct (epoch_of_date_to_j2000 ideal jdp _ _) as [ra dec]. injection H as <-. cbn [ev_geo ev_sun ev_hz ev_ra ev_dec]. split; [reflexivity|]. split; [reflexivity|]. split; [exact HZ | reflexivity].
Qed.

Lemma event_horizon k jdp e : event_at ideal k w jd jdp i = Ok e -> 1 / 1000000 <= cos (radians lat) ->
  (1 / 1000000 <= Rabs (in_dec ideal i - radians lat) ->
     altitude_of place lat lon jd (hz_alt ideal (ev_hz ideal e)) /\ hz_alt ideal (ev_hz ideal e) = 90 - in_sep ideal i :> R) /\
  (in_lmst ideal i <> in_ra ideal i * (12 / PI) :> R -> azimuth_of place lat lon jd (hz_az ideal (ev_hz ideal e))).
Proof.
  intros H C. assert (P := PI_RGT_0). destruct (event_inv k jdp e H) as (_ & _ & S & _). destruct (times n w t old h h' jd i J ST) as (_ & [m L] & _). fold lon in L.
  destruct (turned (in_dec ideal i) (in_ra ideal i) (radians lon + sidereal jd - 2 * PI * IZR m) lat lon jd m eq_refl) as (T1 & T2 & T3).
  assert (HA : hour_angle (in_lmst ideal i - in_ra ideal i * (12 / PI)) = radians lon + sidereal jd - 2 * PI * IZR m - in_ra ideal i).
  { rewrite L. unfold hour_angle, sidereal, radians. change (num ideal) with R. field. lra. }
  split; intros N.
  - destruct (altitude _ _ _ _ S N (or_intror C)) as [B E]. rewrite HA in E. assert (AL : altitude_of place lat lon jd (hz_alt ideal (ev_hz ideal e))). { split; [exact B|]. rewrite E. exact T1. }
    split; [exact AL|]. destruct (placed_at n w t old h h' jd i J ST) as (_ & _ & _ & a & [A1 A2] & A3); [fold lat; lra|]. rewrite A3.
    destruct AL as [_ AL]. fold lat lon place in A2. set (al := hz_alt ideal (ev_hz ideal e)) in *. change (num ideal) with R in al.
    assert (D : dot place (vertical lat lon jd) = dot (vertical lat lon jd) place).
    { destruct place as [[x y] z]. destruct (vertical lat lon jd) as [[x' y'] z']. unfold dot. ring. }
    rewrite D, <- A2 in AL.
    assert (R1 : PI / 2 - radians al = a).
    { assert (RB : 0 <= PI / 2 - radians al <= PI). { unfold radians. assert (0 < PI / 180) by lra. assert (90 * (PI / 180) = PI / 2) by field. split; nra. }
      apply cos_inj; try assumption. rewrite cos_shift. exact AL. }
    rewrite <- R1. unfold degrees, radians. field. lra.
  - assert (N0 : in_lmst ideal i - in_ra ideal i * (12 / PI) <> 0) by (intros E; apply N; lra).
    destruct (azimuth _ _ _ _ S N0 C) as (B & r & R1 & R2 & R3). split; [exact B|]. exists r. split; [exact R1|].
    rewrite HA, T2 in R2. rewrite HA, T3 in R3. split; assumption.
Qed.
Lemma event_j2000 k jdp e : event_at ideal k w jd jdp i = Ok e -> j2000_of jdp (in_ra ideal i) (in_dec ideal i) (ev_ra ideal e) (ev_dec ideal e).
Proof. intros H. destruct (event_inv k jdp e H) as (_ & _ & _ & S). intros T D. exact (j2000_first_order _ _ _ _ _ T D S). Qed.
Lemma event_below k jdp e : event_at ideal k w jd jdp i = Ok e -> (5 <= k)%nat -> 2451545 <= jd ->
  let '(x, y, z) := in_pos ideal i in 0 < x * x + y * y -> 81 / 100 * (erad * erad) <= x * x + y * y + z * z ->
  let g := ev_geo ideal e in -180 <= pl_lon ideal g <= 180 /\ -90 < pl_lat ideal g < 90 /\
  near (2 / 1000000) (geodetic erad ecc2 (radians (pl_lon ideal g) + sidereal jd) (radians (pl_lat ideal g)) (pl_alt ideal g)) (in_pos ideal i).
Proof.
  intros H K J0. destruct (event_inv k jdp e H) as (GL & _). destruct (times n w t old h h' jd i J ST) as (_ & _ & G1 & [kk G2] & G3).
  revert GL. destruct (in_pos ideal i) as [[x y] z]. intros GL R1 R2 g.
  assert (G4 : 0 <= in_gmst ideal i <= 24) by (split; [apply G3; exact J0 | lra]).
  destruct (place_right k (in_gmst ideal i) x y z K G4 R1 R2) as (p & E & L1 & L2 & L3). assert (Q := eq_trans (eq_sym E) GL). injection Q as ->. fold g in L1, L2, L3.
  split; [exact L1|]. split; [exact L2|].
  replace (radians (pl_lon ideal g) + sidereal jd) with (radians (pl_lon ideal g + 15 * in_gmst ideal i) + 2 * PI * IZR kk).
  - unfold geodetic in *. rewrite !OrbProofs4.cos_turns, !OrbProofs4.sin_turns. exact L3.
  - rewrite G2. unfold sidereal, radians. change (num ideal) with R. field.
Qed.
End Event.
