(** What sat_visibility computes at one instant, in real numbers. *)
From Coq Require Import ZArith Reals Lra Lia Bool Psatz.
From Verif Require Import CLib ArithModel GeoLemmas GeoModel GeoSpec TimeModel TimeSpec TimeProofs OrbModel OrbTerms DeepModel DeepProofs1 DeepProofs7.
From Verif Require Import PipeModel PipeSpec PipeTerms WatchModel WatchTerms.
From Verif Require Import GeoProofs1 GeoProofs2 GeoProofs3 GeoProofs4 GeoProofs5 GeoProofs6 GeoExamples PipeProofs1 PipeProofs2 PipeProofs3 PipeProofs4 PipeProofs8.
Open Scope R_scope.

(** A request of sat_skymap with the same place and date. *)
Definition req (w : watch ideal) (jd : R) : request ideal :=
  mk_request ideal (w_lat ideal w) (w_lon ideal w) (w_ht ideal w) (jd - 2400000.5) (w_delta ideal w) 0 0 false true false true true.
Lemma req_jd w jd : jd_of ideal (req w jd) = jd.
Proof. rewrite jd_eq. cbn [req rq_mjd]. match goal with |- ?x = ?y => change (@eq R x y) end. lra. Qed.
Lemma req_ok w jd : date_ok w jd -> jd_ok (req w jd).
Proof. intros [J L]. unfold jd_ok. rewrite req_jd. split; assumption. Qed.
Lemma stands (w : watch ideal) jd : 0 < cos (radians (w_lat ideal w)) -> -1/2 <= jd ->
  standpoint ideal w jd = site (w_lat ideal w) (w_lon ideal w) (w_ht ideal w) jd.
Proof. intros C J. exact (observer_site (req w jd) jd C J). Qed.

Section Instant.
Context (n : nat) (w : watch ideal) (t : dorb ideal) (old : option rvec) (h h' : cache ideal) (jd : R) (i : instant ideal).
Context (J : date_ok w jd) (ST : instant_at ideal n w t old h jd = Ok (h', i)).
Let lat : R := w_lat ideal w.
Let lon : R := w_lon ideal w.
Let ht : R := w_ht ideal w.

(** Everything that was computed. *)
Lemma instant_inv : exists pr p l g,
  SxP4 ideal n (minutes_at t jd) t (SxP4_init ideal t) h = Ok (pr, h', in_code ideal i, p) /\
  match p with Some p => Some p | None => old end = Some (in_pos ideal i) /\
  lmst_hr ideal jd (w_lon ideal w) = Ok (l, g) /\ in_lmst ideal i = l /\ in_gmst ideal i = g /\ in_zra ideal i = l / (12 / PI) :> R /\
  in_obs ideal i = standpoint ideal w jd /\
  get_satellite_ra_dec_delta ideal (in_obs ideal i) (in_pos ideal i) = (in_ra ideal i, in_dec ideal i, in_dist ideal i) /\
  in_sep ideal i = skysep_h ideal (in_zra ideal i) (radians lat) (in_ra ideal i) (in_dec ideal i).
Proof.
  assert (H := ST). unfold instant_at in H. destruct (lmst_hr ideal jd (w_lon ideal w)) as [[l g]|]; [|discriminate]. cbn [bind] in H.
  match type of H with context [SxP4 ideal n ?x t _ h] => replace x with (minutes_at t jd) in H by (unfold minutes_at; rewrite int_ideal; reflexivity) end.
  destruct (SxP4 ideal n (minutes_at t jd) t (SxP4_init ideal t) h) as [[[[pr h1] code] p]|] eqn:P; [|discriminate]. cbn [bind] in H.
  destruct (match p with Some p => Some p | None => old end) as [pos|] eqn:PO in H; [|discriminate].
  destruct (get_satellite_ra_dec_delta ideal (standpoint ideal w jd) pos) as [[ra dec] dist] eqn:G.
  injection H as <- <-. cbn [in_lmst in_gmst in_zra in_code in_pos in_obs in_ra in_dec in_dist in_sep].
  exists pr, p, l, g. repeat (split; [first [reflexivity | exact P | exact PO | exact G]|]). reflexivity.
Qed.

(** The frame of sat_skymap at the same place and date. *)
Lemma framed : exists f, prepare ideal (req w jd) = Ok f /\ fr_lmst ideal f = in_lmst ideal i /\ fr_gmst ideal f = in_gmst ideal i /\ fr_ra ideal f = in_zra ideal i :> R.
Proof.
  destruct instant_inv as (pr & p & l & g & _ & _ & L & <- & <- & Z & _).
  destruct (prepare_ok (req w jd) (req_ok w jd J)) as [f F]. exists f. split; [exact F|]. unfold prepare in F. rewrite req_jd in F.
  cbn [req rq_lon] in F. rewrite L in F. cbn [bind] in F. change (at_zenith ideal _) with true in F. cbn iota in F.
  match type of F with context [dechalat2alt ideal ?a ?b ?c] => destruct (dechalat2alt ideal a b c) as [hz|]; [|discriminate] end. cbn [bind] in F.
  destruct (lpsun_radec ideal jd) as [sra sdec].
  match type of F with context [dechalat2alt ideal ?a ?b ?c] => destruct (dechalat2alt ideal a b c) as [shz|]; [|discriminate] end. cbn [bind] in F.
  destruct (sphrad2v ideal sra sdec) as [[x y] z]. injection F as <-. cbn [fr_lmst fr_gmst fr_ra]. split; [reflexivity|]. split; [reflexivity|]. symmetry. exact Z.
Qed.
Lemma times : 0 <= in_lmst ideal i < 24 /\ (exists k, in_lmst ideal i = gmst_hours jd + lon / 15 - 24 * IZR k :> R) /\
  -24 < in_gmst ideal i <= 24 /\ (exists k, in_gmst ideal i = gmst_hours jd - 24 * IZR k :> R) /\ (2451545 <= jd -> 0 <= in_gmst ideal i).
Proof.
  destruct framed as (f & F & L & G & _). destruct (prepared _ f (req_ok w jd J) F) as (_ & _ & A1 & A2 & A3 & A4 & A5 & _). rewrite req_jd in *.
  rewrite <- L, <- G. auto.
Qed.
Lemma overhead : dir (in_zra ideal i) (radians lat) = vertical lat lon jd /\ 0 <= in_zra ideal i < 2 * PI.
Proof.
  destruct framed as (f & F & _ & _ & Z). destruct (prepared _ f (req_ok w jd J) F) as (_ & _ & _ & _ & _ & _ & _ & A & _).
  change (at_zenith ideal (req w jd)) with true in A. cbn iota in A. destruct A as (A1 & A2 & A3). rewrite req_jd in A2. cbn [req rq_lat rq_lon] in A2, A3.
  unfold lat, lon. rewrite <- A2, A3, Z. split; [reflexivity|]. rewrite <- Z. exact A1.
Qed.

Lemma placed_at : 0 < cos (radians lat) ->
  position n t old h jd (in_pos ideal i) (in_code ideal i) /\ in_obs ideal i = site lat lon ht jd /\
  (minus (in_pos ideal i) (site lat lon ht jd) <> (0, 0, 0) -> seen_at (site lat lon ht jd) (in_pos ideal i) (in_ra ideal i) (in_dec ideal i) (in_dist ideal i)) /\
  exists a, angle_between (vertical lat lon jd) (dir (in_ra ideal i) (in_dec ideal i)) a /\ in_sep ideal i = degrees a :> R.
Proof.
  intros C. destruct instant_inv as (pr & p & l & g & P & PO & _ & _ & _ & _ & O & G & S). destruct J as [[J0 _] _].
  split. { exists pr, h', p. auto. }
  rewrite (stands w jd C) in O by lra. fold lat lon ht in O. split; [exact O|]. rewrite O in G. split; [intros N; exact (topocentric _ _ _ _ _ N G)|].
  destruct overhead as [OV _]. destruct (skysep_angle (in_zra ideal i) (radians lat) (in_ra ideal i) (in_dec ideal i)) as (a & A1 & A2). exists a.
  rewrite OV in A1. split; [exact A1|]. rewrite S. exact A2.
Qed.

(** The Sun. *)
Lemma sun_eq u : get_sun_data ideal w jd (in_lmst ideal i) (in_gmst ideal i) (in_zra ideal i) = Ok u ->
  exists f, prepare ideal (req w jd) = Ok f /\ fr_lmst ideal f = in_lmst ideal i /\ sd_ra ideal u = degrees (fr_sun_ra ideal f) /\ sd_dec ideal u = degrees (fr_sun_dec ideal f) /\
    sd_lon ideal u = fr_sun_lon ideal f /\ sd_hz ideal u = fr_sun_hz ideal f /\ sd_sep ideal u = fr_sun_sep ideal f /\ sd_km ideal u = fr_sun_km ideal f.
Proof.
  intros H. destruct instant_inv as (pr & p & l & g & _ & _ & L & EL & EG & EZ & _).
  destruct (prepare_ok (req w jd) (req_ok w jd J)) as [f F]. exists f. split; [exact F|]. unfold prepare in F. rewrite req_jd in F.
  cbn [req rq_lon rq_lat] in F. rewrite L in F. cbn [bind] in F. change (at_zenith ideal _) with true in F. cbn iota in F.
  match type of F with context [dechalat2alt ideal ?a ?b ?c] => destruct (dechalat2alt ideal a b c) as [hz|]; [|discriminate] end. cbn [bind] in F.
  unfold get_sun_data in H. destruct (lpsun_radec ideal jd) as [sra sdec]. rewrite EL, EG in H.
  match type of F with context [dechalat2alt ideal ?a ?b ?c] => destruct (dechalat2alt ideal a b c) as [shz|]; [|discriminate] end. cbn [bind] in F, H.
  destruct (sphrad2v ideal sra sdec) as [[x y] z]. injection F as <-. injection H as <-. cbn [sd_ra sd_dec sd_lon sd_hz sd_sep sd_km fr_lmst fr_sun_ra fr_sun_dec fr_sun_lon fr_sun_hz fr_sun_sep fr_sun_km].
  repeat (split; [first [reflexivity | symmetry; exact EL]|]). split; [|reflexivity]. rewrite EZ. reflexivity.
Qed.
End Instant.
