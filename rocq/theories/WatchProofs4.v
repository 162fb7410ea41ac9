(** The motion that sat_visibility reports. *)
From Coq Require Import ZArith Reals Lra Lia Bool Psatz.
From Verif Require Import CLib ArithModel GeoLemmas GeoModel GeoSpec TimeModel TimeSpec TimeProofs OrbModel OrbTerms DeepModel DeepProofs1 DeepProofs7.
From Verif Require Import PipeModel PipeSpec PipeTerms WatchModel WatchTerms.
From Verif Require Import GeoProofs1 GeoProofs2 GeoProofs3 GeoProofs4 GeoProofs5 GeoProofs6 GeoExamples PipeProofs1 PipeProofs2 PipeProofs3 PipeProofs4 PipeProofs8 PipeProofs9 PipeProofs10.
From Verif Require Import WatchProofs1 WatchProofs2 WatchProofs3.
Open Scope R_scope.

Section Motion.
Context (n : nat) (w : watch ideal) (t : dorb ideal) (old : option rvec) (h h' h1 : cache ideal) (jd : R) (i : instant ideal) (pa speed : R).
Context (J : date_ok w jd) (ST : instant_at ideal n w t old h jd = Ok (h', i)) (MO : get_sat_PA_and_speed ideal n w t h' jd i = Ok (h1, pa, speed)).
Let lat : R := w_lat ideal w.
Let lon : R := w_lon ideal w.
Let ht : R := w_ht ideal w.
Let jd1 : R := jd + IZR (w_delta ideal w) / 86400.

Lemma motion_inv : exists pos code ra1 dec1 dist1, position n t None h' jd1 pos code /\
  get_satellite_ra_dec_delta ideal (in_obs ideal i) pos = (ra1, dec1, dist1) /\
  pa = motion_angle ideal (in_ra ideal i) (in_dec ideal i) ra1 dec1 /\
  speed = skysep_h ideal (in_ra ideal i) (in_dec ideal i) ra1 dec1 * 60 / IZR (w_delta ideal w).
Proof.
  assert (H := MO). unfold get_sat_PA_and_speed in H.
  match type of H with context [SxP4 ideal n ?x t _ h'] => replace x with (minutes_at t jd1) in H end.
  2: { unfold minutes_at, jd1. rewrite !int_ideal. cbn [add sub mul div c_real ideal]. change (num ideal) with R. field. }
  destruct (SxP4 ideal n (minutes_at t jd1) t (SxP4_init ideal t) h') as [[[[pr h2] code] p]|] eqn:P; [|discriminate]. cbn [bind] in H.
  destruct p as [pos|]; [|discriminate]. destruct (get_satellite_ra_dec_delta ideal (in_obs ideal i) pos) as [[ra1 dec1] dist1] eqn:G.
  exists pos, code, ra1, dec1, dist1. rewrite int_ideal in H. injection H as <- <- <-.
  split. { exists pr, h2, (Some pos). auto. } split; [exact G|]. split; reflexivity.
Qed.

(** The two places between which the motion is measured. *)
Lemma motion_seen : 0 < cos (radians lat) -> exists pos code ra1 dec1 dist1, position n t None h' jd1 pos code /\
  (minus pos (site lat lon ht jd) <> (0, 0, 0) -> seen_at (site lat lon ht jd) pos ra1 dec1 dist1) /\
  (exists a, angle_between (dir (in_ra ideal i) (in_dec ideal i)) (dir ra1 dec1) a /\ speed = degrees a * 60 / IZR (w_delta ideal w)) /\
  (0 <= in_ra ideal i < 2 * PI -> 0 <= ra1 < 2 * PI -> ra1 - in_ra ideal i <= PI -> dec1 <> in_dec ideal i :> R ->
   position_angle (in_ra ideal i) (in_dec ideal i) ra1 dec1 pa).
Proof.
  intros C. destruct motion_inv as (pos & code & ra1 & dec1 & dist1 & PO & G & P & S). exists pos, code, ra1, dec1, dist1. split; [exact PO|].
  destruct (placed_at n w t old h h' jd i J ST C) as (_ & O & _). rewrite O in G. split; [intros N; exact (topocentric _ _ _ _ _ N G)|]. split.
  - destruct (skysep_angle (in_ra ideal i) (in_dec ideal i) ra1 dec1) as (a & A1 & A2). exists a. split; [exact A1|]. rewrite S.
    change (num ideal) with R in *. f_equal. f_equal. exact A2.
  - intros R1 R2 L N. rewrite P. apply motion_angle_right; [exact R1 | exact R2 | exact L | left; exact N].
Qed.
End Motion.
