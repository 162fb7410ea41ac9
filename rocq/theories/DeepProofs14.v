(** The state-vector integration from the members of tle_t to kilometres in the frame of the equator. *)
From Coq Require Import ZArith List Reals Lra Lia Psatz Bool.
From Flocq Require Import Core.
From Verif Require Import CLib ArithModel GeoLemmas OrbModel OrbSpec DeepModel DeepSpec DeepTerms TrigBounds NutProofs3 DeepProofs1 DeepProofs7 DeepProofs13 HighSpec DeepExamples.
Import ListNotations.
Open Scope R_scope.

Lemma obliquity_ok : of_obliquity (cos_obliq_2000 ideal) (sin_obliq_2000 ideal).
Proof.
  assert (P := pi_in).
  set (a := IZR 409092804222328937 / IZR (10 ^ 18)).
  assert (A : Rabs (obliquity_2000 - a) <= 2 / 10 ^ 18).
  { unfold obliquity_2000, a. change (IZR (10 ^ 18)) with 1000000000000000000. apply Rabs_le. lra. }
  assert (C := cos_box (10 ^ 30) 409092804222328937 (10 ^ 18) 8 917482062069181820000000000000 917482062069181830000000000000 ltac:(vm_compute; reflexivity)).
  assert (S := sin_box (10 ^ 30) 409092804222328937 (10 ^ 18) 8 397777155931913690000000000000 397777155931913710000000000000 ltac:(vm_compute; reflexivity)).
  fold a in C, S. assert (C1 := cos_near obliquity_2000 a). assert (S1 := sin_near obliquity_2000 a).
  assert (E30 : IZR (10 ^ 30) = 1000000000000000000000000000000) by reflexivity. rewrite E30 in C, S.
  split; unfold cos_obliq_2000, sin_obliq_2000; rewrite cst_ideal; apply Rabs_le.
  - assert (X := Rle_trans _ _ _ C1 A). apply Rabs_def2b in X || (revert X; unfold Rabs; destruct (Rcase_abs _); intros X); lra.
  - assert (X := Rle_trans _ _ _ S1 A). revert X; unfold Rabs; destruct (Rcase_abs _); intros X; lra.
Qed.
Lemma out_pos v : to3 (to_km ideal (ecliptic_to_equatorial ideal v)) = scale (1 / 1000) (to_equator (cos_obliq_2000 ideal) (sin_obliq_2000 ideal) (to3 v)).
Proof.
  destruct v as [[x y] z]. unfold ecliptic_to_equatorial, to_km, to3, to_equator, scale. rewrite int_ideal. cbn [c_x c_y c_z add sub mul div ideal num]. change (num ideal) with R in *.
  f_equal; field.
Qed.
Lemma out_vel v : to3 (to_km_min ideal (ecliptic_to_equatorial ideal v)) = scale (60 / 1000) (to_equator (cos_obliq_2000 ideal) (sin_obliq_2000 ideal) (to3 v)).
Proof.
  destruct v as [[x y] z]. unfold ecliptic_to_equatorial, to_km_min, to3, to_equator, scale. rewrite !int_ideal. cbn [c_x c_y c_z add sub mul div ideal num]. change (num ideal) with R in *.
  f_equal; field.
Qed.
Lemma start_frame o : exists c s, of_obliquity c s /\
  to6 (init_high_ephemeris ideal o) = (to_ecliptic c s (v3 (o_xincl ideal o) (o_xnodeo ideal o) (o_eo ideal o)), to_ecliptic c s (v3 (o_omegao ideal o) (o_xmo ideal o) (o_xno ideal o))).
Proof.
  exists (cos_obliq_2000 ideal), (sin_obliq_2000 ideal). split; [exact obliquity_ok|].
  unfold init_high_ephemeris, to6, equatorial_to_ecliptic, to3, to_ecliptic. cbn [fst snd c_x c_y c_z add sub mul div ideal num]. change (num ideal) with R in *.
  f_equal; f_equal; ring.
Qed.
Lemma high_frame js t epoch s : epoch <> 0 -> exists dts, Forall (signed t) dts /\ sum dts = t / 1440 /\ INR (length dts) < Rabs t / 1440 + 1
  /\ forall n, ((length dts <= n)%nat -> exists h p v c w, high_ephemeris ideal n (after_dates ideal js) t epoch s = Some (h, (p, v))
       /\ of_obliquity c w
       /\ let st := integrate moon_at sun_at dts epoch (to6 s) in
          to3 p = scale (1 / 1000) (to_equator c w (fst st)) /\ to3 v = scale (60 / 1000) (to_equator c w (snd st)))
     /\ ((n < length dts)%nat -> high_ephemeris ideal n (after_dates ideal js) t epoch s = None).
Proof.
  intros E. destruct (high_run js t epoch s E) as (dts & A1 & A2 & A3 & A4). exists dts. split; [exact A1|]. split; [exact A2|]. split; [exact A3|].
  intros n. destruct (A4 n) as [B1 B2]. split; [|exact B2]. intros L. destruct (B1 L) as (h & st & C1 & C2).
  exists h, (to_km ideal (ecliptic_to_equatorial ideal (fst st))), (to_km_min ideal (ecliptic_to_equatorial ideal (snd st))), (cos_obliq_2000 ideal), (sin_obliq_2000 ideal).
  split; [exact C1|]. split; [exact obliquity_ok|]. cbv zeta. rewrite <- C2. split; [apply out_pos | apply out_vel].
Qed.
(** A satellite 7000 km from the centre of the Earth, going at 7.5 km/s along the line of equinoxes, at the epoch itself. *)
Lemma ex_frame h epoch : exists r, high_ephemeris ideal 0 h 0 epoch ((7000000, 0, 0), (7500, 0, 0)) = Some (h, r) /\ to3 (fst r) = v3 7000 0 0 /\ to3 (snd r) = v3 450 0 0.
Proof.
  eexists. split; [apply ex_still|]. cbn [fst snd]. rewrite out_pos, out_vel. unfold to3, scale, to_equator. cbn [c_x c_y c_z]. change (num ideal) with R.
  split; f_equal; try field; ring.
Qed.
