(** The pull of the Moon and the Sun on a satellite in deep space (deep.c).  Nothing here but the statements. *)
From Coq Require Import ZArith Reals.
From Verif Require Import CLib ArithModel OrbModel OrbSpec DeepModel DeepExamples ThirdSpec ThirdTerms ThirdProofs8.
Open Scope R_scope.

(** C104: the secular lunar and solar drifts. *)
Theorem C104_inclined : forall t, elliptic t -> PI / 60 <= t_i t ->
  exists sun ks vs moon km vm, like_sun sun ks vs /\ like_moon (t_d t) moon km vm /\
  exists ds dm, secular_drift sun ks (t_n t) (t_e t) (t_i t) (t_w t) (t_h t) ds /\ secular_drift moon km (t_n t) (t_e t) (t_i t) (t_w t) (t_h t) dm
  /\ g_sse ideal (t_deep t) = r_e ds + r_e dm /\ g_ssi ideal (t_deep t) = r_i ds + r_i dm /\ g_ssg ideal (t_deep t) = r_w ds + r_w dm
  /\ g_ssh ideal (t_deep t) = r_h ds + r_h dm /\ g_ssl ideal (t_deep t) = r_m ds + r_m dm.
Proof. exact inclined. Qed.
Print Assumptions C104_inclined.
Theorem C104_low_inclination : forall t, elliptic t -> t_i t < PI / 60 ->
  exists sun ks vs moon km vm, like_sun sun ks vs /\ like_moon (t_d t) moon km vm /\
  exists ds dm, secular_drift sun ks (t_n t) (t_e t) (t_i t) (t_w t) (t_h t) ds /\ secular_drift moon km (t_n t) (t_e t) (t_i t) (t_w t) (t_h t) dm
  /\ g_sse ideal (t_deep t) = r_e ds + r_e dm /\ g_ssi ideal (t_deep t) = r_i ds + r_i dm
  /\ g_ssg ideal (t_deep t) = r_w ds + r_w dm + cos (t_i t) * (r_h ds + r_h dm) /\ g_ssh ideal (t_deep t) = 0 /\ g_ssl ideal (t_deep t) = r_m ds + r_m dm.
Proof. exact low. Qed.
Print Assumptions C104_low_inclination.
Example C104_example : elliptic half_set /\ w_se ideal (pass (mk_path 1 0 1 0 1 0) 1 1 0 1 (3 / 5) (PI / 2) (PI / 4) 0) = 36 / 10.
Proof. exact (conj half_elliptic ex_pass). Qed.

(** C105: the periodic lunar and solar terms. *)
Theorem C105_periodic : forall t, elliptic t ->
  exists sun ks vs moon km vm, like_sun sun ks vs /\ like_moon (t_d t) moon km vm /\
  exists xs xm, oscillation sun ks vs sun_eccentricity (t_n t) (t_e t) (t_i t) (t_w t) (t_h t) xs
  /\ oscillation moon km vm moon_eccentricity (t_n t) (t_e t) (t_i t) (t_w t) (t_h t) xm
  /\ forall tau, exists ms mm : R,
     (exists k, Rabs (ms - (sun_anomaly (t_d t + tau / 1440) + 2 * PI * IZR k)) <= / 10 ^ 3 + / 10 ^ 10 * Rabs tau)
     /\ (exists k, Rabs (mm - (moon_anomaly (t_d t + tau / 1440) + 2 * PI * IZR k)) <= / 10 ^ 3 + / 10 ^ 10 * Rabs tau)
     /\ let s := xs (true_anomaly sun_eccentricity ms) in let m := xm (true_anomaly moon_eccentricity mm) in
        perts_at ideal (t_deep t) tau = mk_perts ideal (r_e s + r_e m) (r_i s + r_i m) (r_m s + r_m m)
          ((r_w s + cos (t_i t) * r_h s) + (r_w m + cos (t_i t) * r_h m)) (sin (t_i t) * (r_h s + r_h m)).
Proof. exact periodic. Qed.
Print Assumptions C105_periodic.
Example C105_example : elliptic half_set.
Proof. exact half_elliptic. Qed.
