(** The theorems about the lunar and solar terms. *)
From Coq Require Import ZArith Reals Lra Psatz.
From Verif Require Import CLib ArithModel GeoLemmas OrbModel OrbSpec OrbExamples DeepModel DeepProofs1 DeepProofs7 DeepProofs10 DeepExamples
  ThirdSpec ThirdTerms ThirdProofs1 ThirdProofs2 ThirdProofs3 ThirdProofs4 ThirdProofs5 ThirdProofs6 ThirdProofs7.
Open Scope R_scope.

Lemma inclined t : elliptic t -> PI / 60 <= t_i t ->
  exists sun ks vs moon km vm, like_sun sun ks vs /\ like_moon (t_d t) moon km vm /\
  exists ds dm, secular_drift sun ks (t_n t) (t_e t) (t_i t) (t_w t) (t_h t) ds /\ secular_drift moon km (t_n t) (t_e t) (t_i t) (t_w t) (t_h t) dm
  /\ g_sse ideal (t_deep t) = r_e ds + r_e dm /\ g_ssi ideal (t_deep t) = r_i ds + r_i dm /\ g_ssg ideal (t_deep t) = r_w ds + r_w dm
  /\ g_ssh ideal (t_deep t) = r_h ds + r_h dm /\ g_ssl ideal (t_deep t) = r_m ds + r_m dm.
Proof.
  intros (E & I & X & N & A & D) L. assert (S : sin (t_i t) <> 0) by (apply Rgt_not_eq, sin_gt_0; lra).
  exists sun_path, k_sun, v_sun, (moon_path (t_d t)), k_moon, v_moon. split; [exact sun_like|]. split; [exact (moon_like _ D)|].
  destruct (drifts t E N S) as [P Q]. eexists _, _. split; [exact P|]. split; [exact Q|]. exact (secular_inclined t E X N A S L).
Qed.
Lemma low t : elliptic t -> t_i t < PI / 60 ->
  exists sun ks vs moon km vm, like_sun sun ks vs /\ like_moon (t_d t) moon km vm /\
  exists ds dm, secular_drift sun ks (t_n t) (t_e t) (t_i t) (t_w t) (t_h t) ds /\ secular_drift moon km (t_n t) (t_e t) (t_i t) (t_w t) (t_h t) dm
  /\ g_sse ideal (t_deep t) = r_e ds + r_e dm /\ g_ssi ideal (t_deep t) = r_i ds + r_i dm
  /\ g_ssg ideal (t_deep t) = r_w ds + r_w dm + cos (t_i t) * (r_h ds + r_h dm) /\ g_ssh ideal (t_deep t) = 0 /\ g_ssl ideal (t_deep t) = r_m ds + r_m dm.
Proof.
  intros (E & I & X & N & A & D) L. assert (S : sin (t_i t) <> 0) by (apply Rgt_not_eq, sin_gt_0; lra).
  exists sun_path, k_sun, v_sun, (moon_path (t_d t)), k_moon, v_moon. split; [exact sun_like|]. split; [exact (moon_like _ D)|].
  destruct (drifts t E N S) as [P Q]. eexists _, _. split; [exact P|]. split; [exact Q|]. exact (secular_low t E X N A S L).
Qed.
Lemma periodic t : elliptic t ->
  exists sun ks vs moon km vm, like_sun sun ks vs /\ like_moon (t_d t) moon km vm /\
  exists xs xm, oscillation sun ks vs sun_eccentricity (t_n t) (t_e t) (t_i t) (t_w t) (t_h t) xs
  /\ oscillation moon km vm moon_eccentricity (t_n t) (t_e t) (t_i t) (t_w t) (t_h t) xm
  /\ forall tau, exists ms mm : R,
     (exists k, Rabs (ms - (sun_anomaly (t_d t + tau / 1440) + 2 * PI * IZR k)) <= / 10 ^ 3 + / 10 ^ 10 * Rabs tau)
     /\ (exists k, Rabs (mm - (moon_anomaly (t_d t + tau / 1440) + 2 * PI * IZR k)) <= / 10 ^ 3 + / 10 ^ 10 * Rabs tau)
     /\ let s := xs (true_anomaly sun_eccentricity ms) in let m := xm (true_anomaly moon_eccentricity mm) in
        perts_at ideal (t_deep t) tau = mk_perts ideal (r_e s + r_e m) (r_i s + r_i m) (r_m s + r_m m)
          ((r_w s + cos (t_i t) * r_h s) + (r_w m + cos (t_i t) * r_h m)) (sin (t_i t) * (r_h s + r_h m)).
Proof.
  intros (E & I & X & N & A & D). assert (S : sin (t_i t) <> 0) by (apply Rgt_not_eq, sin_gt_0; lra).
  exists sun_path, k_sun, v_sun, (moon_path (t_d t)), k_moon, v_moon. split; [exact sun_like|]. split; [exact (moon_like _ D)|].
  destruct (swings t E N S) as [P Q]. eexists _, _. split; [exact P|]. split; [exact Q|].
  intros tau. destruct (phases t E X A S D tau) as [F G]. eexists _, _. split; [exact F|]. split; [exact G|].
  exact (perts_are t E X A S tau).
Qed.

(** ** Concrete cases *)
Lemma half_elliptic : elliptic half_set.
Proof.
  unfold elliptic, t_n, t_d, t_e, t_i, half_set, set_of. cbn [d_orb d_epoch o_xincl o_eo o_xno]. rewrite set_n, set_a by lra. assert (P := set_pos 4.2 ltac:(lra)).
  assert (Q := PI_RGT_0). split; [lra|]. split.
  - unfold i_third. apply acos_bound_lt. assert (0 < sqrt (1 / 3)) by (apply sqrt_lt_R0; lra). assert (sqrt (1 / 3) < 1) by (apply Rlt_le_trans with (sqrt 1); [apply sqrt_lt_1; lra|rewrite sqrt_1; lra]). lra.
  - repeat split; try lra. apply Rabs_le. lra.
Qed.
(** A polar orbit with its perigee halfway up, seen from a body that goes round in the plane of the equator. *)
Lemma ex_pass : w_se ideal (pass (mk_path 1 0 1 0 1 0) 1 1 0 1 (3 / 5) (PI / 2) (PI / 4) 0) = 36 / 10.
Proof.
  destruct (pass_rates (mk_path 1 0 1 0 1 0) 1 1 0 1 (3 / 5) (PI / 2) (PI / 4) 0) as (E & _); [lra|lra|rewrite sin_PI2; lra|].
  rewrite E. unfold drift2, half_sum. rewrite !drift_of_pqc. unfold drift_pqc. cbn [r_e]. unfold P, Q, unit1, unit2, toward_p, toward_q, pericentre, quadrature, inner. cbn [p_cw p_sw p_ci p_si p_ch p_sh].
  rewrite cos_0, sin_0, cos_PI2, sin_PI2, cos_PI4, sin_PI4.
  replace (sqrt (1 - 3 / 5 * (3 / 5))) with (4 / 5) by (symmetry; apply sqrt_lem_1; lra).
  assert (Q : 1 / sqrt 2 * (1 / sqrt 2) = 1 / 2). { assert (S := sqrt_sqrt 2 ltac:(lra)). assert (0 < sqrt 2) by (apply sqrt_lt_R0; lra). replace (1 / sqrt 2 * (1 / sqrt 2)) with (1 / (sqrt 2 * sqrt 2)) by (field; lra). rewrite S. reflexivity. }
  set (q := 1 / sqrt 2) in *. clearbody q. field_simplify. replace (q ^ 2) with (1 / 2) by (rewrite <- Q; ring). lra.
Qed.
