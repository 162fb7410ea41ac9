(** The lunar and solar terms of a satellite. *)
From Coq Require Import ZArith Reals Lra Psatz.
From Verif Require Import CLib ArithModel GeoLemmas OrbModel OrbSpec DeepModel DeepProofs1 DeepProofs7 DeepProofs10 ThirdSpec ThirdTerms ThirdProofs1 ThirdProofs2 ThirdProofs4 ThirdProofs5 ThirdProofs6.
Open Scope R_scope.

Definition cc_sun : R := 29864797 / 10000000000000.
Definition cc_moon : R := 47968065 / 100000000000000.
Section Satellite.
Context (t : dorb ideal).
Let o := d_orb ideal t.
Let e : R := o_eo ideal o.
Let i : R := o_xincl ideal o.
Let w : R := o_omegao ideal o.
Let h : R := o_xnodeo ideal o.
Let n : R := n0'' i e (o_xno ideal o).
Let d : R := d_epoch ideal t - 2415020.
Let g := Deep_dpinit ideal t (sxpx_common_init ideal o).
Context (He : 0 < e < 1) (Hx : 0 < o_xno ideal o) (Hn : 0 < n) (Ha : 0 < a0'' i e (o_xno ideal o)) (Hi : sin i <> 0).
Definition sun_pass : rates ideal := pass sun_path v_sun cc_sun sun_eccentricity n e i w h.
Definition moon_pass : rates ideal := pass (moon_path d) v_moon cc_moon moon_eccentricity n e i w h.
Lemma fields : g_sse ideal g = w_se ideal sun_pass + w_se ideal moon_pass /\ g_ssi ideal g = w_si ideal sun_pass + w_si ideal moon_pass
  /\ g_ssl ideal g = w_sl ideal sun_pass + w_sl ideal moon_pass
  /\ g_ssg ideal g = w_sgh ideal sun_pass - cos i * (w_sh ideal sun_pass / sin i) + w_sgh ideal moon_pass - w_sh ideal moon_pass * cos i / sin i
  /\ g_ssh ideal g = w_sh ideal sun_pass / sin i + w_sh ideal moon_pass / sin i
  /\ g_sun ideal g = w_amps ideal sun_pass /\ g_moon ideal g = w_amps ideal moon_pass
  /\ g_zmos ideal g = b_zmos ideal (lunar_orbit ideal d) /\ g_zmol ideal g = b_zmol ideal (lunar_orbit ideal d).
Proof.
  assert (B2 : i_betao2 ideal (k_start ideal (sxpx_common_init ideal o)) = 1 - e * e :> R).
  { unfold o. rewrite start_is. unfold sxpall_common_init. cbv zeta. cbn [i_betao2]. rewrite int_ideal. reflexivity. }
  assert (B1 : i_betao ideal (k_start ideal (sxpx_common_init ideal o)) = sqrt (1 - e * e) :> R).
  { rewrite <- B2. unfold o. rewrite start_is. reflexivity. }
  assert (NN : i_xnodp ideal (k_start ideal (sxpx_common_init ideal o)) = n :> R) by (apply n_is; [fold o e; lra|exact Hx|exact Ha]).
  unfold g, Deep_dpinit. cbv zeta. cbn [g_sse g_ssi g_ssl g_ssg g_ssh g_sun g_moon g_zmos g_zmol].
  assert (ED : sub ideal (d_epoch ideal t) (int ideal 2415020) = d) by (unfold d; rewrite int_ideal; reflexivity).
  assert (NZ : negb (eqn ideal (sin i) (int ideal 0)) = true).
  { rewrite int_ideal. cbn [eqn ideal]. unfold Reqb. destruct (Req_EM_T (sin i) 0) as [X|X]; [contradiction|reflexivity]. }
  pose proof (sinio_is t) as SI. pose proof (cosio_is t) as CI. pose proof (eosq_is t) as EI. fold o in SI, CI, EI. fold e in EI. fold i in SI, CI.
  unfold secular. cbv zeta. fold o. rewrite SI, CI, EI, B1, B2, NN. fold e i. rewrite NZ. cbv iota.
  cbn [g_sse g_ssi g_ssl g_ssg g_ssh g_sun g_moon g_zmos g_zmol]. rewrite ED.
  set (S1 := third_body ideal e _ _ _ _ _ _ _ _ _ (cst ideal _ _) _ _ _ _ _ _ _ _).
  set (M1 := third_body ideal e _ _ _ _ _ _ _ _ _ (b_cosg ideal _) _ _ _ _ _ _ _ _).
  assert (ES : S1 = sun_pass).
  { unfold S1, sun_pass, pass. cbn [p_cw p_sw p_ci p_si p_ch p_sh sun_path].
    replace (1 * cos h + 0 * sin h) with (cos h) by ring. replace (sin h * 1 - cos h * 0) with (sin h) by ring. reflexivity. }
  assert (EM : M1 = moon_pass).
  { unfold M1, moon_pass, pass, moon_path. cbv zeta. cbn [p_cw p_sw p_ci p_si p_ch p_sh]. reflexivity. }
  rewrite ES, EM. clear S1 M1 ES EM. repeat split; reflexivity.
Qed.
Context (Hd : Rabs d <= 10 ^ 5).
Let ds := drift2 sun_path k_sun n e i w h.
Let dm := drift2 (moon_path d) k_moon n e i w h.
Lemma k_sun_eq : k_sun = 4 * cc_sun * v_sun.
Proof. reflexivity. Qed.
Lemma k_moon_eq : k_moon = 4 * cc_moon * v_moon.
Proof. reflexivity. Qed.
Lemma drifts : secular_drift sun_path k_sun n e i w h ds /\ secular_drift (moon_path d) k_moon n e i w h dm.
Proof. split; eexists; (split; [apply raised_quad2|apply lagrange_quad2; [lra|assumption..]]). Qed.
Lemma pass_s : w_se ideal sun_pass = r_e ds /\ w_si ideal sun_pass = r_i ds /\ w_sl ideal sun_pass = r_m ds /\ w_sgh ideal sun_pass = r_w ds + cos i * r_h ds.
Proof. apply pass_rates; [lra|assumption..]. Qed.
Lemma pass_m : w_se ideal moon_pass = r_e dm /\ w_si ideal moon_pass = r_i dm /\ w_sl ideal moon_pass = r_m dm /\ w_sgh ideal moon_pass = r_w dm + cos i * r_h dm.
Proof. apply pass_rates; [lra|assumption..]. Qed.
Lemma secular_inclined : PI / 60 <= i ->
  g_sse ideal g = r_e ds + r_e dm /\ g_ssi ideal g = r_i ds + r_i dm /\ g_ssg ideal g = r_w ds + r_w dm /\ g_ssh ideal g = r_h ds + r_h dm /\ g_ssl ideal g = r_m ds + r_m dm.
Proof.
  intros I. destruct fields as (F1 & F2 & F3 & F4 & F5 & _). destruct pass_s as (A1 & A2 & A3 & A4). destruct pass_m as (B1 & B2 & B3 & B4).
  assert (A5 : w_sh ideal sun_pass = sin i * r_h ds) by (apply pass_node; [lra|assumption..]).
  assert (B5 : w_sh ideal moon_pass = sin i * r_h dm) by (apply pass_node; [lra|assumption..]).
  rewrite F1, F2, F3, F4, F5, A1, A2, A3, A4, A5, B1, B2, B3, B4, B5. change (num ideal) with R. repeat split; try reflexivity; field; exact Hi.
Qed.
Lemma secular_low : i < PI / 60 ->
  g_sse ideal g = r_e ds + r_e dm /\ g_ssi ideal g = r_i ds + r_i dm /\ g_ssg ideal g = r_w ds + r_w dm + cos i * (r_h ds + r_h dm) /\ g_ssh ideal g = 0 /\ g_ssl ideal g = r_m ds + r_m dm.
Proof.
  intros I. destruct fields as (F1 & F2 & F3 & F4 & F5 & _). destruct pass_s as (A1 & A2 & A3 & A4). destruct pass_m as (B1 & B2 & B3 & B4).
  assert (A5 : w_sh ideal sun_pass = 0) by (apply pass_node0; exact I).
  assert (B5 : w_sh ideal moon_pass = 0) by (apply pass_node0; exact I).
  rewrite F1, F2, F3, F4, F5, A1, A2, A3, A4, A5, B1, B2, B3, B4, B5. change (num ideal) with R. repeat split; try reflexivity; field; exact Hi.
Qed.
(** The periodic terms *)
Definition waves (q : amps ideal) (f : R) : drift :=
  mk_drift (wave (q_e2 ideal q) (q_e3 ideal q) 0 f) (wave (q_i2 ideal q) (q_i3 ideal q) 0 f)
    (wave (q_gh2 ideal q) (q_gh3 ideal q) (q_gh4 ideal q) f - cos i * (wave (q_h2 ideal q) (q_h3 ideal q) 0 f / sin i)) (wave (q_h2 ideal q) (q_h3 ideal q) 0 f / sin i)
    (wave (q_l2 ideal q) (q_l3 ideal q) (q_l4 ideal q) f).
Lemma oscillates p v cc c : v <> 0 -> oscillation p (4 * cc * v) v c n e i w h (waves (w_amps ideal (pass p v cc c n e i w h))).
Proof.
  intros V. set (q := w_amps ideal _). split.
  - unfold waves. cbn [r_e r_i r_w r_h r_m]. split; [apply wave_mean|]. split; [apply wave_mean|]. split; [|split; [|apply wave_mean]].
    + destruct (wave_mean (q_gh2 ideal q) (q_gh3 ideal q) (q_gh4 ideal q)) as (G & G1 & G2). destruct (wave_mean (q_h2 ideal q) (q_h3 ideal q) 0) as (H & H1 & H2).
      exists (fun x => G x - cos i / sin i * H x). split.
      * intros x. eapply D_eq; [apply D_minus; [apply G1|apply D_mult; [apply D_const|apply H1]]|cbv beta; field; exact Hi].
      * replace (G (2 * PI) - cos i / sin i * H (2 * PI) - (G 0 - cos i / sin i * H 0)) with ((G (2 * PI) - G 0) - cos i / sin i * (H (2 * PI) - H 0)) by ring. rewrite G2, H2. ring.
    + destruct (wave_mean (q_h2 ideal q) (q_h3 ideal q) 0) as (H & H1 & H2). exists (fun x => / sin i * H x). split.
      * intros x. eapply D_eq; [apply D_mult; [apply D_const|apply H1]|cbv beta; field; exact Hi].
      * replace (/ sin i * H (2 * PI) - / sin i * H 0) with (/ sin i * (H (2 * PI) - H 0)) by ring. rewrite H2. ring.
  - exists (fun f => quad (body p f)), (quad2 p), round_of, (drift2 p (4 * cc * v) n e i w h), (drift0 (4 * cc * v) n e i w h).
    split; [apply raised_quad|]. split; [apply raised_quad2|]. split; [apply round_averaged|].
    split; [apply lagrange_quad2; [lra|assumption..]|]. split; [apply lagrange_round; [lra|assumption..]|].
    intros f. exists (drift_of (body p f) (4 * cc * v) n e i w h). split; [apply lagrange_quad; [lra|assumption..]|].
    pose proof (pass_waves p v cc c n e i w h ltac:(lra) He Hi V f) as Q. cbv zeta in Q. fold q in Q. destruct Q as (Q1 & Q2 & Q3 & Q4 & Q5).
    set (x := drift_of (body p f) (4 * cc * v) n e i w h) in *. set (d2 := drift2 p (4 * cc * v) n e i w h) in *. set (d0 := drift0 (4 * cc * v) n e i w h) in *.
    cbv zeta. unfold waves. cbn [r_e r_i r_w r_h r_m].
    assert (HH : derivable_pt_lim (fun f => wave (q_h2 ideal q) (q_h3 ideal q) 0 f / sin i) f ((r_h x - r_h d2 + 3 * c * cos f * r_h d0) / v)).
    { eapply D_eq; [apply (D_mult _ (fun _ => / sin i)); [apply wave_deriv|apply D_const]|cbv beta]. rewrite Q5. field. split; assumption. }
    split; [eapply D_eq; [apply wave_deriv|exact Q1]|]. split; [eapply D_eq; [apply wave_deriv|exact Q2]|]. split; [|split; [exact HH|eapply D_eq; [apply wave_deriv|exact Q3]]].
    eapply D_eq; [apply D_minus; [apply wave_deriv|apply D_mult; [apply D_const|exact HH]]|cbv beta]. rewrite Q4. field. split; assumption.
Qed.
Let xs := waves (w_amps ideal sun_pass).
Let xm := waves (w_amps ideal moon_pass).
Lemma swings : oscillation sun_path k_sun v_sun sun_eccentricity n e i w h xs /\ oscillation (moon_path d) k_moon v_moon moon_eccentricity n e i w h xm.
Proof. split; apply oscillates; unfold v_sun, v_moon; lra. Qed.
Lemma perts_are tau : let fs := true_anomaly sun_eccentricity (g_zmos ideal g + v_sun * tau) in let fm := true_anomaly moon_eccentricity (g_zmol ideal g + v_moon * tau) in
  perts_at ideal g tau = mk_perts ideal (r_e (xs fs) + r_e (xm fm)) (r_i (xs fs) + r_i (xm fm)) (r_m (xs fs) + r_m (xm fm))
    ((r_w (xs fs) + cos i * r_h (xs fs)) + (r_w (xm fm) + cos i * r_h (xm fm))) (sin i * (r_h (xs fs) + r_h (xm fm))).
Proof.
  cbv zeta. destruct fields as (_ & _ & _ & _ & _ & F1 & F2 & _). unfold perts_at. cbv zeta. rewrite F1, F2.
  change (zns_per_min ideal) with v_sun. change (znl_per_min ideal) with v_moon. change (zes ideal) with sun_eccentricity. change (zel ideal) with moon_eccentricity.
  rewrite (body_perts_wave sun_path v_sun cc_sun sun_eccentricity n e i w h (add ideal (g_zmos ideal g) (mul ideal v_sun tau)) : body_perts ideal (w_amps ideal sun_pass) _ _ = _).
  rewrite (body_perts_wave (moon_path d) v_moon cc_moon moon_eccentricity n e i w h (add ideal (g_zmol ideal g) (mul ideal v_moon tau)) : body_perts ideal (w_amps ideal moon_pass) _ _ = _).
  fold sun_pass moon_pass. cbn [e_pe e_pinc e_pl e_pgh e_ph]. unfold xs, xm, waves. cbn [r_e r_i r_w r_h r_m]. unfold true_anomaly.
  change (add ideal) with Rplus; change (mul ideal) with Rmult; change (num ideal) with R.
  f_equal; field; exact Hi.
Qed.
Lemma phases tau : (exists k, Rabs (g_zmos ideal g + v_sun * tau - (sun_anomaly (d + tau / 1440) + 2 * PI * IZR k)) <= / 10 ^ 3 + / 10 ^ 10 * Rabs tau)
  /\ exists k, Rabs (g_zmol ideal g + v_moon * tau - (moon_anomaly (d + tau / 1440) + 2 * PI * IZR k)) <= / 10 ^ 3 + / 10 ^ 10 * Rabs tau.
Proof. destruct fields as (_ & _ & _ & _ & _ & _ & _ & E1 & E2). rewrite E1, E2. split; [apply sun_phase, Hd|apply moon_phase, Hd]. Qed.
End Satellite.
