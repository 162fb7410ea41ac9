(** Concrete cases: deep-space propagator. *)
From Coq Require Import ZArith List Reals Lra Lia Psatz Bool.
From Flocq Require Import Core IEEE754.BinarySingleNaN.
From Verif Require Import CLib FloatModel ArithModel FloatLemmas GeoLemmas OrbModel OrbSpec OrbExamples TimeSpec DeepModel DeepSpec DeepTerms DeepProofs1 DeepProofs2 DeepProofs3 DeepProofs4 DeepProofs5 DeepProofs7 DeepProofs8 DeepProofs10 DeepProofs13.
Import ListNotations.
Open Scope R_scope.

(** An orbit of semi-major axis a at the inclination with cos^2 = 1/3. *)
Definition set_of (a e : R) : dorb ideal := mk_dorb ideal (mk_orb ideal 0 i_third 1 e 2 3 (KE / (a * sqrt a)) 48) 2460000.
Lemma delta_any e a : delta_of i_third e a = 0.
Proof. unfold delta_of. rewrite third. unfold Rdiv. replace (3 * (1 * / 3) - 1) with 0 by lra. ring. Qed.
Lemma set_a1 a : 0 < a -> a_1 (KE / (a * sqrt a)) = a.
Proof.
  intros A. unfold a_1. assert (P : 0 < sqrt a) by (apply sqrt_lt_R0; lra). replace (KE / (KE / (a * sqrt a))) with (a * sqrt a).
  2: { assert (0 < KE) by (unfold KE; lra). field. split; lra. }
  replace (a * sqrt a) with (Rpower a (3 / 2)).
  - rewrite Rpower_mult. replace (3 / 2 * (2 / 3)) with 1 by lra. apply Rpower_1. lra.
  - replace (3 / 2) with (1 + / 2) by lra. rewrite Rpower_plus, Rpower_1, Rpower_sqrt by lra. reflexivity.
Qed.
Lemma set_a a e : 0 < a -> a0'' i_third e (KE / (a * sqrt a)) = a.
Proof. intros A. unfold a0'', a_0. cbv zeta. rewrite !delta_any, set_a1 by assumption. field. Qed.
Lemma set_n a e : n0'' i_third e (KE / (a * sqrt a)) = KE / (a * sqrt a).
Proof. unfold n0''. rewrite delta_any. unfold Rdiv. rewrite Rplus_0_r, Rinv_1. ring. Qed.
Lemma set_pos a : 0 < a -> 0 < KE / (a * sqrt a).
Proof. intros A. assert (0 < sqrt a) by (apply sqrt_lt_R0; lra). apply Rdiv_lt_0_compat; [unfold KE; lra | apply Rmult_lt_0_compat; assumption]. Qed.
Lemma root_in x lo hi : 0 <= lo -> 0 <= hi -> lo * lo <= x -> x <= hi * hi -> lo <= sqrt x <= hi.
Proof. intros L H A B. assert (0 <= x) by nra. assert (S := sqrt_sqrt x ltac:(lra)). assert (P := sqrt_pos x). split; nra. Qed.
Lemma inv_in d lo hi : 0 < lo -> lo <= d <= hi -> KE / hi <= KE / d <= KE / lo.
Proof.
  intros L [A B]. assert (K : 0 < KE) by (unfold KE; lra). unfold Rdiv. split; apply Rmult_le_compat_l; try lra; apply Rinv_le_contravar; lra.
Qed.
(** A geosynchronous orbit and a half-day orbit. *)
Definition geo_set : dorb ideal := set_of 6.6 0.
Definition half_set : dorb ideal := set_of 4.2 0.6.
Lemma geo_case : day_case geo_set.
Proof.
  unfold day_case, geo_set, set_of. cbn [d_orb o_xincl o_eo o_xno]. rewrite set_n. assert (P := pi_bounds).
  assert (S := root_in 6.6 2.5 2.6 ltac:(lra) ltac:(lra) ltac:(lra) ltac:(lra)).
  assert (B := inv_in (6.6 * sqrt 6.6) 16.5 17.16 ltac:(lra) ltac:(lra)). unfold KE in B at 1 4. lra.
Qed.
Lemma half_case_ex : half_case half_set.
Proof.
  unfold half_case, half_set, set_of. cbn [d_orb o_xincl o_eo o_xno]. rewrite set_n.
  assert (S := root_in 4.2 2.049 2.05 ltac:(lra) ltac:(lra) ltac:(lra) ltac:(lra)).
  assert (B := inv_in (4.2 * sqrt 4.2) 8.6058 8.61 ltac:(lra) ltac:(lra)). unfold KE in B at 1 4. lra.
Qed.
Lemma geo_ok : 0 <= o_eo ideal (d_orb ideal geo_set) < 1 /\ 0 < o_xno ideal (d_orb ideal geo_set) /\ 0 < a0'' (o_xincl ideal (d_orb ideal geo_set)) (o_eo ideal (d_orb ideal geo_set)) (o_xno ideal (d_orb ideal geo_set)).
Proof. unfold geo_set, set_of. cbn [d_orb o_xincl o_eo o_xno]. rewrite set_a by lra. assert (P := set_pos 6.6 ltac:(lra)). lra. Qed.
Lemma geo_resonant : exists r, g_res ideal (Deep_dpinit ideal geo_set (sxpx_common_init ideal (d_orb ideal geo_set))) = Some r.
Proof. destruct geo_ok as (A & B & C). destruct (resonance_day geo_set A B C geo_case) as (r & E & _). exists r. exact E. Qed.
(** At 10 Earth radii there is no resonance. *)
Definition high_set : dorb ideal := set_of 9 0.5.
Lemma high_free : g_res ideal (Deep_dpinit ideal high_set (sxpx_common_init ideal (d_orb ideal high_set))) = None.
Proof.
  assert (N : n0'' (o_xincl ideal (d_orb ideal high_set)) (o_eo ideal (d_orb ideal high_set)) (o_xno ideal (d_orb ideal high_set)) = KE / 27).
  { unfold high_set, set_of. cbn [d_orb o_xincl o_eo o_xno]. rewrite set_n. replace (sqrt 9) with 3. 2: { symmetry. apply sqrt_lem_1; lra. } f_equal. lra. }
  assert (P := pi_bounds).
  apply resonance_none.
  - unfold high_set, set_of. cbn [d_orb o_eo]. lra.
  - apply set_pos. lra.
  - unfold high_set, set_of. cbn [d_orb o_xincl o_eo o_xno]. rewrite set_a by lra. lra.
  - unfold half_case. rewrite N. unfold KE. lra.
  - unfold day_case. rewrite N. unfold KE. lra.
Qed.
Lemma high_hyps : let o := d_orb ideal high_set in let i := o_xincl ideal o in let e := o_eo ideal o in let n := o_xno ideal o in
  0 <= e < 1 /\ 0 < n /\ 0 < a0'' i e n /\ a0'' i e n <> s_star i e n /\ eta0 i e n ^ 2 <> 1 /\ 0 < n0'' i e n.
Proof.
  cbv zeta. unfold high_set, set_of. cbn [d_orb o_xincl o_eo o_xno]. assert (S : s_star i_third 0.5 (KE / (9 * sqrt 9)) = 1 + 78 / XKMPER).
  { unfold s_star, perigee_km. rewrite set_a by lra. unfold XKMPER. destruct (Rle_dec _ 98); [lra|]. destruct (Rlt_dec _ 156); lra. }
  rewrite set_a, set_n, S by lra. split; [lra|]. split; [apply set_pos; lra|]. split; [lra|]. split; [unfold XKMPER; lra|]. split.
  - unfold eta0, xi. rewrite S, set_a by lra. unfold XKMPER.
    assert (X : 9 * 0.5 * (1 / (9 - (1 + 78 / (6378135 / 1000)))) < 0.6). { apply Rmult_lt_reg_r with (9 - (1 + 78 / (6378135 / 1000))); [lra|]. field_simplify; lra. }
    assert (Y : 0 < 9 * 0.5 * (1 / (9 - (1 + 78 / (6378135 / 1000))))). { apply Rmult_lt_0_compat; [lra|]. apply Rdiv_lt_0_compat; lra. }
    nra.
  - assert (0 < sqrt 9) by (apply sqrt_lt_R0; lra). assert (0 < KE) by (unfold KE; lra). apply Rdiv_lt_0_compat; lra.
Qed.

(** Two and a half days. *)
Lemma ex_days h jd s : high_loop ideal 3 h jd 2.5 s = Some (walk ideal [1; 1; 0.5] h jd s).
Proof.
  assert (Z : forall x, x <> 0 -> eqn ideal x (int ideal 0) = false) by (intros x X; rewrite int_ideal; apply Reqb_f; exact X).
  rewrite (high_1 ideal 2 h jd 2.5 s 1). 2: apply Z; lra.
  2: { rewrite int_ideal. change (ltn ideal 1 2.5) with (Rltb 1 2.5). rewrite (proj2 (Rltb_t 1 2.5)) by lra. reflexivity. }
  rewrite walk_1. set (h1 := fst _). set (s1 := snd _). clearbody h1 s1.
  replace (sub ideal 2.5 1) with 1.5 by (change (1.5 = 2.5 - 1 :> R); lra).
  rewrite (high_1 ideal 1 h1 _ 1.5 s1 1). 2: apply Z; lra.
  2: { rewrite int_ideal. change (ltn ideal 1 1.5) with (Rltb 1 1.5). rewrite (proj2 (Rltb_t 1 1.5)) by lra. reflexivity. }
  rewrite walk_1. set (h2 := fst _). set (s2 := snd _). clearbody h2 s2.
  replace (sub ideal 1.5 1) with 0.5 by (change (0.5 = 1.5 - 1 :> R); lra).
  rewrite (high_1 ideal 0 h2 _ 0.5 s2 0.5). 2: apply Z; lra.
  2: { rewrite int_ideal. change (ltn ideal 1 0.5) with (Rltb 1 0.5). rewrite (proj2 (Rltb_f 1 0.5)) by lra.
       change (ltn ideal 0.5 (opp ideal 1)) with (Rltb 0.5 (- 1)). rewrite (proj2 (Rltb_f _ _)) by lra. reflexivity. }
  rewrite walk_1. set (h3 := fst _). set (s3 := snd _). clearbody h3 s3.
  rewrite high_0; [reflexivity|]. rewrite int_ideal. apply Reqb_t. change (0.5 - 0.5 = 0 :> R). lra.
Qed.
(** One thousand minutes from the epoch: two steps. *)
Lemma ex_minutes derivs c n l : exists n' l', dpsec_loop ideal 2 derivs c 1000 0 n l = Some (1000, n', l').
Proof.
  assert (C1 : clip ideal (sub ideal 1000 0) = (720, false)). { rewrite clip_ideal. change (sub ideal 1000 0) with (1000 - 0). rewrite (proj2 (Rltb_t 720 (1000 - 0))) by lra. reflexivity. }
  rewrite (dpsec_1 ideal 1 derivs c 1000 0 n l 720 false C1). cbv zeta.
  assert (C2 : clip ideal (sub ideal 1000 (add ideal 0 720)) = (280, true)).
  { rewrite clip_ideal. change (sub ideal 1000 (add ideal 0 720)) with (1000 - (0 + 720)). replace (1000 - (0 + 720)) with 280 by lra. rewrite (proj2 (Rltb_f 720 280)), (proj2 (Rltb_f 280 (-720))) by lra. reflexivity. }
  rewrite (dpsec_1 ideal 0 derivs c 1000 (add ideal 0 720) _ _ 280 true C2). cbv zeta. do 2 eexists. f_equal. f_equal. f_equal. change (0 + 720 + 280 = 1000 :> R). lra.
Qed.
(** The terms of a new time are not computed 29 minutes later, but after 30 minutes. *)
Lemma ex_kept t g y a x l p : let v := mk_dstate ideal a x l 0 (Some p) in
  Deep_dpper ideal t g 29 y v = Ok (apply_perts ideal (o_xincl ideal (d_orb ideal t)) p y, v)
  /\ exists v', Deep_dpper ideal t g 30 y v = Ok (apply_perts ideal (o_xincl ideal (d_orb ideal t)) (perts_at ideal g 30) y, v').
Proof.
  intros v. unfold Deep_dpper, refresh, v. cbn [v_savtsn v_perts]. rewrite int_ideal.
  change (len ideal 30 (c_fabs ideal (sub ideal 0 29))) with (Rleb 30 (Rabs (0 - 29))). change (len ideal 30 (c_fabs ideal (sub ideal 0 30))) with (Rleb 30 (Rabs (0 - 30))).
  rewrite (Rabs_left (0 - 29)), (Rabs_left (0 - 30)) by lra. rewrite (proj2 (Rleb_f 30 (- (0 - 29)))), (proj2 (Rleb_t 30 (- (0 - 30)))) by lra.
  cbn [v_perts]. split; [reflexivity|]. eexists. reflexivity.
Qed.
(** Twelve hours after a midnight. *)
Lemma ex_kaula : kaula 2 2 0 0 = 3 /\ kaula 2 2 1 (PI / 2) = 3 / 2 /\ kaula 3 1 1 0 = - 3 / 2.
Proof. rewrite K220, K221, K311, cos_0, sin_0, sin_PI2. repeat split; lra. Qed.
(** 0.1 rad of inclination, moved to 0.11. *)
Lemma ex_lyddane p y : e_pinc ideal p = 0.01 -> y_xinc ideal y = 0.1 -> 0 < sin (y_xinc ideal y + e_pinc ideal p) + e_pinc ideal p * cos (y_xinc ideal y + e_pinc ideal p).
Proof.
  intros -> ->. assert (P := pi_bounds). assert (0 < sin (0.1 + 0.01)) by (apply sin_gt_0; lra). assert (0 < cos (0.1 + 0.01)) by (apply cos_gt_0; lra). nra.
Qed.
Lemma ex_round : ecliptic_to_equatorial ideal (equatorial_to_ecliptic ideal (5, 1, 0)) =
  (5, 917482062069181825744000384639406458043 / 1000000000000000000000000000000000000000 * (917482062069181825744000384639406458043 / 1000000000000000000000000000000000000000)
      + 397777155931913701597179975942380896684 / 1000000000000000000000000000000000000000 * (397777155931913701597179975942380896684 / 1000000000000000000000000000000000000000), 0) :> R * R * R.
Proof.
  unfold ecliptic_to_equatorial, equatorial_to_ecliptic, cos_obliq_2000, sin_obliq_2000. cbn [add sub mul cst ideal]. f_equal; [f_equal|]; lra.
Qed.
Lemma ex_still h epoch s : high_ephemeris ideal 0 h 0 epoch s = Some (h, (to_km ideal (ecliptic_to_equatorial ideal (fst s)), to_km_min ideal (ecliptic_to_equatorial ideal (snd s)))).
Proof.
  unfold high_ephemeris. rewrite high_0; [reflexivity|]. unfold minutes_per_day. rewrite !int_ideal. apply Reqb_t. change (0 / 1440 = 0 :> R). lra.
Qed.
Lemma ex_moon jd : 300000000 < norm (moon_at jd).
Proof. destruct (moon_polar jd) as [_ E]. rewrite <- E. rewrite positions. cbn [fst snd dist4]. apply code_dist_pos. Qed.
Lemma ex_terms : slow_rate (day_terms 1 0 0) 0 (lambda31 + PI / 2) = 1.
Proof. unfold slow_rate, day_terms, total. cbn [map fold_right]. replace (0 * 0 + 1 * (lambda31 + PI / 2) - lambda31) with (PI / 2) by ring. rewrite sin_PI2. ring. Qed.
Lemma ex_gmst : Rabs (gmst_hours 2451545 - 18.697374) <= 1 / 100000.
Proof.
  unfold gmst_hours. assert (D : day_start 2451545 = 2451544.5).
  { unfold day_start. destruct (base_Int_part (2451545 - 1 / 2)) as [A B]. set (z := Int_part _) in *.
    assert ((z < 2451545)%Z) by (apply lt_IZR; lra). assert ((2451543 < z)%Z) by (apply lt_IZR; lra). replace z with 2451544%Z by lia. lra. }
  rewrite D. unfold sidereal_at_midnight. cbv zeta. apply Rabs_le. split; lra.
Qed.
