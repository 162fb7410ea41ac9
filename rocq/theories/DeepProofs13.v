(** The elements of date in SDP4, the whole state-vector integration, and the acceleration of the resonances. *)
From Coq Require Import ZArith List Reals Lra Lia Psatz Bool.
From Flocq Require Import Core.
From Verif Require Import CLib ArithModel GeoLemmas OrbModel OrbSpec OrbProofs2 OrbProofs5 DeepModel DeepSpec DeepTerms DeepProofs1 DeepProofs3 DeepProofs5 DeepProofs7 DeepProofs8 DeepProofs11 DeepProofs12.
Import ListNotations.
Open Scope R_scope.

Lemma derivs_ok om od c l a : let '(r0, r1) := compute_dpsec_derivs ideal om od c l a in
  let ts := terms_of c in let w := om + od * a in
  Rabs (r0 - slow_rate ts w l) <= 8 / 10 ^ 16 * slow_size ts
  /\ exists s, derivable_pt_lim (slow_rate ts w) l s /\ Rabs (r1 - s) <= 8 / 10 ^ 16 * slow_size ts.
Proof.
  assert (E : 8 / 10 ^ 16 = eps) by (unfold eps; lra). rewrite E. destruct c as [d2201 d2211 d3210 d3222 d4410 d4422 d5220 d5232 d5421 d5433|d1 d2 d3]; cbn [terms_of].
  - assert (H := half_derivs om od d2201 d2211 d3210 d3222 d4410 d4422 d5220 d5232 d5421 d5433 l a). destruct (compute_dpsec_derivs _ _ _ _ _ _) as [r0 r1]. cbv zeta in *.
    destruct H as [H1 H2]. split; [exact H1|]. eexists. split; [apply slope_is | exact H2].
  - assert (H := day_derivs om od d1 d2 d3 l a). destruct (compute_dpsec_derivs _ _ _ _ _ _) as [r0 r1]. cbv zeta in *.
    destruct H as [H1 H2]. split; [exact H1|]. eexists. split; [apply slope_is | exact H2].
Qed.

Lemma high_run js t epoch s : epoch <> 0 -> exists dts, Forall (signed t) dts /\ sum dts = t / 1440 /\ INR (length dts) < Rabs t / 1440 + 1
  /\ forall n, ((length dts <= n)%nat -> exists h st, high_ephemeris ideal n (after_dates ideal js) t epoch s
         = Some (h, (to_km ideal (ecliptic_to_equatorial ideal (fst st)), to_km_min ideal (ecliptic_to_equatorial ideal (snd st))))
       /\ to6 st = integrate moon_at sun_at dts epoch (to6 s))
     /\ ((n < length dts)%nat -> high_ephemeris ideal n (after_dates ideal js) t epoch s = None).
Proof.
  intros E. assert (D : div ideal t (minutes_per_day ideal) = t / 1440) by (unfold minutes_per_day; rewrite int_ideal; reflexivity).
  destruct (high_ideal (t / 1440)) as (dts & A1 & A2 & A3 & A4). exists dts. split.
  { eapply Forall_impl; [|exact A1]. intros d [B1 [B2 B3]]. split; [exact B1|]. split; intros; [apply B2 | apply B3]; lra. }
  split; [exact A2|]. split. { unfold Rdiv in A3. rewrite Rabs_mult, (Rabs_pos_eq (/ 1440)) in A3 by lra. unfold Rdiv. exact A3. }
  intros n. destruct (A4 n (after_dates ideal js) epoch s) as [B1 B2]. split; intros L.
  - specialize (B1 L). unfold high_ephemeris. rewrite D, B1. assert (W := walk_rk4 dts (after_dates ideal js) epoch s (history_ready js epoch E)).
    destruct (walk ideal dts (after_dates ideal js) epoch s) as [h st]. exists h, st. split; [reflexivity | exact W].
  - unfold high_ephemeris. rewrite D, (B2 L). reflexivity.
Qed.

Section Date.
Context (t : dorb ideal) (g : deep ideal).
Let o := d_orb ideal t.
Let b : R := o_bstar ideal o.
Let i0 : R := o_xincl ideal o.
Let e0 : R := o_eo ideal o.
Let n0 : R := o_xno ideal o.
Let w0 : R := o_omegao ideal o.
Let M0 : R := o_xmo ideal o.
Let node0 : R := o_xnodeo ideal o.
Context (Hg : g_com ideal g = sxpx_common_init ideal o).
Context (He : 0 <= e0 < 1) (Hn : 0 < n0) (Ha : 0 < a0'' i0 e0 n0) (Hs : a0'' i0 e0 n0 <> s_star i0 e0 n0) (Hp : eta0 i0 e0 n0 ^ 2 <> 1).
Let q4 := q4_used o.
Ltac ic := unfold int; cbn [add sub mul div opp ltn len cst c_sin c_cos c_sqrt c_fabs c_pow ideal num fst snd]; change (num ideal) with R in *.
Lemma sdp_none n s v : g_res ideal g = None -> 0 < n0'' i0 e0 n0 ->
  SDP4_deep ideal n s t g v =
  (r <- Deep_dpper ideal t g s (elements t g q4 (n0'' i0 e0 n0) (base_free t g s) s) v ;;
   Ok (Some (snd r, Placed ideal (finish t q4 (n0'' i0 e0 n0) s (fst r))))).
Proof.
  intros G N. destruct (common_eq o He Hn Ha Hs Hp) as (E1 & E2 & E3 & E4 & E5 & E6 & E7 & E8 & E9 & E10 & E11 & E12 & E13 & E14).
  fold q4 b i0 e0 n0 w0 in E1, E2, E9, E10, E11, E12, E13, E14.
  unfold SDP4_deep. cbv zeta. fold o. rewrite Hg, E1, E2, E9, E10, E11, E12, E13, E14. unfold Deep_dpsec. rewrite G.
  cbn [y_xn y_em y_xll y_omgadf y_xnode y_xinc].
  rewrite (xnodp_eq o He Hn Ha). fold i0 e0 n0. unfold int at 1 2 3. ic. fold b i0 e0 n0 w0 M0 node0. rewrite (proj2 (Rltb_f _ _)) by lra.
  match goal with |- context [Deep_dpper ideal t g s ?x v] => assert (X : x = elements t g q4 (n0'' i0 e0 n0) (base_free t g s) s) end.
  { unfold elements, base_free, M_DF, w_DF, mean_node, node_DF. unfold int. ic. fold o b i0 e0 n0 w0 M0 node0. f_equal; lra. }
  rewrite X. destruct (Deep_dpper ideal t g s _ v) as [[y v']|]; [|reflexivity]. cbn [bind fst snd].
  f_equal. f_equal. f_equal. f_equal. unfold finish. f_equal. unfold two_thirds, int. ic. rewrite xke_eq.
  rewrite Rcpow_pos by (apply Rdiv_lt_0_compat; [unfold KE; lra | exact N]).
  replace (2 / 1 / (3 / 1)) with (2 / 3) by lra. fold o b i0 e0 n0. field.
Qed.
Lemma sdp_some n s v r a x l a' x' l' : g_res ideal g = Some r -> dpsec_start ideal g r s v = (a, x, l) ->
  dpsec_loop ideal n (compute_dpsec_derivs ideal (g_omegaq ideal g) (k_omgdot ideal (g_com ideal g)) (r_coefs ideal r)) (r_xfact ideal r) s a x l = Some (a', x', l') -> 0 < x' ->
  SDP4_deep ideal n s t g v =
  (r <- Deep_dpper ideal t g s (elements t g q4 x' (base_resonant t g q4 (r_coefs ideal r) l' s) s) (mk_dstate ideal a' x' l' (v_savtsn ideal v) (v_perts ideal v)) ;;
   Ok (Some (snd r, Placed ideal (finish t q4 x' s (fst r))))).
Proof.
  intros G D L N. destruct (common_eq o He Hn Ha Hs Hp) as (E1 & E2 & E3 & E4 & E5 & E6 & E7 & E8 & E9 & E10 & E11 & E12 & E13 & E14).
  fold q4 b i0 e0 n0 w0 in E1, E2, E9, E10, E11, E12, E13, E14.
  unfold SDP4_deep. cbv zeta. unfold Deep_dpsec. rewrite G, D, L. fold o. rewrite Hg, E1, E2, E9, E10, E11, E12, E13, E14.
  cbn [y_xn y_em y_xll y_omgadf y_xnode y_xinc v_savtsn v_perts].
  rewrite (xnodp_eq o He Hn Ha). fold i0 e0 n0. unfold int at 1 2 3. ic. fold b i0 e0 n0 w0 M0 node0. rewrite (proj2 (Rltb_f _ _)) by lra.
  match goal with |- context [Deep_dpper ideal t g s ?x _] => assert (X : x = elements t g q4 x' (base_resonant t g q4 (r_coefs ideal r) l' s) s) end.
  { unfold elements, base_resonant, M_DF, w_DF, mean_node, node_DF, thdt. unfold int. ic. fold o b i0 e0 n0 w0 M0 node0. destruct (r_coefs ideal r); f_equal; lra. }
  rewrite X. destruct (Deep_dpper ideal t g s _ _) as [[y v']|]; [|reflexivity]. cbn [bind fst snd].
  f_equal. f_equal. f_equal. f_equal. unfold finish. f_equal. unfold two_thirds, int. ic. rewrite xke_eq.
  rewrite Rcpow_pos by (apply Rdiv_lt_0_compat; [unfold KE; lra | exact N]).
  replace (2 / 1 / (3 / 1)) with (2 / 3) by lra. fold o b i0 e0 n0. field.
Qed.
End Date.

Lemma dpper_same t g s y v y' v' a x l : Deep_dpper ideal t g s y v = Ok (y', v') ->
  exists v'', Deep_dpper ideal t g s y (mk_dstate ideal a x l (v_savtsn ideal v) (v_perts ideal v)) = Ok (y', v'').
Proof.
  unfold Deep_dpper, refresh. cbn [v_savtsn v_perts v_atime v_xni v_xli].
  destruct (len ideal _ _); cbn [v_perts]; [|destruct (v_perts ideal v)]; intros H; try discriminate H; eexists; injection H as <- _; reflexivity.
Qed.

Section Place.
Context (t : dorb ideal).
Let o := d_orb ideal t.
Let i0 : R := o_xincl ideal o.
Let e0 : R := o_eo ideal o.
Let n0 : R := o_xno ideal o.
Let g := Deep_dpinit ideal t (sxpx_common_init ideal o).
Lemma dpinit_com : g_com ideal g = sxpx_common_init ideal o.
Proof. unfold g, Deep_dpinit. cbn [g_com]. unfold secular. cbv zeta. repeat match goal with |- context [match ?p with (_, _) => _ end] => destruct p end. reflexivity. Qed.
Context (He : 0 <= e0 < 1) (Hn : 0 < n0) (Ha : 0 < a0'' i0 e0 n0) (Hs : a0'' i0 e0 n0 <> s_star i0 e0 n0) (Hp : eta0 i0 e0 n0 ^ 2 <> 1).
Context (ts : list R) (v : dstate ideal) (Hc : called ideal t g ts v) (s : R) (Ht : s <= 10 ^ 20 - 30).
Lemma place_free n : g_res ideal g = None -> 0 < n0'' i0 e0 n0 ->
  exists q4 tau v', Rabs (q4 - q_star i0 e0 n0) <= 1 / 10 ^ 30 /\ In tau (s :: ts) /\ Rabs (tau - s) < 30 /\
  SDP4_deep ideal n s t g v = Ok (Some (v', Placed ideal (finish t q4 (n0'' i0 e0 n0) s
    (apply_perts ideal i0 (perts_at ideal g tau) (elements t g q4 (n0'' i0 e0 n0) (base_free t g s) s))))).
Proof.
  intros G N. exists (q4_used o).
  destruct (kept_ideal t g ts v s (elements t g (q4_used o) (n0'' i0 e0 n0) (base_free t g s) s) Hc Ht) as (tau & v' & A1 & A2 & A3).
  exists tau, v'. split; [apply (q4_near o)|]. split; [exact A2|]. split; [exact A3|].
  rewrite (sdp_none t g dpinit_com He Hn Ha Hs Hp n s v G N). fold o i0 e0 n0. rewrite A1. reflexivity.
Qed.
Lemma place_resonant n r a x l a' x' l' : g_res ideal g = Some r -> dpsec_start ideal g r s v = (a, x, l) ->
  dpsec_loop ideal n (compute_dpsec_derivs ideal (g_omegaq ideal g) (k_omgdot ideal (g_com ideal g)) (r_coefs ideal r)) (r_xfact ideal r) s a x l = Some (a', x', l') -> 0 < x' ->
  exists q4 tau v', Rabs (q4 - q_star i0 e0 n0) <= 1 / 10 ^ 30 /\ In tau (s :: ts) /\ Rabs (tau - s) < 30 /\
  SDP4_deep ideal n s t g v = Ok (Some (v', Placed ideal (finish t q4 x' s
    (apply_perts ideal i0 (perts_at ideal g tau) (elements t g q4 x' (base_resonant t g q4 (r_coefs ideal r) l' s) s))))).
Proof.
  intros G D L N. exists (q4_used o).
  destruct (kept_ideal t g ts v s (elements t g (q4_used o) x' (base_resonant t g (q4_used o) (r_coefs ideal r) l' s) s) Hc Ht) as (tau & v' & A1 & A2 & A3).
  destruct (dpper_same _ _ _ _ _ _ _ a' x' l' A1) as (v'' & A4).
  exists tau, v''. split; [apply (q4_near o)|]. split; [exact A2|]. split; [exact A3|].
  rewrite (sdp_some t g dpinit_com He Hn Ha Hs Hp n s v r a x l a' x' l' G D L N). fold o i0 e0 n0. rewrite A4. reflexivity.
Qed.
End Place.
