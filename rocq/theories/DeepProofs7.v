(** The sidereal time at the epoch, the node of low orbits, and the numerical integration. *)
From Coq Require Import ZArith List Reals Lra Lia Psatz Bool.
From Flocq Require Import Core.
From Verif Require Import CLib FloatModel ArithModel GeoLemmas OrbModel OrbSpec TimeSpec TimeProofs GeoProofs5 DeepModel DeepSpec DeepTerms DeepProofs1.
Import ListNotations.
Open Scope R_scope.

Lemma cst_ideal a b : cst ideal a b = IZR a / IZR (Zpos b).
Proof. reflexivity. Qed.
Lemma two_pi_ideal : o_twopi ideal = 2 * PI.
Proof. unfold o_twopi. rewrite int_ideal. change (PI * 2 = 2 * PI). ring. Qed.

(** ** ThetaG *)
Lemma thetag_ideal jd : -1/2 <= jd -> exists k : Z, ThetaG ideal jd = 2 * PI * (gmst_hours jd / 24) - 2 * PI * IZR k :> R /\ 0 <= ThetaG ideal jd < 2 * PI.
Proof.
  intros J. assert (P := PI_RGT_0).
  set (ut := Rfmod (jd + 1 / 2) 1).
  assert (U : ut = jd - day_start jd).
  { unfold ut, Rfmod, Rtrunc. destruct (Rle_dec 0 ((jd + 1 / 2) / 1)) as [L|L]; [|lra]. unfold day_start.
    assert (E : Int_part ((jd + 1 / 2) / 1) = (Int_part (jd - 1 / 2) + 1)%Z).
    { apply Int_part_unique. rewrite plus_IZR. destruct (base_Int_part (jd - 1 / 2)). lra. }
    rewrite E, plus_IZR. lra. }
  set (T := (day_start jd - 2451545) / 36525).
  set (G := (2411054841 / 100000 + T * (8640184812866 / 1000000 + T * (93104 / 1000000 - T * (62 / 10000000)))) / 86400 + 100273790934 / 100000000000 * ut).
  assert (E : ThetaG ideal jd = 2 * PI * (if Rltb (Rfmod G 1) 0 then Rfmod G 1 + 1 else Rfmod G 1) :> R).
  { unfold ThetaG. rewrite two_pi_ideal, !int_ideal. unfold omega_E. rewrite !cst_ideal.
    change (c_fmod ideal (add ideal jd (5 / 10)) 1) with (Rfmod (jd + 5 / 10) 1). replace (5 / 10) with (1 / 2) by lra. fold ut.
    change (2 * PI * (let t_cen := (jd - ut - 2451545) / 36525 in
        let GMST := Rfmod ((2411054841 / 100000 + t_cen * (8640184812866 / 1000000 + t_cen * (93104 / 1000000 - t_cen * (62 / 10000000)))) / 86400 + 100273790934 / 100000000000 * ut) 1 in
        if Rltb GMST 0 then GMST + 1 else GMST) = 2 * PI * (if Rltb (Rfmod G 1) 0 then Rfmod G 1 + 1 else Rfmod G 1)).
    cbn zeta. replace (jd - ut) with (day_start jd) by lra. reflexivity. }
  assert (GH : gmst_hours jd / 24 = G). { unfold gmst_hours, sidereal_at_midnight, G. rewrite U. fold T. cbn zeta. field_simplify; lra || idtac. }
  rewrite E, GH.
  assert (F : exists k : Z, (if Rltb (Rfmod G 1) 0 then Rfmod G 1 + 1 else Rfmod G 1) = G - IZR k /\ 0 <= G - IZR k < 1).
  { assert (N := Rtrunc_near (G / 1)). unfold Rfmod in *. apply Rabs_def2 in N. set (z := Rtrunc (G / 1)) in *. destruct (Rltb (G - IZR z * 1) 0) eqn:L; [apply Rltb_t in L | apply Rltb_f in L].
    - exists (z - 1)%Z. rewrite minus_IZR. lra.
    - exists z. lra. }
  destruct F as (k & -> & B). exists k. split; [ring|]. nra.
Qed.

(** ** The node of orbits of low inclination *)
Lemma lyddane_delta (w s ph : R) : Rabs w <= 2 * PI -> 0 < s ->
  let d0 := Ratan2 (ph * cos w + s * sin w) (- ph * sin w + s * cos w) - w in
  (if Rltb d0 (- PI) then d0 + 2 * PI else if Rltb PI d0 then d0 - 2 * PI else d0) = Ratan2 ph s.
Proof.
  intros W S d0. assert (P := PI_RGT_0). set (al := ph * cos w + s * sin w) in *. set (be := - ph * sin w + s * cos w) in *.
  assert (N2 : be * be + al * al = s * s + ph * ph). { unfold al, be. assert (K := sc2 w). replace ((- ph * sin w + s * cos w) * (- ph * sin w + s * cos w) + (ph * cos w + s * sin w) * (ph * cos w + s * sin w)) with ((s * s + ph * ph) * (sin w * sin w + cos w * cos w)) by ring. rewrite K. ring. }
  assert (NP : 0 < s * s + ph * ph) by nra.
  destruct (Ratan2_polar al be) as [X1 X2]; [lra|]. destruct (Ratan2_polar ph s) as [Y1 Y2]; [lra|]. rewrite N2 in X1, X2.
  set (r := sqrt (s * s + ph * ph)) in *. assert (R : 0 < r) by (apply sqrt_lt_R0, NP).
  assert (RA := Ratan2_range al be). assert (RB := Ratan2_right ph s (Rlt_le _ _ S)). set (a := Ratan2 al be) in *. set (b := Ratan2 ph s) in *.
  (* a = w + b modulo a turn *)
  assert (CA : cos a = cos (w + b)). { apply (Rmult_eq_reg_l r); [|lra]. rewrite <- X1, cos_plus. unfold be. rewrite Y1, Y2 at 1. fold r. ring. }
  assert (SA : sin a = sin (w + b)). { apply (Rmult_eq_reg_l r); [|lra]. rewrite <- X2, sin_plus. unfold al. rewrite Y1, Y2 at 1. fold r. ring. }
  apply Rabs_le_inv in W.
  assert (PER : forall x, cos (x + 2 * PI) = cos x /\ sin (x + 2 * PI) = sin x) by (intros x; rewrite cos_plus, sin_plus, cos_2PI, sin_2PI; split; ring).
  assert (PEM : forall x, cos (x - 2 * PI) = cos x /\ sin (x - 2 * PI) = sin x) by (intros x; rewrite cos_minus, sin_minus, cos_2PI, sin_2PI; split; ring).
  destruct (Rltb d0 (- PI)) eqn:L1; [apply Rltb_t in L1 | apply Rltb_f in L1; destruct (Rltb PI d0) eqn:L2; [apply Rltb_t in L2 | apply Rltb_f in L2]]; unfold d0 in *.
  - assert (a + 2 * PI = w + b); [|lra]. apply angle_unique; [apply Rabs_def1; lra | rewrite (proj1 (PER a)); exact CA | rewrite (proj2 (PER a)); exact SA].
  - assert (a - 2 * PI = w + b); [|lra]. apply angle_unique; [apply Rabs_def1; lra | rewrite (proj1 (PEM a)); exact CA | rewrite (proj2 (PEM a)); exact SA].
  - assert (a = w + b); [|lra]. apply angle_unique; [apply Rabs_def1; lra | exact CA | exact SA].
Qed.

(** All elements after the perturbations, for an inclination below 0.2. *)
Lemma lyddane incl p y : incl < 2 / 10 -> Rabs (y_xnode ideal y) <= 2 * PI ->
  let i := y_xinc ideal y + e_pinc ideal p in
  let s := sin i + e_pinc ideal p * cos i in
  0 < s ->
  let d := Ratan2 (e_ph ideal p) s in
  apply_perts ideal incl p y =
    mk_elems ideal (y_xll ideal y + e_pl ideal p)
      (y_omgadf ideal y + e_pgh ideal p - cos i * d - y_xnode ideal y * sin i * e_pinc ideal p) (y_xnode ideal y + d) (y_em ideal y + e_pe ideal p) i (y_xn ideal y).
Proof.
  destruct y as [l w o e xi n]. destruct p as [pe pinc pl pgh ph].
  intros L W i s S d. cbn [y_xll y_omgadf y_xnode y_em y_xinc y_xn e_pe e_pinc e_pl e_pgh e_ph] in *. change (num ideal) with R in *. unfold apply_perts. cbn [y_xll y_omgadf y_xnode y_em y_xinc y_xn e_pe e_pinc e_pl e_pgh e_ph].
  replace (len ideal (cst ideal 2 10) incl) with false by (symmetry; apply Rleb_f; exact L).
  rewrite two_pi_ideal. change (o_pi ideal) with PI.
  change (add ideal xi pinc) with i.
  change (mk_elems ideal (l + pl)
     (w + pgh + (- o * sin i * pinc - cos i * (let d0 := Ratan2 (ph * cos o + (pinc * cos i + sin i) * sin o) (- ph * sin o + (pinc * cos i + sin i) * cos o) - o in
         if Rltb d0 (- PI) then d0 + 2 * PI else if Rltb PI d0 then d0 - 2 * PI else d0)))
     (o + (let d0 := Ratan2 (ph * cos o + (pinc * cos i + sin i) * sin o) (- ph * sin o + (pinc * cos i + sin i) * cos o) - o in
         if Rltb d0 (- PI) then d0 + 2 * PI else if Rltb PI d0 then d0 - 2 * PI else d0)) (e + pe) i n
    = mk_elems ideal (l + pl) (w + pgh - cos i * d - o * sin i * pinc) (o + d) (e + pe) i n).
  replace (pinc * cos i + sin i) with s by (unfold s; ring). assert (Q := lyddane_delta o s ph W S). cbn zeta in Q |- *. rewrite Q. fold d. f_equal. ring.
Qed.
(** The direct form. *)
Lemma direct incl p y : 2 / 10 <= incl ->
  let i := y_xinc ideal y + e_pinc ideal p in
  let d := e_ph ideal p / sin i in
  apply_perts ideal incl p y =
    mk_elems ideal (y_xll ideal y + e_pl ideal p) (y_omgadf ideal y + e_pgh ideal p - cos i * d) (y_xnode ideal y + d) (y_em ideal y + e_pe ideal p) i (y_xn ideal y).
Proof.
  intros L i d. unfold apply_perts. replace (len ideal (cst ideal 2 10) incl) with true by (symmetry; apply Rleb_t; exact L). reflexivity.
Qed.
(** The low form depends on the turn in which the node is expressed. *)
Lemma lyddane_branch : exists incl p y y',
  y' = mk_elems ideal (y_xll ideal y) (y_omgadf ideal y) (y_xnode ideal y + 2 * PI) (y_em ideal y) (y_xinc ideal y) (y_xn ideal y) /\
  forall k : Z, y_omgadf ideal (apply_perts ideal incl p y') <> y_omgadf ideal (apply_perts ideal incl p y) + 2 * PI * IZR k.
Proof.
  assert (P := pi_bounds).
  exists 0, (mk_perts ideal 0 (1 / 10) 0 0 0), (mk_elems ideal 0 0 0 0 0 0). eexists. split; [reflexivity|].
  assert (SN : 0 < sin (1 / 10) < 1). { split; [apply sin_gt_0; lra|]. destruct (Rlt_or_le (sin (1 / 10)) 1) as [H|H]; [exact H|]. exfalso. assert (C : 0 < cos (1 / 10)) by (apply cos_gt_0; lra). assert (K := sc2 (1 / 10)). nra. }
  assert (CS : 0 < cos (1 / 10)) by (apply cos_gt_0; lra).
  intros k. rewrite (lyddane 0 (mk_perts ideal 0 (1 / 10) 0 0 0) (mk_elems ideal 0 0 0 0 0 0)); cbn [y_xll y_omgadf y_xnode y_em y_xinc y_xn e_pe e_pinc e_pl e_pgh e_ph].
  2: lra. 2: rewrite Rabs_R0; lra. 2: rewrite !Rplus_0_l; lra.
  rewrite lyddane; cbn [y_xll y_omgadf y_xnode y_em y_xinc y_xn e_pe e_pinc e_pl e_pgh e_ph].
  2: lra. 2: rewrite Rabs_pos_eq by lra; lra. 2: rewrite !Rplus_0_l; lra.
  rewrite !Rplus_0_l. intros H.
  assert (H2 : sin (1 / 10) * (1 / 10) = - IZR k). { apply (Rmult_eq_reg_l (2 * PI)); [|lra]. change (num ideal) with R in H. lra. }
  assert (0 < - IZR k < 1) by lra. assert (0 < - k < 1)%Z; [|lia]. split; apply lt_IZR; rewrite opp_IZR; lra.
Qed.
