(** Examples for the nutation, the sidereal time and the zenith. *)
From Coq Require Import ZArith List Bool Reals Lra Lia.
From Flocq Require Import Core BinarySingleNaN.
From Verif Require Import CLib FloatModel FloatLemmas ArithModel GeoLemmas GeoSpec TrigBounds NutModel NutSpec NutProofs1 NutProofs2 NutProofs3 NutProofs4 NutProofs5.
Import ListNotations.
Open Scope R_scope.

(** The nutation in longitude at J2000 is between -16.7 and -11.5 seconds of arc (it is -13.9). *)
Lemma node_first : exists l, iau1980 = ((0, 0, 0, 0, 1), (-171996, -1742, 92025, 89))%Z :: l /\ (fold_right (fun r s => Z.abs (g1 (snd r)) + s)%Z 0%Z l <= 25000)%Z.
Proof. eexists. split; [reflexivity | vm_compute; discriminate]. Qed.
Lemma nutation_2000 : exists psi eps, calcnutation ideal 0 = Ok (psi, eps) /\ -16.7 < psi < -11.5.
Proof.
  rewrite series. do 2 eexists. split; [reflexivity|]. unfold nutation_lon. destruct node_first as (l & -> & B). cbn [total_of fold_right].
  assert (T : Rabs (fold_right (fun r s => (let '(k, (p, p', _, _)) := r in (IZR p + IZR p' / 10 * 0) * sin (phase k (code_args 0))) + s) 0 l) <= IZR (fold_right (fun r s => Z.abs (g1 (snd r)) + s)%Z 0%Z l)).
  { clear B. induction l as [|[k [[[p p'] e] e']] l IH]; cbn [fold_right fst snd g1].
    - rewrite Rabs_R0. lra.
    - rewrite plus_IZR, abs_IZR. match type of IH with Rabs ?x <= _ => set (S1 := x) in * end. assert (K := Rabs_triang ((IZR p + IZR p' / 10 * 0) * sin (phase k (code_args 0))) S1).
      assert (M : Rabs ((IZR p + IZR p' / 10 * 0) * sin (phase k (code_args 0))) <= Rabs (IZR p)) by (rewrite Rmult_0_r, Rplus_0_r, Rabs_mult; assert (U := sin_1 (phase k (code_args 0))); assert (P := Rabs_pos (IZR p)); nra). lra. }
  apply IZR_le in B. match type of T with Rabs ?x <= _ => set (S1 := x) in * end. apply Rabs_le_inv in T.
  assert (N := args_close 0 ltac:(rewrite Rabs_R0; lra)).
  assert (F : phase (0, 0, 0, 0, 1)%Z (fundamental 0) = 450160.280 * (PI / 648000)) by (unfold phase, fundamental, arcsec; lra).
  assert (D := phase_near (0, 0, 0, 0, 1)%Z _ _ _ N). rewrite F in D. cbn [weight Z.abs Z.add] in D. set (x := phase _ (code_args 0)) in *.
  assert (P := pi_in). assert (C := sin_box 1000000000000 2182438 1000000 8 818600000000 818800000000 ltac:(vm_compute; reflexivity)).
  assert (X := sin_near x (2182438 / 1000000)). assert (XX : Rabs (x - 2182438 / 1000000) <= 0.001).
  { apply Rabs_le_inv in D. apply Rabs_le. lra. }
  assert (Y : Rabs (sin x - sin (2182438 / 1000000)) <= 0.001) by lra. apply Rabs_le_inv in Y. lra.
Qed.
(** A second call within 0.01 day changes nothing. *)
Lemma kept_example : exists st out, tilt_after ideal [2460000.5; 2451545] = Ok st /\ tjd_last ideal st = 2460000.5 /\
  earthtilt ideal st 2460000.505 = Ok (st, out) /\ near5 (1 / 10 ^ 8) out (theory 2460000.5).
Proof.
  cbn [tilt_after bind]. destruct (earthtilt_cases ideal (tilt0 ideal) 2451545) as (s1 & E1 & C1). rewrite E1. cbn [bind fst].
  destruct C1 as [[C1 _]|(_ & L1 & _)]. { apply apart_R_f in C1. unfold int in C1. cbn in C1. rewrite Rabs_right in C1; lra. }
  assert (A2 : 0.01 < Rabs (2460000.5 - tjd_last ideal s1)) by (rewrite L1, Rabs_right; lra).
  assert (Q : Rabs (centuries 2460000.5) <= 100) by (unfold centuries; rewrite Rabs_right; lra).
  destruct (fresh_close s1 2460000.5 A2 Q) as (s2 & o2 & E2 & N2). destruct (earthtilt_cases ideal s1 2460000.5) as (s3 & E3 & C3). rewrite E3 in E2. inversion E2; subst s3 o2. clear E2.
  rewrite E3. cbn [bind fst]. destruct C3 as [[C3 _]|(_ & L3 & _)]. { apply apart_R_f in C3. lra. }
  destruct (earthtilt_cases ideal s2 2460000.505) as (s4 & E4 & C4). destruct C4 as [[C4 ->]|(C4 & _)].
  - exists s2, (results ideal s2). repeat split; auto; apply N2.
  - apply apart_R in C4. rewrite L3 in C4. rewrite Rabs_right in C4; lra.
Qed.
Lemma first_call : earthtilt ideal (tilt0 ideal) 0 = Ok (tilt0 ideal, (0, 0, 0, 0, 0)) /\ mean_obliquity (centuries 0) > 20.
Proof.
  split.
  - unfold earthtilt. replace (ltn ideal _ _) with false. { cbn. unfold int. cbn. replace (0 / 1) with 0 by lra. reflexivity. }
    symmetry. cbn. apply Rltb_f. unfold int. cbn. replace (0 - 0 / 1) with 0 by lra. rewrite Rabs_R0. lra.
  - unfold mean_obliquity, centuries. lra.
Qed.
(** Noon of 1 January 2000. *)
Lemma gmst_2000 : 18.69737 < ut2gmst ideal 2451545 < 18.69738.
Proof.
  destruct (gmst_is 2451545 2451544 ltac:(lra)) as (G & k & E). set (g := ut2gmst ideal 2451545) in *.
  assert (K : IZR k < 1 /\ -1 < IZR k) by (split; lra). destruct K as [K1 K2]. apply lt_IZR in K1, K2. assert (k = 0)%Z by lia. subst k. lra.
Qed.
Lemma zenith_2000 : 265.46 < zenith_site_ra ideal 51544.5 (-15) < 265.47.
Proof.
  destruct (zenith_ok 51544.5 (-15) ltac:(lra)) as (Z & k & E). replace (51544.5 + 2400000.5) with 2451545 in E by lra. assert (G := gmst_2000). set (g := ut2gmst ideal 2451545) in *.
  set (z := zenith_site_ra _ _ _) in *. assert (K : IZR k < 1 /\ -1 < IZR k) by (split; lra). destruct K as [K1 K2]. apply lt_IZR in K1, K2. assert (k = 0)%Z by lia. subst k. lra.
Qed.
Lemma zenith_east : slaDh2e ideal (PI / 2) 0 0.7 = (- (PI / 2), 0).
Proof.
  unfold slaDh2e. cbv zeta. cbn [ideal mul add opp c_cos c_sin c_sqrt c_atan2 eqn]. unfold int. cbn [ideal cst]. rewrite sin_PI2, cos_PI2, sin_0, cos_0.
  match goal with |- context [sqrt ?e] => replace (sqrt e) with 1 by (replace e with 1 by lra; symmetry; exact sqrt_1) end.
  rewrite (proj2 (Reqb_f 1 (0 / 1))) by lra. f_equal.
  - match goal with |- Ratan2 ?y ?x = _ => replace y with (-1) by lra; replace x with 0 by lra end. unfold Ratan2. repeat (destruct (Rlt_dec _ _); try lra).
  - match goal with |- Ratan2 ?y ?x = _ => replace y with 0 by lra end. unfold Ratan2. destruct (Rlt_dec 0 1); [|lra]. replace (0 / 1) with 0 by lra. apply atan_0.
Qed.
