(** The slow acceleration of the mean motion in the resonances: the sums. *)
From Coq Require Import ZArith List Reals Lra Lia Psatz Bool.
From Flocq Require Import Core.
From Verif Require Import CLib ArithModel GeoLemmas OrbModel DeepModel DeepSpec DeepProofs11.
Import ListNotations.
Open Scope R_scope.

Definition eps : R := 8 / 10000000000000000.
Definition near (C S G : R) : Prop := Rabs (C - cos G) <= 4 / 10000000000000000 /\ Rabs (S - sin G) <= 4 / 10000000000000000.
Lemma one C S G x d : near C S G ->
  Rabs (d * (sin x * C - cos x * S) - d * sin (x - G)) <= Rabs d * eps /\ Rabs (d * (cos x * C + sin x * S) - d * cos (x - G)) <= Rabs d * eps.
Proof.
  intros [H1 H2]. rewrite sin_minus, cos_minus.
  assert (P : forall u v, -1 <= u <= 1 -> Rabs v <= 4 / 10000000000000000 -> Rabs (u * v) <= 4 / 10000000000000000).
  { intros u v U V. rewrite Rabs_mult. assert (Rabs u <= 1) by (apply Rabs_le; lra). assert (K := Rabs_pos u). assert (K' := Rabs_pos v). nra. }
  assert (P1 := P _ _ (SIN_bound x) H1). assert (P2 := P _ _ (COS_bound x) H2). assert (P3 := P _ _ (COS_bound x) H1). assert (P4 := P _ _ (SIN_bound x) H2).
  unfold eps. split.
  - rewrite <- Rmult_minus_distr_l, Rabs_mult. apply Rmult_le_compat_l; [apply Rabs_pos|]. apply Rabs_le_inv in P1, P2. apply Rabs_le; split; lra.
  - rewrite <- Rmult_minus_distr_l, Rabs_mult. apply Rmult_le_compat_l; [apply Rabs_pos|]. apply Rabs_le_inv in P3, P4. apply Rabs_le; split; lra.
Qed.

Definition slow_slope (ts : slow_terms) (w lambda : R) : R :=
  total (map (fun t => let '(d, j, k, G) := t in d * IZR k * cos (IZR j * w + IZR k * lambda - G)) ts).
Lemma slope_is ts w l : derivable_pt_lim (slow_rate ts w) l (slow_slope ts w l).
Proof.
  unfold slow_rate, slow_slope. induction ts as [|[[[d j] k] G] r IH]; cbn [map total fold_right].
  - apply derivable_pt_lim_const.
  - apply (derivable_pt_lim_plus (fun l => d * sin (IZR j * w + IZR k * l - G)) _ l _ _); [|exact IH].
    replace (d * IZR k * cos (IZR j * w + IZR k * l - G)) with (d * (cos (IZR j * w + IZR k * l - G) * IZR k)) by ring.
    apply (derivable_pt_lim_scal (fun l => sin (IZR j * w + IZR k * l - G))).
    apply (derivable_pt_lim_comp (fun l => IZR j * w + IZR k * l - G) sin); [|apply derivable_pt_lim_sin].
    enough (H : derivable_pt_lim (fun l => IZR j * w + IZR k * l - G) l (0 + IZR k * 1 - 0)) by (replace (0 + IZR k * 1 - 0) with (IZR k) in H by ring; exact H).
    apply (derivable_pt_lim_minus (fun l => IZR j * w + IZR k * l) (fun _ => G)); [|apply derivable_pt_lim_const].
    apply (derivable_pt_lim_plus (fun _ => IZR j * w) (fun l => IZR k * l)); [apply derivable_pt_lim_const|].
    apply (derivable_pt_lim_scal (fun l => l)). apply derivable_pt_lim_id.
Qed.

Ltac ic := unfold int; cbn [add sub mul div opp ltn len cst c_sin c_cos c_sqrt c_fabs c_pow ideal num fst snd]; change (num ideal) with R in *.
Ltac lit :=
  repeat match goal with
  | |- context [2 / 1] => replace (2 / 1) with 2 by lra
  | |- context [3 / 1] => replace (3 / 1) with 3 by lra
  | |- context [1 / 1] => replace (1 / 1) with 1 by lra
  end.
Lemma n22 : near (87051638752972937 / 100000000000000000) (- (49213943048915526 / 100000000000000000)) G22.
Proof. replace (- _) with (-49213943048915526 / 100000000000000000) by lra. exact near_G22. Qed.
Lemma n44 : near (- (22866241528815548 / 100000000000000000)) (97350577801807991 / 100000000000000000) G44.
Proof. replace (- _) with (-22866241528815548 / 100000000000000000) by lra. exact near_G44. Qed.
Lemma n54 : near (- (29695209575316894 / 100000000000000000)) (- (95489237761529999 / 100000000000000000)) G54.
Proof. replace (- (29695209575316894 / _)) with (-29695209575316894 / 100000000000000000) by lra. replace (- (95489237761529999 / _)) with (-95489237761529999 / 100000000000000000) by lra. exact near_G54. Qed.

Lemma cos3 l : cos (3 * l) = (2 * cos l * cos l - 1) * cos l - 2 * sin l * cos l * sin l.
Proof. replace (3 * l) with (2 * l + l) by ring. rewrite cos_plus, sin_2a, cos_2a_cos. ring. Qed.
Lemma sin3 l : sin (3 * l) = 2 * sin l * cos l * cos l + (2 * cos l * cos l - 1) * sin l.
Proof. replace (3 * l) with (2 * l + l) by ring. rewrite sin_plus, sin_2a, cos_2a_cos. ring. Qed.

Lemma day_derivs om od d1 d2 d3 l a : let '(r0, r1) := compute_dpsec_derivs ideal om od (Synchronous ideal d1 d2 d3) l a in
  let ts := day_terms d1 d2 d3 in let w := om + od * a in
  Rabs (r0 - slow_rate ts w l) <= eps * slow_size ts /\ Rabs (r1 - slow_slope ts w l) <= eps * slow_size ts.
Proof.
  unfold compute_dpsec_derivs. cbv zeta. ic. lit.
  change (num ideal) with R in *. set (w := om + od * a).
  destruct (one _ _ _ l d1 near_lambda31) as [A1 B1].
  assert (N2 : near (87051638752972937 / 100000000000000000) (- (49213943048915526 / 100000000000000000)) (2 * lambda22)).
  { replace (2 * lambda22) with G22 by (unfold lambda22, G22; lra). exact n22. }
  destruct (one _ _ _ (2 * l) d2 N2) as [A2 B2]. destruct (one _ _ _ (3 * l) d3 near_tri33) as [A3 B3].
  rewrite (sin_2a l), (cos_2a_cos l) in A2, B2. rewrite sin3, cos3 in A3, B3.
  unfold slow_rate, slow_slope, slow_size, day_terms, total. cbn [map fold_right].
  rewrite !(Rabs_pos_eq (IZR (Z.pos _))) by (apply IZR_le; lia).
  replace (0 * w + 1 * l - lambda31) with (l - lambda31) by ring. replace (0 * w + 2 * l - 2 * lambda22) with (2 * l - 2 * lambda22) by ring.
  replace (0 * w + 3 * l - 3 * lambda33) with (3 * l - 3 * lambda33) by ring.
  assert (P1 := Rabs_pos d1). assert (P2 := Rabs_pos d2). assert (P3 := Rabs_pos d3).
  assert (E0 : 0 <= eps) by (unfold eps; lra). assert (Q1 := Rmult_le_pos _ _ P1 E0). assert (Q2 := Rmult_le_pos _ _ P2 E0). assert (Q3 := Rmult_le_pos _ _ P3 E0).
  apply Rabs_le_inv in A1, A2, A3, B1, B2, B3.
  split; apply Rabs_le; split; lra.
Qed.

Lemma half_derivs om od d2201 d2211 d3210 d3222 d4410 d4422 d5220 d5232 d5421 d5433 l a :
  let '(r0, r1) := compute_dpsec_derivs ideal om od (Half ideal d2201 d2211 d3210 d3222 d4410 d4422 d5220 d5232 d5421 d5433) l a in
  let ts := half_terms d2201 d2211 d3210 d3222 d4410 d4422 d5220 d5232 d5421 d5433 in let w := om + od * a in
  Rabs (r0 - slow_rate ts w l) <= eps * slow_size ts /\ Rabs (r1 - slow_slope ts w l) <= eps * slow_size ts.
Proof.
  unfold compute_dpsec_derivs. cbv zeta. ic. lit.
  change (num ideal) with R in *. set (w := om + od * a).
  destruct (one _ _ _ (l + 2 * w) d2201 n22) as [A1 B1].
  destruct (one _ _ _ l d2211 n22) as [A2 B2].
  destruct (one _ _ _ (l + w) d3210 near_G32) as [A3 B3].
  destruct (one _ _ _ (l - w) d3222 near_G32) as [A4 B4].
  destruct (one _ _ _ (2 * l + 2 * w) d4410 n44) as [A5 B5].
  destruct (one _ _ _ (2 * l) d4422 n44) as [A6 B6].
  destruct (one _ _ _ (l + w) d5220 near_G52) as [A7 B7].
  destruct (one _ _ _ (l - w) d5232 near_G52) as [A8 B8].
  destruct (one _ _ _ (2 * l + w) d5421 n54) as [A9 B9].
  destruct (one _ _ _ (2 * l - w) d5433 n54) as [A0 B0].
  unfold slow_rate, slow_slope, slow_size, half_terms, total. cbn [map fold_right].
  rewrite !(Rabs_pos_eq (IZR (Z.pos _))) by (apply IZR_le; lia).
  replace (2 * w + 1 * l - G22) with (l + 2 * w - G22) by ring.
  replace (0 * w + 1 * l - G22) with (l - G22) by ring.
  replace (1 * w + 1 * l - G32) with (l + w - G32) by ring.
  replace (-1 * w + 1 * l - G32) with (l - w - G32) by ring.
  replace (2 * w + 2 * l - G44) with (2 * l + 2 * w - G44) by ring.
  replace (0 * w + 2 * l - G44) with (2 * l - G44) by ring.
  replace (1 * w + 1 * l - G52) with (l + w - G52) by ring.
  replace (-1 * w + 1 * l - G52) with (l - w - G52) by ring.
  replace (1 * w + 2 * l - G54) with (2 * l + w - G54) by ring.
  replace (-1 * w + 2 * l - G54) with (2 * l - w - G54) by ring.
  set (s1 := sin (l + 2 * w - G22)) in *. set (s2 := sin (l - G22)) in *. set (s3 := sin (l + w - G32)) in *. set (s4 := sin (l - w - G32)) in *. set (s5 := sin (2 * l + 2 * w - G44)) in *.
  set (s6 := sin (2 * l - G44)) in *. set (s7 := sin (l + w - G52)) in *. set (s8 := sin (l - w - G52)) in *. set (s9 := sin (2 * l + w - G54)) in *. set (s0 := sin (2 * l - w - G54)) in *.
  set (c1 := cos (l + 2 * w - G22)) in *. set (c2 := cos (l - G22)) in *. set (c3 := cos (l + w - G32)) in *. set (c4 := cos (l - w - G32)) in *. set (c5 := cos (2 * l + 2 * w - G44)) in *.
  set (c6 := cos (2 * l - G44)) in *. set (c7 := cos (l + w - G52)) in *. set (c8 := cos (l - w - G52)) in *. set (c9 := cos (2 * l + w - G54)) in *. set (c0 := cos (2 * l - w - G54)) in *.
  clearbody s1 s2 s3 s4 s5 s6 s7 s8 s9 s0 c1 c2 c3 c4 c5 c6 c7 c8 c9 c0 w.
  repeat first [rewrite sin_plus in * | rewrite cos_plus in * | rewrite sin_minus in * | rewrite cos_minus in *].
  repeat first [rewrite (sin_2a l) in * | rewrite (cos_2a_cos l) in * | rewrite (sin_2a w) in * | rewrite (cos_2a_cos w) in *].
  assert (E0 : 0 <= eps) by (unfold eps; lra).
  assert (Q : forall d, 0 <= Rabs d * eps) by (intros d; apply Rmult_le_pos; [apply Rabs_pos|exact E0]).
  assert (Q5 := Q d4410). assert (Q6 := Q d4422). assert (Q9 := Q d5421). assert (Q0 := Q d5433). clear Q.
  apply Rabs_le_inv in A1, A2, A3, A4, A5, A6, A7, A8, A9, A0, B1, B2, B3, B4, B5, B6, B7, B8, B9, B0.
  split; apply Rabs_le; split; lra.
Qed.

Lemma step_taylor f xfact h at_ n l : 
  let '(d0, d1) := f l at_ in
  let '(l', n') := dpsec_step ideal f xfact h at_ n l in (n', l') = taylor2 xfact h n l d0 d1 :> R * R.
Proof. unfold dpsec_step, taylor2. destruct (f l at_) as [d0 d1]. ic. f_equal; lra. Qed.
