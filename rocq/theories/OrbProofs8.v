(** The loop for Kepler's equation ends when the eccentricity of date (long-period terms included) is at most 1/4. *)
From Coq Require Import ZArith Reals Lra Lia Bool Psatz.
From Verif Require Import CLib FloatModel ArithModel GeoLemmas OrbModel OrbSpec OrbTerms OrbProofs1 OrbProofs2 OrbProofs3 OrbProofs6.
Open Scope R_scope.

Section Newton.
Context (x y ecc U : R) (H : x * x + y * y <= (1 / 4) ^ 2).
Let el := sqrt (x * x + y * y).
Let slope (t : R) : R := 1 - (x * cos t + y * sin t).
Let bend (t : R) : R := x * sin t - y * cos t.

Lemma el4 : 0 <= el <= 1 / 4.
Proof.
  split; [apply sqrt_pos|]. rewrite <- (sqrt_pow2 (1 / 4)) by lra. apply sqrt_le_1; try lra.
  assert (0 <= x * x) by apply Rle_0_sqr. assert (0 <= y * y) by apply Rle_0_sqr. lra.
Qed.
Lemma H1 : x * x + y * y < 1. Proof. lra. Qed.
Lemma slope_range t : 3 / 4 <= slope t <= 5 / 4.
Proof. unfold slope. destruct (el_bound x y t) as [B _]. fold el in B. apply Rabs_inv in B. destruct el4. lra. Qed.
Lemma bend_range t : Rabs (bend t) <= 1 / 4.
Proof. unfold bend. destruct (el_bound x y t) as [_ B]. fold el in B. destruct el4. lra. Qed.
Lemma slope_der t : derivable_pt_lim slope t (bend t).
Proof.
  unfold slope, bend. replace (x * sin t - y * cos t) with (0 - (x * (- sin t) + y * cos t)) by ring.
  apply (derivable_pt_lim_minus (fun _ => 1) (fun t => x * cos t + y * sin t)); [apply derivable_pt_lim_const|].
  apply (derivable_pt_lim_plus (fun t => x * cos t) (fun t => y * sin t)).
  - apply (derivable_pt_lim_scal cos). apply derivable_pt_lim_cos.
  - apply (derivable_pt_lim_scal sin). apply derivable_pt_lim_sin.
Qed.
Lemma slope_lip s t : Rabs (slope t - slope s) <= 1 / 4 * Rabs (t - s).
Proof.
  assert (L : forall s t, s < t -> Rabs (slope t - slope s) <= 1 / 4 * Rabs (t - s)).
  { clear s t. intros s t Q. destruct (MVT_cor2 slope bend s t Q) as (c & C1 & _); [intros; apply slope_der|].
    rewrite C1, Rabs_mult. apply Rmult_le_compat_r; [apply Rabs_pos | apply bend_range]. }
  destruct (Rtotal_order s t) as [Q|[->|Q]].
  - apply L, Q.
  - rewrite !Rminus_diag_eq by reflexivity. rewrite Rabs_R0. lra.
  - rewrite (Rabs_minus_sym (slope t)), (Rabs_minus_sym t). apply L, Q.
Qed.
(** With d the error of E: the defect is slope * d up to d^2 / 4. *)
Lemma taylor E d : exists s, 3 / 4 <= s <= 5 / 4 /\ g_left x y (E + d) - g_left x y E = s * d /\ Rabs (s - slope E) <= 1 / 4 * Rabs d.
Proof.
  destruct (Rtotal_order 0 d) as [Q|[<-|Q]].
  - destruct (MVT_cor2 (g_left x y) slope E (E + d) ltac:(lra)) as (c & C1 & C2); [intros; apply g_der|].
    exists (slope c). split; [apply slope_range|]. split; [rewrite C1; ring|].
    eapply Rle_trans; [apply slope_lip|]. apply Rmult_le_compat_l; [lra|]. rewrite !Rabs_pos_eq by lra. lra.
  - exists (slope E). split; [apply slope_range|]. rewrite Rplus_0_r. split; [ring|]. rewrite Rminus_diag_eq, Rabs_R0 by reflexivity. lra.
  - destruct (MVT_cor2 (g_left x y) slope (E + d) E ltac:(lra)) as (c & C1 & C2); [intros; apply g_der|].
    exists (slope c). split; [apply slope_range|]. split; [lra|].
    eapply Rle_trans; [apply slope_lip|]. apply Rmult_le_compat_l; [lra|]. rewrite !Rabs_left1 by lra. lra.
Qed.

Definition step (first : bool) (E : R) : R :=
  let f := U - E + bend E in
  let delta := f / slope E in
  let m := 125 / 100 * Rabs ecc in
  if first then
    if Rltb m delta then m else if Rltb delta (- m) then - m else f / (slope E + 5 / 10 * bend E * delta)
  else f / (slope E + 5 / 10 * bend E * delta).
Lemma kepler_step n first E : kepler ideal (S n) first x y U ecc E =
  if Rltb (Rabs (U - E + bend E)) (1 / 1000000000000) then Some E else kepler ideal n false x y U ecc (E + step first E).
Proof.
  cbn [kepler]. cbn [c_sin c_cos add sub mul div c_fabs ltn neg cst ideal]. assert (I1 : int ideal 1 = 1) by (unfold int; cbn; lra). rewrite I1.
  fold (bend E). unfold step. fold (slope E). destruct (Rltb (Rabs _) _); [reflexivity|].
  destruct first; [|reflexivity]. destruct (Rltb _ _); [reflexivity|]. destruct (Rltb _ _); reflexivity.
Qed.

Context (root : R) (Hr : g_left x y root = U).
Lemma defect_at E : exists s, 3 / 4 <= s <= 5 / 4 /\ U - E + bend E = s * (root - E) /\ Rabs (s - slope E) <= 1 / 4 * Rabs (root - E).
Proof.
  destruct (taylor E (root - E)) as (s & S1 & S2 & S3). replace (E + (root - E)) with root in S2 by ring. exists s. split; [exact S1|]. split; [|exact S3].
  rewrite <- S2, Hr. unfold g_left, bend. ring.
Qed.
Lemma newton_halley E b : Rabs (root - E) <= b -> b <= 1 / 3 ->
  Rabs (root - (E + (U - E + bend E) / (slope E + 5 / 10 * bend E * ((U - E + bend E) / slope E)))) <= 7 / 10 * (b * b).
Proof.
  intros B1 B2. destruct (defect_at E) as (s & S1 & -> & S3). set (d := root - E) in *. assert (SR := slope_range E). assert (BR := bend_range E).
  set (o := slope E) in *. set (c := bend E) in *.
  assert (DP := Rabs_pos d).
  assert (HH : Rabs (5 / 10 * c * (s * d / o)) <= 5 / 24 * Rabs d).
  { replace (5 / 10 * c * (s * d / o)) with (c * (s * / o) * d * (1 / 2)) by (field; lra). rewrite !Rabs_mult, Rbasic_fun.Rabs_inv. rewrite (Rabs_pos_eq o), (Rabs_pos_eq s), (Rabs_pos_eq (1 / 2)) by lra.
    assert (I : / o <= 4 / 3). { replace (4 / 3) with (/ (3 / 4)) by field. apply Rinv_le_contravar; lra. } assert (I0 : 0 < / o) by (apply Rinv_0_lt_compat; lra).
    assert (A1 : s * / o <= 5 / 4 * (4 / 3)) by (apply Rmult_le_compat; lra). assert (A0 : 0 <= s * / o) by (apply Rmult_le_pos; lra).
    assert (A2 : Rabs c * (s * / o) <= 1 / 4 * (5 / 4 * (4 / 3))) by (apply Rmult_le_compat; try lra; apply Rabs_pos).
    assert (A3 : Rabs c * (s * / o) * Rabs d <= 1 / 4 * (5 / 4 * (4 / 3)) * Rabs d) by (apply Rmult_le_compat_r; lra). lra. }
  set (h := 5 / 10 * c * (s * d / o)) in *.
  assert (D0 : 49 / 72 <= o + h). { apply Rabs_inv in HH. lra. }
  replace (root - (E + s * d / (o + h))) with ((o + h - s) * d / (o + h)) by (unfold d; field; lra).
  unfold Rdiv at 1. rewrite !Rabs_mult, Rbasic_fun.Rabs_inv, (Rabs_pos_eq (o + h)) by lra.
  assert (N : Rabs (o + h - s) <= 11 / 24 * Rabs d).
  { replace (o + h - s) with (h + - (s - o)) by ring. eapply Rle_trans; [apply Rabs_triang|]. rewrite Rabs_Ropp. lra. }
  assert (I : / (o + h) <= 72 / 49). { replace (72 / 49) with (/ (49 / 72)) by field. apply Rinv_le_contravar; lra. }
  assert (I0 : 0 < / (o + h)) by (apply Rinv_0_lt_compat; lra).
  assert (N2 : Rabs (o + h - s) * Rabs d <= 11 / 24 * Rabs d * Rabs d) by (apply Rmult_le_compat_r; lra).
  assert (DD : Rabs d * Rabs d <= b * b) by (apply Rmult_le_compat; lra).
  apply Rle_trans with (11 / 24 * (b * b) * (72 / 49)).
  - apply Rmult_le_compat; try lra. apply Rmult_le_pos; apply Rabs_pos.
  - assert (0 <= b * b) by apply Rle_0_sqr. lra.
Qed.
Lemma first_step E : Rabs (root - E) <= 1 / 3 -> Rabs (root - (E + step true E)) <= 1 / 3.
Proof.
  intros B. unfold step. destruct (defect_at E) as (s & S1 & EQ & S3). assert (SR := slope_range E).
  assert (M : 0 <= 125 / 100 * Rabs ecc) by (apply Rmult_le_pos; [lra|apply Rabs_pos]). set (m := 125 / 100 * Rabs ecc) in *.
  assert (Q1 : (U - E + bend E) / slope E = s / slope E * (root - E)) by (rewrite EQ; field; lra).
  assert (Q2 : 0 < s / slope E <= 5 / 3).
  { split; [apply Rdiv_lt_0_compat; lra|]. apply (Rmult_le_reg_r (slope E)); [lra|]. replace (s / slope E * slope E) with s by (field; lra). lra. }
  set (rr := s / slope E) in *. apply Rabs_inv in B. set (d := root - E) in *.
  destruct (Rltb m _) eqn:L1.
  - apply Rltb_t in L1. rewrite Q1 in L1. assert (0 < d). { destruct (Rle_dec d 0); [|lra]. exfalso. assert (0 <= rr * (- d)) by (apply Rmult_le_pos; lra). lra. }
    assert (rr * d <= 5 / 3 * d) by (apply Rmult_le_compat_r; lra). replace (root - (E + m)) with (d - m) by (unfold d; ring). apply Rabs_le. lra.
  - destruct (Rltb _ (- m)) eqn:L2.
    + apply Rltb_t in L2. rewrite Q1 in L2. assert (d < 0). { destruct (Rle_dec 0 d); [|lra]. exfalso. assert (0 <= rr * d) by (apply Rmult_le_pos; lra). lra. }
      assert (rr * (- d) <= 5 / 3 * (- d)) by (apply Rmult_le_compat_r; lra). replace (root - (E + - m)) with (d + m) by (unfold d; ring). apply Rabs_le. lra.
    + eapply Rle_trans; [apply (newton_halley E (1 / 3))|]; [apply Rabs_le; fold d; lra | lra | lra].
Qed.
Lemma close_ends n first E : Rabs (root - E) < 8 / 10 ^ 13 -> exists E', kepler ideal (S n) first x y U ecc E = Some E'.
Proof.
  intros B. rewrite kepler_step. destruct (defect_at E) as (s & S1 & EQ & _).
  replace (Rltb _ _) with true; [eexists; reflexivity|]. symmetry. apply Rltb_t. rewrite EQ, Rabs_mult, (Rabs_pos_eq s) by lra.
  assert (s * Rabs (root - E) <= 5 / 4 * Rabs (root - E)) by (apply Rmult_le_compat_r; [apply Rabs_pos|lra]). lra.
Qed.
Lemma one_more n E b c : Rabs (root - E) <= b -> b <= 1 / 3 -> 7 / 10 * (b * b) <= c ->
  (forall E, Rabs (root - E) <= c -> exists E', kepler ideal n false x y U ecc E = Some E') ->
  exists E', kepler ideal (S n) false x y U ecc E = Some E'.
Proof.
  intros B1 B2 C IH. rewrite kepler_step. destruct (Rltb _ _); [eexists; reflexivity|]. apply IH. eapply Rle_trans; [|exact C].
  apply newton_halley; assumption.
Qed.
Lemma seven n : exists E', kepler ideal (7 + n) true x y U ecc U = Some E'.
Proof.
  assert (B : Rabs (root - U) <= 1 / 3).
  { destruct (defect_at U) as (s & S1 & EQ & _). replace (U - U + bend U) with (bend U) in EQ by ring. assert (BR := bend_range U).
    rewrite EQ, Rabs_mult, (Rabs_pos_eq s) in BR by lra.
    assert (3 / 4 * Rabs (root - U) <= s * Rabs (root - U)) by (apply Rmult_le_compat_r; [apply Rabs_pos|lra]). lra. }
  change (7 + n)%nat with (S (6 + n)). rewrite kepler_step. destruct (Rltb _ _); [eexists; reflexivity|].
  apply first_step in B. set (E1 := U + step true U) in *. clearbody E1.
  apply (one_more (5 + n) E1 (1 / 3) (8 / 100) B); [lra | lra |]. clear E1 B. intros E1 B.
  apply (one_more (4 + n) E1 (8 / 100) (45 / 10 ^ 4) B); [lra | lra |]. clear E1 B. intros E1 B.
  apply (one_more (3 + n) E1 (45 / 10 ^ 4) (15 / 10 ^ 6) B); [lra | lra |]. clear E1 B. intros E1 B.
  apply (one_more (2 + n) E1 (15 / 10 ^ 6) (2 / 10 ^ 10) B); [lra | lra |]. clear E1 B. intros E1 B.
  apply (one_more (1 + n) E1 (2 / 10 ^ 10) (1 / 10 ^ 13) B); [lra | lra |]. clear E1 B. intros E1 B.
  apply close_ends. lra.
Qed.
End Newton.

Lemma kepler_ends x y ecc U : x * x + y * y <= (1 / 4) ^ 2 -> exists E, kepler ideal 10 true x y U ecc U = Some E.
Proof. intros H. destruct (g_onto x y ltac:(lra) U) as [root R]. exact (seven x y ecc U H root R 3). Qed.

Lemma posn_converges node a e i w L : 0 < a -> e ^ 2 <> 1 -> eL2 a e i w <= 1 / 16 ->
  pl_code ideal (sxpx_posn_vel ideal node a e (cos i) (sin i) i w L) = (if Rlt_dec (Rmin (a * (1 - e)) (a * (1 + e))) 1 then -4 else 0)%Z.
Proof.
  intros Ha He El. destruct (posn_cases node a e i w L Ha He) as [(_ & B)|[(C & _)|(U & E & k & C & _)]]; [lra | | exact C]. exfalso.
  revert C. rewrite posn_mirror. unfold q_first. rewrite elsq_eq by assumption.
  replace (Rltb (1 / 1 - 1 / 1000000) (eL2 a e i w)) with false by (symmetry; apply Rltb_f; lra).
  replace (Rltb a (0 / 1)) with false by (symmetry; apply Rltb_f; lra). cbn [negb Z.eqb].
  rewrite axn_eq, ayn_eq by assumption.
  match goal with |- context [kepler ideal 10 true ?x ?y ?U ?e ?U] => destruct (kepler_ends x y e U) as [E K]; [|rewrite K] end.
  - unfold eL2 in El. lra.
  - cbn [pl_code]. unfold q_code. destruct (_ && _)%bool; destruct (_ || _)%bool; discriminate.
Qed.

Lemma ex_converges : exists E, kepler ideal 10 true (1 / 10) (1 / 5) 3 (1 / 4) 3 = Some E.
Proof. apply kepler_ends. lra. Qed.
