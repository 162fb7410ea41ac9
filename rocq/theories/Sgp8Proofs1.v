(** The derivatives of the rates of decay along a curve of orbits. *)
From Coq Require Import Reals Lra Psatz.
From Verif Require Import OrbSpec Sgp8Spec ThirdProofs1.
Open Scope R_scope.

Lemma D_div f g x a b : derivable_pt_lim f x a -> derivable_pt_lim g x b -> g x <> 0 -> derivable_pt_lim (fun y => f y / g y) x ((a * g x - b * f x) / (g x * g x)).
Proof. intros F G N. assert (H := derivable_pt_lim_div f g x a b F G N). unfold Rsqr in H. exact H. Qed.
Lemma D_pow f x a n : derivable_pt_lim f x a -> derivable_pt_lim (fun y => f y ^ n) x (INR n * f x ^ pred n * a).
Proof. intros F. apply (derivable_pt_lim_comp f (fun y => y ^ n) x a (INR n * f x ^ pred n) F (derivable_pt_lim_pow (f x) n)). Qed.
Lemma D_cos_of f x a : derivable_pt_lim f x a -> derivable_pt_lim (fun y => cos (f y)) x (- sin (f x) * a).
Proof. intros F. exact (derivable_pt_lim_comp f cos x a _ F (derivable_pt_lim_cos (f x))). Qed.
Lemma D_sin_of f x a : derivable_pt_lim f x a -> derivable_pt_lim (fun y => sin (f y)) x (cos (f x) * a).
Proof. intros F. exact (derivable_pt_lim_comp f sin x a _ F (derivable_pt_lim_sin (f x))). Qed.
Lemma D_sqrt_of f x a : derivable_pt_lim f x a -> 0 < f x -> derivable_pt_lim (fun y => sqrt (f y)) x (a / (2 * sqrt (f x))).
Proof.
  intros F P. eapply D_eq; [exact (derivable_pt_lim_comp f sqrt x a _ F (derivable_pt_lim_sqrt (f x) P))|].
  assert (0 < sqrt (f x)) by (apply sqrt_lt_R0; exact P). field. lra.
Qed.
Lemma D_power f x a c : derivable_pt_lim f x a -> 0 < f x -> derivable_pt_lim (fun y => Rpower (f y) c) x (Rpower (f x) c * (c * a / f x)).
Proof.
  intros F P. unfold Rpower. assert (L := derivable_pt_lim_comp f ln x a _ F (derivable_pt_lim_ln (f x) P)).
  assert (M := D_mult (fun _ => c) (fun y => ln (f y)) x 0 _ (D_const c x) L).
  assert (X := derivable_pt_lim_comp _ exp x _ _ M (derivable_pt_lim_exp _)).
  eapply D_eq; [exact X|]. cbv beta. unfold comp. set (w := exp _). field. lra.
Qed.

Section Curve.
Context (bstar i n0 a0 : R) (n e g n1 e1 g1 : R -> R).
Context (t : R).
Context (Hn : derivable_pt_lim n t (n1 t)) (He : derivable_pt_lim e t (e1 t)) (Hg : derivable_pt_lim g t (g1 t)).
Context (N0 : 0 < n0) (A0 : 0 < a0).
Local Notation s := height_s.
(** the words of the report along the curve *)
Let A t := axis n0 a0 (n t).
Let P t := par_p n0 a0 (n t) (e t).
Let X t := x_i n0 a0 (n t) (e t).
Let H t := et_a n0 a0 (n t) (e t).
Let S2 t := psi_2 n0 a0 (n t) (e t).
Let C0 t := C_0 bstar n0 a0 (n t) (e t).
Let C1 t := C_1 bstar n0 a0 (n t) (e t).
Let D1 t := D_1 n0 a0 (n t) (e t).
Let D5 t := D_5 n0 a0 (n t) (e t).
(** their logarithmic derivatives *)
Definition Nn t := n1 t / n t.
Definition TS t := 2 * A t * X t * (1 / 3 * Nn t * (1 - e t ^ 2) + e t * e1 t).
Definition AL t := e t * e1 t / (1 + e t ^ 2).
Definition ET t := (e1 t + e t * TS t) * X t * s.
Definition PS t := - H t * ET t / S2 t.
Definition L0 t := 1 / 3 * Nn t + 4 * TS t - AL t - 7 * PS t.
Definition L1 t := Nn t + 4 * AL t + L0 t.
Definition D14 t := TS t - 2 * PS t.
Definition D15 t := 2 * (1 / 3 * Nn t + e t * e1 t / (1 - e t ^ 2)).

Context (Pn : 0 < n t) (Pe : e t ^ 2 < 1) (Ps : s < P t) (Ph : 0 < S2 t).
Lemma A_pos : 0 < A t.
Proof. unfold A, axis. apply Rmult_lt_0_compat; [exact A0|]. apply exp_pos. Qed.
Lemma D_A : derivable_pt_lim A t (A t * (- (2 / 3) * Nn t)).
Proof.
  unfold A, axis, Nn. eapply D_eq; [apply D_mult; [apply D_const|apply D_power; [apply D_div; [apply D_const|exact Hn|lra]|]]|cbv beta].
  - apply Rdiv_lt_0_compat; lra.
  - field. lra.
Qed.
Lemma s_pos : 0 < s.
Proof. unfold height_s, XKMPER. lra. Qed.
Lemma X_is : X t = 1 / (P t - s). Proof. reflexivity. Qed.
Lemma X_pos : 0 < X t. Proof. rewrite X_is. apply Rdiv_lt_0_compat; lra. Qed.
Lemma D_P : derivable_pt_lim P t (P t * - D15 t).
Proof.
  assert (Q := A_pos). eapply D_eq; [apply (D_mult A (fun t => 1 - e t ^ 2)); [exact D_A|apply D_minus; [apply D_const|apply D_pow; exact He]]|cbv beta].
  change (P t) with (A t * (1 - e t ^ 2)). unfold D15. cbn [INR pred pow]. field. cbn [pow] in Pe. lra.
Qed.
Lemma D_X : derivable_pt_lim X t (X t * TS t).
Proof.
  eapply D_eq; [apply (D_div (fun _ => 1) (fun t => P t - s)); [apply D_const|apply D_minus; [exact D_P|apply D_const]|lra]|cbv beta].
  unfold TS. rewrite X_is. unfold D15. assert (E : P t = A t * (1 - e t ^ 2)) by reflexivity. assert (Ps' := Ps). rewrite E in *. field. cbn [pow] in *. lra.
Qed.
Lemma D_H : derivable_pt_lim H t (ET t).
Proof.
  eapply D_eq; [apply (D_mult (fun t => e t * s) X); [apply D_mult; [exact He|apply D_const]|exact D_X]|cbv beta]. unfold ET. ring.
Qed.
Lemma D_S2 : derivable_pt_lim S2 t (S2 t * (2 * PS t)).
Proof.
  eapply D_eq; [apply (D_minus (fun _ => 1) (fun t => H t ^ 2)); [apply D_const|apply D_pow; exact D_H]|cbv beta]. cbn [INR pred pow]. unfold PS. field. lra.
Qed.
Lemma D_al : derivable_pt_lim (fun t => alpha (e t)) t (alpha (e t) * AL t).
Proof.
  assert (Q : 0 < 1 + e t ^ 2) by nra. unfold alpha. eapply D_eq; [apply D_sqrt_of; [apply D_plus; [apply D_const|apply D_pow; exact He]|exact Q]|cbv beta].
  unfold AL. assert (R := sqrt_sqrt (1 + e t ^ 2) ltac:(lra)). assert (0 < sqrt (1 + e t ^ 2)) by (apply sqrt_lt_R0; exact Q).
  set (w := sqrt (1 + e t ^ 2)) in *. rewrite <- R. cbn [INR pred pow]. field. lra.
Qed.
Lemma al_pos : 0 < alpha (e t). Proof. apply sqrt_lt_R0. nra. Qed.
Lemma D_C0 : derivable_pt_lim C0 t (C0 t * L0 t).
Proof.
  assert (Q := al_pos). assert (Q2 : 0 < Rpower (S2 t) (7 / 2)) by apply exp_pos. assert (Q3 := X_pos). assert (Q4 := A_pos).
  eapply D_eq.
  - apply (D_div (fun t => bstar * q_s * n t * A t * X t ^ 4) (fun t => alpha (e t) * Rpower (S2 t) (7 / 2))).
    + apply D_mult; [apply D_mult; [apply D_mult; [apply D_const|exact Hn]|exact D_A]|apply D_pow; exact D_X].
    + apply D_mult; [exact D_al|apply D_power; [exact D_S2|exact Ph]].
    + apply Rgt_not_eq, Rmult_lt_0_compat; assumption.
  - cbv beta. change (C0 t) with (bstar * q_s * n t * A t * X t ^ 4 / (alpha (e t) * Rpower (S2 t) (7 / 2))). unfold L0, Nn.
    set (w := Rpower (S2 t) (7 / 2)) in *. replace (INR 4) with 4 by (cbn; ring). cbn [pred pow]. field. repeat split; lra.
Qed.
Lemma D_C1 : derivable_pt_lim C1 t (C1 t * L1 t).
Proof.
  eapply D_eq; [apply (D_mult (fun t => 3 / 2 * n t * alpha (e t) ^ 4) C0); [apply D_mult; [apply D_mult; [apply D_const|exact Hn]|apply D_pow; exact D_al]|exact D_C0]|cbv beta].
  change (C1 t) with (3 / 2 * n t * alpha (e t) ^ 4 * C0 t). unfold L1. replace (INR 4) with 4 by (cbn; ring). cbn [pred pow].
  replace (n1 t) with (n t * Nn t) by (unfold Nn; field; lra). ring.
Qed.
Lemma D_D5 : derivable_pt_lim D5 t (D5 t * D14 t).
Proof.
  eapply D_eq; [apply (D_div X S2); [exact D_X|exact D_S2|lra]|cbv beta]. change (D5 t) with (X t / S2 t). unfold D14. field. lra.
Qed.
Lemma D_D1 : derivable_pt_lim D1 t (D1 t * (D14 t + D15 t)).
Proof.
  assert (Q := s_pos). eapply D_eq; [apply (D_div D5 P); [exact D_D5|exact D_P|lra]|cbv beta]. change (D1 t) with (D5 t / P t). field. lra.
Qed.

(** ** The first derivatives of the rates *)
Let B1 := B_1 i.
Let B2 := B_2 i.
Let B3 := B_3 i.
Let NR t := n_rate bstar i n0 a0 (n t) (e t) (g t).
Let ER t := e_rate bstar i n0 a0 (n t) (e t) (g t).
Let GR t := g_rate i n0 a0 (n t) (e t).
Definition d2' h := 72 * h + 18 * h ^ 3.
Definition d3' h := 30 * h + 10 * h ^ 3.
Definition d4' h := 5 + 45 / 4 * h ^ 2.
Definition d6' h := 30 + 135 / 2 * h ^ 2.
Definition d7' h := 5 + 75 / 2 * h ^ 2.
Definition d8' h := 27 / 2 * h + 4 * h ^ 3.
Definition D1t t := D1 t * (D14 t + D15 t).
Definition D5t t := D5 t * D14 t.
Definition C4t t := B2 * (D1t t * D_3 (H t) + D1 t * (ET t * d3' (H t))).
Definition C5t t := B3 * (D5t t * D_4 (H t) + D5 t * (ET t * d4' (H t))).
Definition D9 t := H t * (68 * e t ^ 2 + 6) + e t * (15 * H t ^ 2 + 20).
Definition D10 t := 5 * H t * (H t ^ 2 + 4) + e t * (68 * H t ^ 2 + 17).
Definition D16 t := D9 t * ET t + D10 t * e1 t + B1 * (D1t t * D_2 (H t) + D1 t * (ET t * d2' (H t))) + C4t t * cos (2 * g t) + C5t t * sin (g t)
  + g1 t * (D5 t * D_4 (H t) * B3 * cos (g t) - D1 t * D_3 (H t) * B2 * (2 * sin (2 * g t))).
Definition N1 t := L1 t * NR t + C1 t * D16 t.
Definition E1 t := L0 t * ER t - C0 t *
  ((3 * H t ^ 2 + 4 + 30 * e t * H t + e t ^ 2 * (21 * H t ^ 2 + 31 / 2)) * ET t + (15 * H t ^ 2 + 5 + e t * H t * (14 * H t ^ 2 + 31)) * e1 t
   + B1 * (D1t t * D_6 (H t) + D1 t * (ET t * d6' (H t))) + B2 * (D1t t * D_7 (H t) + D1 t * (ET t * d7' (H t))) * cos (2 * g t)
   + B3 * (D5t t * D_8 (H t) + D5 t * (ET t * d8' (H t))) * sin (g t)
   + g1 t * (D5 t * D_8 (H t) * B3 * cos (g t) - D1 t * D_7 (H t) * B2 * (2 * sin (2 * g t)))).
Lemma D_2g : derivable_pt_lim (fun t => 2 * g t) t (2 * g1 t).
Proof. eapply D_eq; [apply D_mult; [apply D_const|exact Hg]|cbv beta; ring]. Qed.
Ltac dd := repeat first [apply D_const | exact Hn | exact He | exact Hg | exact D_H | exact D_D1 | exact D_D5 | exact D_C0 | exact D_C1
  | exact (D_cos_of _ _ _ D_2g) | exact (D_sin_of _ _ _ D_2g) | exact (D_cos_of _ _ _ Hg) | exact (D_sin_of _ _ _ Hg)
  | apply (D_plus (fun t => _) (fun t => _)) | apply (D_minus (fun t => _) (fun t => _)) | apply (D_opp (fun t => _)) | apply (D_mult (fun t => _) (fun t => _))
  | apply (D_pow (fun t => _))].
Lemma D_NR : derivable_pt_lim NR t (N1 t).
Proof.
  unfold NR, n_rate. cbv zeta. change (fun t => et_a n0 a0 (n t) (e t)) with H.
  eapply D_eq.
  - apply (D_mult C1 (fun t => 2 + H t ^ 2 * (3 + 34 * e t ^ 2) + 5 * e t * H t * (4 + H t ^ 2) + 17 / 2 * e t ^ 2
             + D1 t * D_2 (H t) * B1 + D1 t * D_3 (H t) * B2 * cos (2 * g t) + D5 t * D_4 (H t) * B3 * sin (g t))).
    + dd.
    + unfold D_2, D_3, D_4. dd.
  - cbv beta. change (NR t) with (C1 t * (2 + H t ^ 2 * (3 + 34 * e t ^ 2) + 5 * e t * H t * (4 + H t ^ 2) + 17 / 2 * e t ^ 2
             + D1 t * D_2 (H t) * B1 + D1 t * D_3 (H t) * B2 * cos (2 * g t) + D5 t * D_4 (H t) * B3 * sin (g t))).
    unfold N1, D16, C4t, C5t, D1t, D5t, D9, D10, D_2, D_3, D_4, d2', d3', d4'.
    change (NR t) with (C1 t * (2 + H t ^ 2 * (3 + 34 * e t ^ 2) + 5 * e t * H t * (4 + H t ^ 2) + 17 / 2 * e t ^ 2
             + D1 t * D_2 (H t) * B1 + D1 t * D_3 (H t) * B2 * cos (2 * g t) + D5 t * D_4 (H t) * B3 * sin (g t))).
    unfold D_2, D_3, D_4. cbn [INR pred]. field.
Qed.
Lemma D_ER : derivable_pt_lim ER t (E1 t).
Proof.
  eapply D_eq.
  - apply (D_mult (fun t => - C0 t) (fun t => H t * (4 + H t ^ 2 + e t ^ 2 * (31 / 2 + 7 * H t ^ 2)) + e t * (5 + 15 * H t ^ 2)
               + D1 t * D_6 (H t) * B1 + D1 t * D_7 (H t) * B2 * cos (2 * g t) + D5 t * D_8 (H t) * B3 * sin (g t))).
    + dd.
    + unfold D_6, D_7, D_8. dd.
  - cbv beta. unfold E1.
    change (ER t) with (- C0 t * (H t * (4 + H t ^ 2 + e t ^ 2 * (31 / 2 + 7 * H t ^ 2)) + e t * (5 + 15 * H t ^ 2)
               + D1 t * D_6 (H t) * B1 + D1 t * D_7 (H t) * B2 * cos (2 * g t) + D5 t * D_8 (H t) * B3 * sin (g t))).
    unfold D1t, D5t, D_6, D_7, D_8, d6', d7', d8'. cbn [INR pred]. field.
Qed.
Lemma D_GR : derivable_pt_lim GR t (GR t * (Nn t + 2 * D15 t)).
Proof.
  assert (Q := s_pos). assert (QP : 0 < P t) by lra. eapply D_eq.
  - apply (D_mult (fun t => - (3 / 2) * K2 * n t / P t ^ 2) (fun _ => 1 - 5 * cos i ^ 2)); [apply (D_div (fun t => _) (fun t => _))|apply D_const].
    + apply (D_mult (fun t => _) (fun t => _)); [apply D_const|exact Hn].
    + apply D_pow. exact D_P.
    + apply pow_nonzero. lra.
  - cbv beta. change (GR t) with (- (3 / 2) * K2 * n t / P t ^ 2 * (1 - 5 * cos i ^ 2)).
    replace (n1 t) with (n t * Nn t) by (unfold Nn; field; lra). cbn [INR pred]. field. lra.
Qed.

(** ** The second derivative of the rate of the mean motion *)
Context (n2 e2 g2 : R -> R).
Context (Hn1 : derivable_pt_lim n1 t (n2 t)) (He1 : derivable_pt_lim e1 t (e2 t)) (Hg1 : derivable_pt_lim g1 t (g2 t)).
Definition D17 t := n2 t / n t - Nn t ^ 2.
Definition TS2 t := 2 * TS t * (TS t - 1 / 3 * Nn t) + A t * X t * (2 / 3 * (1 - e t ^ 2) * D17 t - 4 / 3 * Nn t * (e t * e1 t) + 2 * (e1 t ^ 2 + e t * e2 t)).
Definition ET2 t := (e2 t + 2 * e1 t * TS t) * X t * s + TS2 t * H t.
Definition D18 t := TS2 t - TS t ^ 2.
Definition D19 t := - (ET t ^ 2 + H t * ET2 t) / S2 t - 2 * PS t ^ 2.
Definition ALt t := (e1 t ^ 2 + e t * e2 t) / (1 + e t ^ 2) - 2 * AL t ^ 2.
Definition D15t t := 2 / 3 * D17 t + 2 * ((1 + e t ^ 2) * e1 t ^ 2 / (1 - e t ^ 2) + e t * e2 t) / (1 - e t ^ 2).
Lemma D_Nn : derivable_pt_lim Nn t (D17 t).
Proof. unfold D17. eapply D_eq; [apply (D_div n1 n); [exact Hn1|exact Hn|lra]|cbv beta]. unfold Nn. field. lra. Qed.
Lemma D_TS : derivable_pt_lim TS t (D18 t).
Proof.
  eapply D_eq.
  - apply (D_mult (fun t => 2 * A t * X t) (fun t => 1 / 3 * Nn t * (1 - e t ^ 2) + e t * e1 t)).
    + apply (D_mult (fun t => 2 * A t) X); [apply (D_mult (fun _ => 2) A); [apply D_const|exact D_A]|exact D_X].
    + apply (D_plus (fun t => _) (fun t => _)); [apply (D_mult (fun t => _) (fun t => _)); [apply (D_mult (fun _ => _) Nn); [apply D_const|exact D_Nn]|apply D_minus; [apply D_const|apply D_pow; exact He]]|apply D_mult; [exact He|exact He1]].
  - cbv beta. unfold D18, TS2. unfold TS at 3. assert (E : TS t = 2 * A t * X t * (1 / 3 * Nn t * (1 - e t ^ 2) + e t * e1 t)) by reflexivity.
    set (x := TS t) in *. clearbody x. rewrite E. cbn [INR pred]. field.
Qed.
Lemma D_ET : derivable_pt_lim ET t (ET2 t).
Proof.
  eapply D_eq; [apply (D_mult (fun t => (e1 t + e t * TS t) * X t) (fun _ => s)); [apply (D_mult (fun t => e1 t + e t * TS t) X); [apply D_plus; [exact He1|apply (D_mult e TS); [exact He|exact D_TS]]|exact D_X]|apply D_const]|cbv beta].
  unfold ET2, D18. change (H t) with (e t * s * X t). ring.
Qed.
Lemma D_PS : derivable_pt_lim PS t (D19 t).
Proof.
  eapply D_eq; [apply (D_div (fun t => - H t * ET t) S2); [apply D_mult; [apply D_opp; exact D_H|exact D_ET]|exact D_S2|lra]|cbv beta].
  unfold D19, PS. field. lra.
Qed.
Lemma D_AL : derivable_pt_lim AL t (ALt t).
Proof.
  assert (Q : 0 < 1 + e t ^ 2) by nra. eapply D_eq; [apply (D_div (fun t => e t * e1 t) (fun t => 1 + e t ^ 2)); [apply D_mult; [exact He|exact He1]|apply D_plus; [apply D_const|apply D_pow; exact He]|lra]|cbv beta].
  unfold ALt, AL. cbn [INR pred]. field. cbn [pow] in Q. lra.
Qed.
Lemma D_L1 : derivable_pt_lim L1 t (4 / 3 * D17 t + 3 * ALt t + 4 * D18 t - 7 * D19 t).
Proof.
  eapply D_eq; [unfold L1, L0; apply (D_plus (fun t => Nn t + 4 * AL t) (fun t => 1 / 3 * Nn t + 4 * TS t - AL t - 7 * PS t))|].
  - apply D_plus; [exact D_Nn|apply D_mult; [apply D_const|exact D_AL]].
  - apply D_minus; [apply D_minus; [apply D_plus; (apply D_mult; [apply D_const|])|]|apply D_mult; [apply D_const|]]; [exact D_Nn|exact D_TS|exact D_AL|exact D_PS].
  - cbv beta. field.
Qed.
Lemma D_D14 : derivable_pt_lim D14 t (D18 t - 2 * D19 t).
Proof. eapply D_eq; [apply (D_minus TS (fun t => 2 * PS t)); [exact D_TS|apply D_mult; [apply D_const|exact D_PS]]|cbv beta; ring]. Qed.
Lemma D_D15 : derivable_pt_lim D15 t (D15t t).
Proof.
  eapply D_eq; [apply (D_mult (fun _ => 2) (fun t => 1 / 3 * Nn t + e t * e1 t / (1 - e t ^ 2))); [apply D_const|apply D_plus; [apply D_mult; [apply D_const|exact D_Nn]|
    apply D_div; [apply D_mult; [exact He|exact He1]|apply D_minus; [apply D_const|apply D_pow; exact He]|lra]]]|cbv beta].
  unfold D15t. cbn [INR pred]. field. cbn [pow] in Pe. lra.
Qed.
Definition D1tt t := D1t t * (D14 t + D15 t) + D1 t * (D18 t - 2 * D19 t + D15t t).
Definition D5tt t := D5t t * D14 t + D5 t * (D18 t - 2 * D19 t).
Lemma D_D1t : derivable_pt_lim D1t t (D1tt t).
Proof. eapply D_eq; [apply (D_mult D1 (fun t => D14 t + D15 t)); [exact D_D1|apply D_plus; [exact D_D14|exact D_D15]]|cbv beta; unfold D1tt, D1t; ring]. Qed.
Lemma D_D5t : derivable_pt_lim D5t t (D5tt t).
Proof. eapply D_eq; [apply (D_mult D5 D14); [exact D_D5|exact D_D14]|cbv beta; unfold D5tt, D5t; ring]. Qed.
Definition N2 t := NR t * (4 / 3 * D17 t + 3 * ALt t + 4 * D18 t - 7 * D19 t) + L1 t * N1 t + C1 t * (L1 t * D16 t + D9 t * ET2 t + D10 t * e2 t
  + ET t ^ 2 * (30 * e t * H t + 6 + 68 * e t ^ 2) + ET t * e1 t * (30 * H t ^ 2 + 40 + 272 * (e t * H t)) + e1 t ^ 2 * (68 * H t ^ 2 + 17)
  + B1 * (D1tt t * D_2 (H t) + 2 * D1t t * (ET t * d2' (H t)) + D1 t * (ET2 t * d2' (H t) + ET t ^ 2 * (72 + 54 * H t ^ 2)))
  + B2 * (D1tt t * D_3 (H t) + 2 * D1t t * (ET t * d3' (H t)) + D1 t * (ET2 t * d3' (H t) + ET t ^ 2 * (30 + 30 * H t ^ 2))) * cos (2 * g t)
  + B3 * (D5tt t * D_4 (H t) + 2 * D5t t * (ET t * d4' (H t)) + D5 t * (ET2 t * d4' (H t) + ET t ^ 2 * (45 / 2 * H t))) * sin (g t)
  + g2 t * (D5 t * D_4 (H t) * B3 * cos (g t) - D1 t * D_3 (H t) * B2 * (2 * sin (2 * g t)))
  + g1 t * (2 * C5t t * cos (g t) - 4 * C4t t * sin (2 * g t) - g1 t * (D5 t * D_4 (H t) * B3 * sin (g t) + 4 * (D1 t * D_3 (H t) * B2) * cos (2 * g t)))).
Ltac dd2 := repeat first [apply D_const | exact Hn | exact He | exact Hg | exact He1 | exact Hg1 | exact D_H | exact D_D1 | exact D_D5 | exact D_C0 | exact D_C1 | exact D_NR
  | exact D_ET | exact D_D1t | exact D_D5t | exact D_L1
  | exact (D_cos_of _ _ _ D_2g) | exact (D_sin_of _ _ _ D_2g) | exact (D_cos_of _ _ _ Hg) | exact (D_sin_of _ _ _ Hg)
  | apply (D_plus (fun t => _) (fun t => _)) | apply (D_minus (fun t => _) (fun t => _)) | apply (D_opp (fun t => _)) | apply (D_mult (fun t => _) (fun t => _))
  | apply (D_pow (fun t => _))].
Lemma D_N1 : derivable_pt_lim N1 t (N2 t).
Proof.
  eapply D_eq.
  - apply (D_plus (fun t => L1 t * NR t) (fun t => C1 t * D16 t)); [apply (D_mult L1 NR); [exact D_L1|exact D_NR]|apply (D_mult C1 D16); [exact D_C1|]].
    unfold D16, C4t, C5t, D9, D10, D_2, D_3, D_4, d2', d3', d4'. dd2.
  - cbv beta. change (D1 t * (D14 t + D15 t)) with (D1t t). change (D5 t * D14 t) with (D5t t). unfold N2. set (l1 := L1 t). set (nr := NR t). set (n1' := N1 t). unfold D16, C4t, C5t, D9, D10, D_2, D_3, D_4, d2', d3', d4'. cbn [INR pred]. field.
Qed.
End Curve.
