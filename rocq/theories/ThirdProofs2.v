(** The equations of Lagrange for the averaged tide, and the terms of the program. *)
From Coq Require Import ZArith Reals Lra.
From Verif Require Import CLib ArithModel GeoLemmas OrbModel DeepModel DeepProofs1 DeepProofs7 ThirdSpec ThirdProofs1.
Open Scope R_scope.

(** ** The components of a direction along the orbit *)
Section Components.
Context (s : space).
Definition P (i w h : R) : R := inner s (toward_p i w h).
Definition Q (i w h : R) : R := inner s (toward_q i w h).
(** ... and along its pole *)
Definition W (i h : R) : R := inner s (sin i * sin h, - sin i * cos h, cos i).
Lemma P_w i w h : derivable_pt_lim (fun x => P i x h) w (Q i w h).
Proof. unfold P, Q, inner, toward_p, toward_q, pericentre, quadrature. destruct s as [[x y] z]. cbv beta iota. eapply D_eq; [derive|cbv beta; ring]. Qed.
Lemma Q_w i w h : derivable_pt_lim (fun x => Q i x h) w (- P i w h).
Proof. unfold P, Q, inner, toward_p, toward_q, pericentre, quadrature. destruct s as [[x y] z]. cbv beta iota. eapply D_eq; [derive|cbv beta; ring]. Qed.
Lemma P_i i w h : derivable_pt_lim (fun x => P x w h) i (sin w * W i h).
Proof. unfold P, W, inner, toward_p, toward_q, pericentre, quadrature. destruct s as [[x y] z]. cbv beta iota. eapply D_eq; [derive|cbv beta; ring]. Qed.
Lemma Q_i i w h : derivable_pt_lim (fun x => Q x w h) i (cos w * W i h).
Proof. unfold Q, W, inner, toward_p, toward_q, pericentre, quadrature. destruct s as [[x y] z]. cbv beta iota. eapply D_eq; [derive|cbv beta; ring]. Qed.
Lemma P_h i w h : derivable_pt_lim (fun x => P i w x) h (cos i * Q i w h - sin i * cos w * W i h).
Proof.
  unfold P, Q, W, inner, toward_p, toward_q, pericentre, quadrature. destruct s as [[x y] z]. cbv beta iota. eapply D_eq; [derive|cbv beta].
  pose proof (square_trig i) as T. assert (T' : sin i * sin i = 1 - cos i * cos i) by lra. ring [T'].
Qed.
Lemma Q_h i w h : derivable_pt_lim (fun x => Q i w x) h (- cos i * P i w h + sin i * sin w * W i h).
Proof.
  unfold P, Q, W, inner, toward_p, toward_q, pericentre, quadrature. destruct s as [[x y] z]. cbv beta iota. eapply D_eq; [derive|cbv beta].
  pose proof (square_trig i) as T. assert (T' : sin i * sin i = 1 - cos i * cos i) by lra. ring [T'].
Qed.
(** ** The derivatives of the averaged tide *)
Section At.
Context (e i w h : R).
Let p := P i w h.
Let q := Q i w h.
Let c := W i h.
Lemma quad_e : derivable_pt_lim (fun x => quad s x i w h) e (e * (6 * (p * p) - 3 / 2 * (q * q) - 3 / 2)).
Proof. unfold quad, quad_of. fold (P i w h) (Q i w h). fold p q. eapply D_eq; [derive|cbv beta; field]. Qed.
Lemma quad_var (g f : R -> R) (x g' f' : R) : derivable_pt_lim g x g' -> derivable_pt_lim f x f' ->
  derivable_pt_lim (fun y => quad_of (g y) (f y) e) x (3 / 2 * ((1 + 4 * (e * e)) * (g x * g') + (1 - e * e) * (f x * f'))).
Proof. intros G F. unfold quad_of. eapply D_eq; [repeat first [exact G | exact F | apply D_const | apply D_plus | apply D_minus | apply D_opp | apply D_mult]|cbv beta; field]. Qed.
Lemma quad_i : derivable_pt_lim (fun x => quad s e x w h) i (3 / 2 * ((1 + 4 * (e * e)) * (p * (sin w * c)) + (1 - e * e) * (q * (cos w * c)))).
Proof. exact (quad_var (fun x => P x w h) (fun x => Q x w h) i _ _ (P_i i w h) (Q_i i w h)). Qed.
Lemma quad_w : derivable_pt_lim (fun x => quad s e i x h) w (15 / 2 * (e * e) * (p * q)).
Proof. eapply D_eq; [exact (quad_var (fun x => P i x h) (fun x => Q i x h) w _ _ (P_w i w h) (Q_w i w h))|cbv beta; fold p q; field]. Qed.
Lemma quad_h : derivable_pt_lim (fun x => quad s e i w x) h
  (3 / 2 * ((1 + 4 * (e * e)) * (p * (cos i * q - sin i * cos w * c)) + (1 - e * e) * (q * (- cos i * p + sin i * sin w * c)))).
Proof. exact (quad_var (fun x => P i w x) (fun x => Q i w x) h _ _ (P_h i w h) (Q_h i w h)). Qed.
End At.
(** The drift under the tide of a body in this direction. *)
Definition drift_of (k n e i w h : R) : drift :=
  let b := sqrt (1 - e * e) in
  let p := P i w h in let q := Q i w h in let c := W i h in
  let dh := k * (3 / 2 * c * ((1 + 4 * (e * e)) * (p * sin w) + (1 - e * e) * (q * cos w))) / (n * b * sin i) in
  mk_drift (- k * b / n * (15 / 2 * e * (p * q)))
    (k * (3 / 2 * c * ((1 + 4 * (e * e)) * (p * cos w) - (1 - e * e) * (q * sin w))) / (n * b))
    (k * b / n * (6 * (p * p) - 3 / 2 * (q * q) - 3 / 2) - cos i * dh) dh
    (- k * (b * b) / n * (6 * (p * p) - 3 / 2 * (q * q) - 3 / 2) - 4 * k / n * quad s e i w h).
Lemma lagrange_quad k n e i w h : n <> 0 -> 0 < e < 1 -> sin i <> 0 -> lagrange k (quad s) n e i w h (drift_of k n e i w h).
Proof.
  intros N E S. assert (B : sqrt (1 - e * e) <> 0) by (apply Rgt_not_eq, sqrt_lt_R0; nra). assert (E0 : e <> 0) by lra.
  eexists _, _, _, _. repeat match goal with |- _ /\ _ => split end; [apply quad_e|apply quad_i|apply quad_w|apply quad_h|].
  unfold drift_of. cbn [r_e r_i r_h r_w r_m]. set (b := sqrt (1 - e * e)) in *. clearbody b.
  set (p := P i w h). set (q := Q i w h). set (c := W i h).
  repeat split; field; repeat split; assumption.
Qed.
End Components.

Definition half_sum (a b : drift) : drift :=
  mk_drift (1 / 2 * (r_e a + r_e b)) (1 / 2 * (r_i a + r_i b)) (1 / 2 * (r_w a + r_w b)) (1 / 2 * (r_h a + r_h b)) (1 / 2 * (r_m a + r_m b)).
Lemma lagrange_half k F G n e i w h a b : lagrange k F n e i w h a -> lagrange k G n e i w h b ->
  lagrange k (fun e i w h => 1 / 2 * (F e i w h + G e i w h)) n e i w h (half_sum a b).
Proof.
  intros (Fe & Fi & Fw & Fh & D1 & D2 & D3 & D4 & E1 & E2 & E3 & E4 & E5) (Ge & Gi & Gw & Gh & C1 & C2 & C3 & C4 & H1 & H2 & H3 & H4 & H5).
  exists (1 / 2 * (Fe + Ge)), (1 / 2 * (Fi + Gi)), (1 / 2 * (Fw + Gw)), (1 / 2 * (Fh + Gh)).
  assert (X : forall f g x a b, derivable_pt_lim f x a -> derivable_pt_lim g x b -> derivable_pt_lim (fun y => 1 / 2 * (f y + g y)) x (1 / 2 * (a + b))).
  { intros f g x a' b' A B. eapply D_eq; [apply D_mult; [apply D_const|apply D_plus; [exact A|exact B]]|cbv beta; ring]. }
  repeat match goal with |- _ /\ _ => split end; try (apply X; assumption).
  cbv zeta in *. unfold half_sum. cbn [r_e r_i r_h r_w r_m]. rewrite E1, E2, E3, E4, E5, H1, H2, H3, H4, H5, E3, H3. unfold Rdiv. repeat split; ring.
Qed.
Definition drift2 (o : path) (k n e i w h : R) : drift := half_sum (drift_of (unit1 o) k n e i w h) (drift_of (unit2 o) k n e i w h).
Lemma lagrange_quad2 o k n e i w h : n <> 0 -> 0 < e < 1 -> sin i <> 0 -> lagrange k (quad2 o) n e i w h (drift2 o k n e i w h).
Proof. intros N E S. apply lagrange_half; apply lagrange_quad; assumption. Qed.
Definition drift0 (k n e i w h : R) : drift :=
  let b := sqrt (1 - e * e) in
  mk_drift 0 0 (k * b / n * (- (3 / 2))) 0 (- k * (b * b) / n * (- (3 / 2)) - 4 * k / n * (- (1 / 2) * (1 + 3 / 2 * (e * e)))).
Lemma lagrange_round k n e i w h : n <> 0 -> 0 < e < 1 -> sin i <> 0 -> lagrange k round_of n e i w h (drift0 k n e i w h).
Proof.
  intros N E S. assert (B : sqrt (1 - e * e) <> 0) by (apply Rgt_not_eq, sqrt_lt_R0; nra). assert (E0 : e <> 0) by lra.
  exists (- (3 / 2) * e), 0, 0, 0. unfold round_of. repeat match goal with |- _ /\ _ => split end; try apply D_const.
  { eapply D_eq; [derive|cbv beta; field]. }
  all: cbv zeta; unfold drift0; cbn [r_e r_i r_h r_w r_m]; set (b := sqrt (1 - e * e)) in *; clearbody b; repeat split; field; repeat split; assumption.
Qed.
