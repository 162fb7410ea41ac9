(** The averages of the tide. *)
From Coq Require Import Reals Lra Nsatz.
From Verif Require Import ThirdSpec.
Open Scope R_scope.

(** ** Derivatives *)
Lemma D_const c x : derivable_pt_lim (fun _ => c) x 0.
Proof. apply derivable_pt_lim_const. Qed.
Lemma D_id x : derivable_pt_lim (fun y => y) x 1.
Proof. apply derivable_pt_lim_id. Qed.
Lemma D_sin x : derivable_pt_lim (fun y => sin y) x (cos x).
Proof. apply derivable_pt_lim_sin. Qed.
Lemma D_cos x : derivable_pt_lim (fun y => cos y) x (- sin x).
Proof. apply derivable_pt_lim_cos. Qed.
Lemma D_plus f g x a b : derivable_pt_lim f x a -> derivable_pt_lim g x b -> derivable_pt_lim (fun y => f y + g y) x (a + b).
Proof. apply derivable_pt_lim_plus. Qed.
Lemma D_minus f g x a b : derivable_pt_lim f x a -> derivable_pt_lim g x b -> derivable_pt_lim (fun y => f y - g y) x (a - b).
Proof. apply derivable_pt_lim_minus. Qed.
Lemma D_opp f x a : derivable_pt_lim f x a -> derivable_pt_lim (fun y => - f y) x (- a).
Proof. apply derivable_pt_lim_opp. Qed.
Lemma D_mult f g x a b : derivable_pt_lim f x a -> derivable_pt_lim g x b -> derivable_pt_lim (fun y => f y * g y) x (a * g x + f x * b).
Proof. apply derivable_pt_lim_mult. Qed.
Lemma D_eq f x a b : derivable_pt_lim f x a -> a = b -> derivable_pt_lim f x b.
Proof. intros H <-. exact H. Qed.
Lemma D_ext f g x a : (forall y, f y = g y) -> derivable_pt_lim f x a -> derivable_pt_lim g x a.
Proof. intros E H e P. destruct (H e P) as [d D]. exists d. intros y N Y. rewrite <- !E. exact (D y N Y). Qed.
Ltac derive := repeat first [apply D_const | apply D_id | apply D_sin | apply D_cos | apply D_plus | apply D_minus | apply D_opp | apply D_mult].

Lemma square_trig x : sin x * sin x + cos x * cos x = 1.
Proof. exact (sin2_cos2 x). Qed.

(** ** The tide averaged over the orbit of the satellite *)
(** With p and q the components of the direction of the body along the pericentre and the quadrature of the orbit. *)
Definition quad_of (p q e : R) : R := 3 / 4 * ((1 + 4 * (e * e)) * (p * p) + (1 - e * e) * (q * q)) - 1 / 2 * (1 + 3 / 2 * (e * e)).
Definition quad (s : space) : potential := fun e i w h => quad_of (inner s (toward_p i w h)) (inner s (toward_q i w h)) e.
Definition integral_of (p q b e E : R) : R :=
  3 / 2 * (p * p) * (e * e * E - (2 * e + e * (e * e)) * sin E + (1 + 2 * (e * e)) * (1 / 2) * (E + sin E * cos E) - e * (sin E - sin E * (sin E * sin E) * (1 / 3)))
  + 3 * b * p * q * (e * cos E + (1 + e * e) * (1 / 2) * (sin E * sin E) + e * (1 / 3) * (cos E * (cos E * cos E)))
  + 3 / 2 * (b * b) * (q * q) * ((E - sin E * cos E) * (1 / 2) - e * (1 / 3) * (sin E * (sin E * sin E)))
  - 1 / 2 * (E - 3 * e * sin E + 3 / 2 * (e * e) * (E + sin E * cos E) - e * (e * e) * (sin E - sin E * (sin E * sin E) * (1 / 3))).
Lemma integral_deriv p q b e E : b * b = 1 - e * e ->
  derivable_pt_lim (integral_of p q b e) E
    ((1 - e * cos E) * (3 / 2 * (((cos E - e) * p + b * sin E * q) * ((cos E - e) * p + b * sin E * q)) - 1 / 2 * ((1 - e * cos E) * (1 - e * cos E)))).
Proof.
  intros B. unfold integral_of. eapply D_eq; [derive|cbv beta].
  pose proof (square_trig E) as T. set (s := sin E) in *. set (c := cos E) in *. clearbody s c.
  assert (T' : s * s = 1 - c * c) by lra. clear T. field [T' B].
Qed.
Lemma inner_along s k a l b : inner s (along k a l b) = k * inner s a + l * inner s b.
Proof. destruct s as [[x y] z], a as [[x1 y1] z1], b as [[x2 y2] z2]. cbn. ring. Qed.
Lemma along_inner s k a l b : inner (along k a l b) s = k * inner a s + l * inner b s.
Proof. destruct s as [[x y] z], a as [[x1 y1] z1], b as [[x2 y2] z2]. cbn. ring. Qed.
Lemma p_unit i w h : inner (toward_p i w h) (toward_p i w h) = 1.
Proof.
  cbn. pose proof (square_trig i). pose proof (square_trig w). pose proof (square_trig h).
  set (ci := cos i) in *; set (si := sin i) in *; set (cw := cos w) in *; set (sw := sin w) in *; set (ch := cos h) in *; set (sh := sin h) in *. clearbody ci si cw sw ch sh.
  nsatz.
Qed.
Lemma q_unit i w h : inner (toward_q i w h) (toward_q i w h) = 1.
Proof.
  cbn. pose proof (square_trig i). pose proof (square_trig w). pose proof (square_trig h).
  set (ci := cos i) in *; set (si := sin i) in *; set (cw := cos w) in *; set (sw := sin w) in *; set (ch := cos h) in *; set (sh := sin h) in *. clearbody ci si cw sw ch sh.
  nsatz.
Qed.
Lemma pq_right i w h : inner (toward_p i w h) (toward_q i w h) = 0.
Proof.
  cbn. pose proof (square_trig i). pose proof (square_trig w). pose proof (square_trig h).
  set (ci := cos i) in *; set (si := sin i) in *; set (cw := cos w) in *; set (sw := sin w) in *; set (ch := cos h) in *; set (sh := sin h) in *. clearbody ci si cw sw ch sh.
  nsatz.
Qed.
Lemma inner_sym a b : inner a b = inner b a.
Proof. destruct a as [[x1 y1] z1], b as [[x2 y2] z2]. cbn. ring. Qed.
Lemma beta2 e : 0 <= e < 1 -> sqrt (1 - e * e) * sqrt (1 - e * e) = 1 - e * e.
Proof. intros H. apply sqrt_sqrt. nra. Qed.
Lemma place_far e i w h E : 0 <= e < 1 -> inner (place e i w h E) (place e i w h E) = (1 - e * cos E) * (1 - e * cos E).
Proof.
  intros H. unfold place. rewrite along_inner, !inner_along, p_unit, q_unit, (inner_sym (toward_q i w h)), pq_right.
  pose proof (beta2 e H) as B. pose proof (square_trig E) as T. set (b := sqrt (1 - e * e)) in *. set (s := sin E) in *. set (c := cos E) in *. clearbody b s c.
  nsatz.
Qed.
Lemma tide_averaged s : over_orbit (tide s) (quad s).
Proof.
  intros e i w h H. exists (integral_of (inner s (toward_p i w h)) (inner s (toward_q i w h)) (sqrt (1 - e * e)) e). split.
  - intros E. eapply D_eq; [apply (integral_deriv _ _ _ e E), beta2, H|].
    unfold tide. rewrite (place_far e i w h E H). unfold place. rewrite inner_along. ring.
  - unfold quad, integral_of. generalize (inner s (toward_p i w h)), (inner s (toward_q i w h)). intros p q.
    rewrite sin_2PI, cos_2PI, sin_0, cos_0. unfold quad_of. pose proof (beta2 e H) as B. rewrite B. field.
Qed.
Definition round_of : potential := fun e _ _ _ => - (1 / 2) * (1 + 3 / 2 * (e * e)).
Lemma round_averaged : round_part round_of.
Proof.
  intros e i w h H. exists (integral_of 0 0 (sqrt (1 - e * e)) e). split.
  - intros E. eapply D_eq; [apply (integral_deriv _ _ _ e E), beta2, H|]. rewrite (place_far e i w h E H). ring.
  - unfold round_of, integral_of. rewrite sin_2PI, cos_2PI, sin_0, cos_0. field.
Qed.

(** ** The mean over the orbit of the body *)
Definition swing (a b c f : R) : R := 1 / 2 * (a + c) * f + 1 / 2 * (a - c) * (sin f * cos f) + b * (sin f * sin f).
Lemma swing_deriv a b c f : derivable_pt_lim (swing a b c) f (a * (cos f * cos f) + 2 * b * (sin f * cos f) + c * (sin f * sin f)).
Proof. unfold swing. eapply D_eq; [derive|cbv beta]. pose proof (square_trig f). set (s := sin f) in *. set (k := cos f) in *. clearbody s k. assert (T' : s * s = 1 - k * k) by lra. field [T']. Qed.
Lemma mean_quadratic g a b c d : (forall f, g f = a * (cos f * cos f) + 2 * b * (sin f * cos f) + c * (sin f * sin f) + d) -> mean g (1 / 2 * (a + c) + d).
Proof.
  intros E. exists (fun f => swing a b c f + d * f). split.
  - intros f. rewrite E. eapply D_eq; [apply D_plus; [apply swing_deriv|derive]|cbv beta; ring].
  - unfold swing. rewrite sin_2PI, cos_2PI, sin_0, cos_0. field.
Qed.
Definition unit1 (o : path) : space := pericentre (p_cw o) (p_sw o) (p_ci o) (p_si o) (p_ch o) (p_sh o).
Definition unit2 (o : path) : space := quadrature (p_cw o) (p_sw o) (p_ci o) (p_si o) (p_ch o) (p_sh o).
Definition quad2 (o : path) : potential := fun e i w h => 1 / 2 * (quad (unit1 o) e i w h + quad (unit2 o) e i w h).
Lemma raised_quad o : raised o (fun f => quad (body o f)).
Proof. intros f. apply tide_averaged. Qed.
Lemma raised_quad2 o : raised_mean o (quad2 o).
Proof.
  exists (fun f => quad (body o f)). split; [apply raised_quad|]. intros e i w h _.
  set (p1 := inner (unit1 o) (toward_p i w h)). set (q1 := inner (unit1 o) (toward_q i w h)).
  set (p2 := inner (unit2 o) (toward_p i w h)). set (q2 := inner (unit2 o) (toward_q i w h)).
  set (r := fun p p' q q' => 3 / 4 * ((1 + 4 * (e * e)) * (p * p') + (1 - e * e) * (q * q'))).
  replace (quad2 o e i w h) with (1 / 2 * (r p1 p1 q1 q1 + r p2 p2 q2 q2) + - (1 / 2) * (1 + 3 / 2 * (e * e))) by (unfold quad2, quad, quad_of, r; fold p1 p2 q1 q2; field).
  apply (mean_quadratic _ (r p1 p1 q1 q1) (r p1 p2 q1 q2) (r p2 p2 q2 q2) (- (1 / 2) * (1 + 3 / 2 * (e * e)))).
  intros f. unfold quad, body. rewrite !along_inner. fold (unit1 o) (unit2 o). fold p1 p2 q1 q2. unfold quad_of, r. field.
Qed.
