(** The terms of the program for one body, with the components of its two directions along the orbit of the satellite. *)
From Coq Require Import ZArith Reals Lra.
From Verif Require Import CLib ArithModel GeoLemmas OrbModel DeepModel DeepProofs1 DeepProofs7 ThirdSpec ThirdProofs1 ThirdProofs2.
Open Scope R_scope.

Local Notation A := ideal.
Local Infix "+." := (add A) (at level 50, left associativity).
Local Infix "-." := (sub A) (at level 50, left associativity).
Local Infix "*." := (mul A) (at level 40, left associativity).
Local Infix "/." := (div A) (at level 40, left associativity).
Local Infix "<." := (ltn A) (at level 70).
Local Notation "# n" := (int A n) (at level 1).
Definition core (e incl cosg sing eosq betao betao2 xnq zn cc ze a1 a2 a3 a4 a5 a6 : num A) : rates A :=
  let x1 := a1 *. cosg +. a2 *. sing in
  let x2 := a3 *. cosg +. a4 *. sing in
  let x3 := opp A a1 *. sing +. a2 *. cosg in
  let x4 := opp A a3 *. sing +. a4 *. cosg in
  let x5 := a5 *. sing in
  let x6 := a6 *. sing in
  let x7 := a5 *. cosg in
  let x8 := a6 *. cosg in
  let z31 := #12 *. x1 *. x1 -. #3 *. x3 *. x3 in
  let z32 := #24 *. x1 *. x2 -. #6 *. x3 *. x4 in
  let z33 := #12 *. x2 *. x2 -. #3 *. x4 *. x4 in
  let z11 := #(-6) *. a1 *. a5 +. eosq *. (#(-24) *. x1 *. x7 -. #6 *. x3 *. x5) in
  let z12 := #(-6) *. (a1 *. a6 +. a3 *. a5) +. eosq *.
            (#(-24) *. (x2 *. x7 +. x1 *. x8) -. #6 *. (x3 *. x6 +. x4 *. x5)) in
  let z13 := #(-6) *. a3 *. a6 +. eosq *. (#(-24) *. x2 *. x8 -. #6 *. x4 *. x6) in
  let z21 := #6 *. a2 *. a5 +. eosq *. (#24 *. x1 *. x5 -. #6 *. x3 *. x7) in
  let z22 := #6 *. (a4 *. a5 +. a2 *. a6) +. eosq *.
            (#24 *. (x2 *. x5 +. x1 *. x6) -. #6 *. (x4 *. x7 +. x3 *. x8)) in
  let z23 := #6 *. a4 *. a6 +. eosq *. (#24 *. x2 *. x6 -. #6 *. x4 *. x8) in
  let s3 := cc /. xnq in
  let s2 := opp A (cst A 5 10) *. s3 /. betao in
  let s4 := s3 *. betao in
  let s1 := #(-15) *. e *. s4 in
  let s5 := x1 *. x3 +. x2 *. x4 in
  let s6 := x2 *. x3 +. x1 *. x4 in
  let s7 := x2 *. x4 -. x1 *. x3 in
  let z1 := #3 *. (a1 *. a1 +. a2 *. a2) +. z31 *. eosq in
  let z2 := #6 *. (a1 *. a3 +. a2 *. a4) +. z32 *. eosq in
  let z3 := #3 *. (a3 *. a3 +. a4 *. a4) +. z33 *. eosq in
  let z1 := z1 +. z1 +. betao2 *. z31 in
  let z2 := z2 +. z2 +. betao2 *. z32 in
  let z3 := z3 +. z3 +. betao2 *. z33 in
  let se := s1 *. zn *. s5 in
  let si := s2 *. zn *. (z11 +. z13) in
  let sl := opp A zn *. s3 *. (z1 +. z3 -. #14 -. #6 *. eosq) in
  let sgh := s4 *. zn *. (z31 +. z33 -. #6) in
  let sh := if incl <. o_pi A /. #60 then #0 else - zn *. s2 *. (z21 +. z23) in
  mk_rates A se si sl sgh sh
    (mk_amps A (#2 *. s1 *. s6) (#2 *. s1 *. s7) (#2 *. s2 *. z12) (#2 *. s2 *. (z13 -. z11))
       (#(-2) *. s3 *. z2) (#(-2) *. s3 *. (z3 -. z1)) (#(-2) *. s3 *. (#(-21) -. #9 *. eosq) *. ze)
       (#2 *. s4 *. z32) (#2 *. s4 *. (z33 -. z31)) (#(-18) *. s4 *. ze)
       (#(-2) *. s2 *. z22) (#(-2) *. s2 *. (z23 -. z21))).

Lemma third_body_core e incl ci si cw sw eosq b b2 n zcosg zsing zcosi zsini zcosh zsinh zn cc ze :
  let a1 := zcosg * zcosh + zsing * zcosi * zsinh in
  let a3 := - zsing * zcosh + zcosg * zcosi * zsinh in
  let a7 := - zcosg * zsinh + zsing * zcosi * zcosh in
  let a8 := zsing * zsini in
  let a9 := zsing * zsinh + zcosg * zcosi * zcosh in
  let a10 := zcosg * zsini in
  third_body ideal e incl ci si cw sw eosq b b2 n zcosg zsing zcosi zsini zcosh zsinh zn cc ze =
  core e incl cw sw eosq b b2 n zn cc ze a1 (ci * a7 + si * a8) a3 (ci * a9 + si * a10) (- si * a7 + ci * a8) (- si * a9 + ci * a10).
Proof. reflexivity. Qed.

(** ** The drift and the terms, with the components p, q, c *)
Definition drift_pqc (k n b e ci si cw sw p q c : R) : drift :=
  let dh := k * (3 / 2 * c * ((1 + 4 * (e * e)) * (p * sw) + (1 - e * e) * (q * cw))) / (n * b * si) in
  mk_drift (- k * b / n * (15 / 2 * e * (p * q)))
    (k * (3 / 2 * c * ((1 + 4 * (e * e)) * (p * cw) - (1 - e * e) * (q * sw))) / (n * b))
    (k * b / n * (6 * (p * p) - 3 / 2 * (q * q) - 3 / 2) - ci * dh) dh
    (- k * (b * b) / n * (6 * (p * p) - 3 / 2 * (q * q) - 3 / 2) - 4 * k / n * quad_of p q e).
Lemma drift_of_pqc s k n e i w h : drift_of s k n e i w h = drift_pqc k n (sqrt (1 - e * e)) e (cos i) (sin i) (cos w) (sin w) (P s i w h) (Q s i w h) (W s i h).
Proof. reflexivity. Qed.

Ltac reals := unfold core; cbv zeta; cbn [w_se w_si w_sl w_sgh w_sh w_amps q_e2 q_e3 q_i2 q_i3 q_l2 q_l3 q_l4 q_gh2 q_gh3 q_gh4 q_h2 q_h3]; rewrite ?int_ideal, ?cst_ideal;
  change (add ideal) with Rplus; change (sub ideal) with Rminus; change (mul ideal) with Rmult; change (div ideal) with Rdiv; change (opp ideal) with Ropp; change (num ideal) with R.

Section Core.
Context (e i n b ci si cw sw zn cc ze a1 a2 a3 a4 a5 a6 : R).
Context (N : n <> 0) (B : b <> 0) (S : si <> 0) (Bb : b * b = 1 - e * e) (T : sw * sw = 1 - cw * cw).
Let r := core e i cw sw (e * e) b (1 - e * e) n zn cc ze a1 a2 a3 a4 a5 a6.
Let D := drift_pqc (4 * cc * zn) n b e ci si cw sw.
Let p1 := a1 * cw + a2 * sw.
Let q1 := - a1 * sw + a2 * cw.
Let p2 := a3 * cw + a4 * sw.
Let q2 := - a3 * sw + a4 * cw.
Let d := half_sum (D p1 q1 a5) (D p2 q2 a6).
Lemma core_se : w_se ideal r = r_e d.
Proof. unfold r. reals. unfold d, half_sum, D, drift_pqc. cbn [r_e]. fold p1 p2 q1 q2. field. assumption. Qed.
Lemma core_si : w_si ideal r = r_i d.
Proof.
  unfold r. reals. unfold d, half_sum, D, drift_pqc. cbn [r_i]. unfold p1, p2, q1, q2. field [T]. split; assumption.
Qed.
Lemma core_sl : w_sl ideal r = r_m d.
Proof.
  unfold r. reals. unfold d, half_sum, D, drift_pqc, quad_of. cbn [r_m]. unfold p1, p2, q1, q2. field [T Bb]. assumption.
Qed.
Lemma core_sgh : w_sgh ideal r = r_w d + ci * r_h d.
Proof.
  unfold r. reals. unfold d, half_sum, D, drift_pqc. cbn [r_w r_h]. fold p1 p2 q1 q2. field. repeat split; assumption.
Qed.
Lemma core_sh : PI / 60 <= i -> w_sh ideal r = si * r_h d.
Proof.
  intros I. unfold r. reals. change (ltn ideal i (o_pi ideal / 60)) with (Rltb i (PI / 60)). replace (Rltb i (PI / 60)) with false by (symmetry; apply Rltb_f; assumption). cbv iota.
  unfold d, half_sum, D, drift_pqc. cbn [r_h]. unfold p1, p2, q1, q2. field [T]. repeat split; assumption.
Qed.
Lemma core_sh0 : i < PI / 60 -> w_sh ideal r = 0.
Proof. intros I. unfold r. reals. change (ltn ideal i (o_pi ideal / 60)) with (Rltb i (PI / 60)). replace (Rltb i (PI / 60)) with true by (symmetry; apply Rltb_t; assumption). reflexivity. Qed.

(** The rate of the periodic terms when the body is at the angle with cosine k and sine s. *)
Context (k s : R) (U : s * s = 1 - k * k) (Z : zn <> 0).
Let pf := k * p1 + s * p2.
Let qf := k * q1 + s * q2.
Let cf := k * a5 + s * a6.
Let x := D pf qf cf.
Let d0 := mk_drift 0 0 (4 * cc * zn * b / n * (- (3 / 2))) 0 (- (4 * cc * zn) * (b * b) / n * (- (3 / 2)) - 4 * (4 * cc * zn) / n * (- (1 / 2) * (1 + 3 / 2 * (e * e)))).
Let q := w_amps ideal r.
Lemma core_pe : q_e2 ideal q * (s * k) + q_e3 ideal q * (- (1 / 2) * (k * k - s * s)) = (r_e x - r_e d) / zn.
Proof. unfold q, r. reals. unfold x, d, half_sum, D, drift_pqc. cbn [r_e]. unfold pf, qf. fold p1 p2 q1 q2. field [U]. split; assumption. Qed.
Lemma core_pinc : q_i2 ideal q * (s * k) + q_i3 ideal q * (- (1 / 2) * (k * k - s * s)) = (r_i x - r_i d) / zn.
Proof. unfold q, r. reals. unfold x, d, half_sum, D, drift_pqc. cbn [r_i]. unfold pf, qf, cf, p1, p2, q1, q2. field [U T]. repeat split; assumption. Qed.
Lemma core_pl : q_l2 ideal q * (s * k) + q_l3 ideal q * (- (1 / 2) * (k * k - s * s)) + q_l4 ideal q * k = (r_m x - r_m d + 3 * ze * k * r_m d0) / zn.
Proof. unfold q, r. reals. unfold x, d, d0, half_sum, D, drift_pqc, quad_of. cbn [r_m]. unfold pf, qf, cf, p1, p2, q1, q2. field [U T Bb]. repeat split; assumption. Qed.
Lemma core_pgh : q_gh2 ideal q * (s * k) + q_gh3 ideal q * (- (1 / 2) * (k * k - s * s)) + q_gh4 ideal q * k
  = ((r_w x + ci * r_h x) - (r_w d + ci * r_h d) + 3 * ze * k * (r_w d0 + ci * r_h d0)) / zn.
Proof. unfold q, r. reals. unfold x, d, d0, half_sum, D, drift_pqc. cbn [r_w r_h]. unfold pf, qf. fold p1 p2 q1 q2. field [U]. repeat split; assumption. Qed.
Lemma core_ph : q_h2 ideal q * (s * k) + q_h3 ideal q * (- (1 / 2) * (k * k - s * s)) = si * (r_h x - r_h d) / zn.
Proof. unfold q, r. reals. unfold x, d, half_sum, D, drift_pqc. cbn [r_h]. unfold pf, qf, cf, p1, p2, q1, q2. field [U T]. repeat split; assumption. Qed.
End Core.
