(** The orbit of the Moon, referred to the equator: what the short formulas of the program give. *)
From Coq Require Import ZArith Reals Lra Psatz.
From Verif Require Import GeoLemmas ThirdSpec ThirdProofs1.
Open Scope R_scope.

Definition cA : R := 91375164 / 100000000.
Definition cB : R := 3568096 / 100000000.
Definition cC : R := 89683511 / 1000000000.
Definition ce : R := 91744867 / 100000000.
Definition se : R := 39785416 / 100000000.
Definition cJ : R := 9959703147 / 10000000000.

Lemma abs2 x t : Rabs x <= t <-> - t <= x <= t.
Proof. split; [|apply Rabs_le]. intros H. pose proof (Rle_abs x). pose proof (Rle_abs (- x)). rewrite Rabs_Ropp in *. lra. Qed.
Lemma prod_near a b a' b' ta tb : Rabs (a - a') <= ta -> Rabs (b - b') <= tb -> Rabs a <= 1 -> Rabs b' <= 1 -> Rabs (a * b - a' * b') <= ta + tb.
Proof.
  intros X Y A B. replace (a * b - a' * b') with (a * (b - b') + (a - a') * b') by ring.
  eapply Rle_trans; [apply Rabs_triang|]. rewrite !Rabs_mult.
  assert (Rabs a * Rabs (b - b') <= 1 * tb) by (apply Rmult_le_compat; try apply Rabs_pos; assumption).
  assert (Rabs (a - a') * Rabs b' <= ta * 1) by (apply Rmult_le_compat; try apply Rabs_pos; assumption). lra.
Qed.
Lemma prod_small a b t u : Rabs a <= t -> Rabs b <= u -> Rabs (a * b) <= t * u.
Proof. intros A B. rewrite Rabs_mult. apply Rmult_le_compat; try apply Rabs_pos; assumption. Qed.

Section Moon.
Context (c s : R) (T : c * c + s * s = 1).
Definition m_ci : R := cA - cB * c.
Definition m_si : R := sqrt (1 - m_ci * m_ci).
Definition m_sh : R := cC * s / m_si.
Definition m_ch : R := sqrt (1 - m_sh * m_sh).
Definition m_x : R := se * s / m_si.
Definition m_y : R := m_ch * c + ce * m_sh * s.
Lemma c_in : -1 <= c <= 1.
Proof. nra. Qed.
Lemma s_in : -1 <= s <= 1.
Proof. nra. Qed.
Lemma ci_in : 878 / 1000 <= m_ci <= 9495 / 10000.
Proof. pose proof c_in. unfold m_ci, cA, cB. lra. Qed.
Lemma si2 : m_si * m_si = 1 - m_ci * m_ci.
Proof. pose proof ci_in. apply sqrt_sqrt. nra. Qed.
Lemma si_in : 313 / 1000 <= m_si <= 479 / 1000.
Proof. pose proof ci_in. pose proof si2 as E. assert (0 <= m_si) by apply sqrt_pos. split; nra. Qed.
Lemma si_nz : m_si <> 0.
Proof. pose proof si_in. lra. Qed.
Lemma sh_si : m_sh * m_si = cC * s.
Proof. unfold m_sh. field. exact si_nz. Qed.
Lemma sh_in : -(29 / 100) <= m_sh <= 29 / 100.
Proof.
  pose proof si_in as I. pose proof s_in as S. pose proof sh_si as E. unfold cC in E. split; apply Rnot_lt_le; intros H; nra.
Qed.
Lemma ch2 : m_ch * m_ch = 1 - m_sh * m_sh.
Proof. pose proof sh_in. apply sqrt_sqrt. nra. Qed.
Lemma ch_in : 95 / 100 <= m_ch <= 1.
Proof. pose proof sh_in. pose proof ch2. assert (0 <= m_ch) by apply sqrt_pos. split; nra. Qed.
(** The y component of the pole, and what it ought to be *)
Definition m_k : R := m_si * m_ch.
Definition m_t : R := cC * c * ce + cJ * se.
Lemma k2 : m_k * m_k = 1 - m_ci * m_ci - cC * cC * (s * s).
Proof. unfold m_k. replace (m_si * m_ch * (m_si * m_ch)) with (m_si * m_si * (m_ch * m_ch)) by ring. rewrite ch2, <- si2. replace (cC * cC * (s * s)) with (m_sh * m_si * (m_sh * m_si)) by (rewrite sh_si; ring). ring. Qed.
Lemma k_in : 29 / 100 <= m_k <= 479 / 1000.
Proof. pose proof si_in. pose proof ch_in. unfold m_k. split; nra. Qed.
Lemma t_in : 31 / 100 <= m_t <= 48 / 100.
Proof. pose proof c_in. unfold m_t, cC, ce, cJ, se. lra. Qed.
Lemma ci_err : Rabs (m_ci - (cJ * ce - cC * c * se)) <= 3 / 10 ^ 9.
Proof. pose proof c_in. apply abs2. unfold m_ci, cA, cB, cC, ce, cJ, se. lra. Qed.
Lemma k2_err : Rabs (m_k * m_k - m_t * m_t) <= 12 / 10 ^ 9.
Proof.
  pose proof c_in. rewrite k2. replace (s * s) with (1 - c * c) by lra. assert (0 <= c * c <= 1) by nra. apply abs2. unfold m_t, m_ci, cA, cB, cC, ce, cJ, se. split; nra.
Qed.
Lemma k_err : Rabs (m_k - m_t) <= 2 / 10 ^ 8.
Proof.
  pose proof k2_err as E. pose proof k_in. pose proof t_in. apply abs2 in E. apply abs2.
  replace (m_k * m_k - m_t * m_t) with ((m_k - m_t) * (m_k + m_t)) in E by ring. split; nra.
Qed.
Definition m_eta : R := ce * m_k - se * m_ci - cC * c.
Lemma eta_err : Rabs m_eta <= 25 / 10 ^ 9.
Proof.
  pose proof c_in. pose proof ci_err as A. pose proof k_err as B. apply abs2 in A, B. apply abs2. unfold m_eta.
  unfold m_t, cC, ce, cJ, se in *. lra.
Qed.
(** The direction of the node on the ecliptic *)
Lemma node_x : m_y * m_ch + m_x * (- m_ci * m_sh) = c + m_eta * (cC * (s * s) / (m_si * m_si)).
Proof.
  unfold m_y, m_x, m_eta. replace (m_sh) with (cC * s / m_si) by reflexivity. replace m_k with (m_si * m_ch) by reflexivity.
  assert (E : m_ch * m_ch = 1 - cC * s / m_si * (cC * s / m_si)) by apply ch2.
  replace ((m_ch * c + ce * (cC * s / m_si) * s) * m_ch) with (c * (m_ch * m_ch) + ce * (cC * s / m_si) * s * m_ch) by ring. rewrite E. field. exact si_nz.
Qed.
Lemma node_y : m_y * m_sh + m_x * (m_ci * m_ch) = ce * s - m_eta * (m_k * s / (m_si * m_si)).
Proof.
  unfold m_y, m_x, m_eta. replace (m_sh) with (cC * s / m_si) by reflexivity. replace m_k with (m_si * m_ch) by reflexivity.
  assert (E : m_ch * m_ch = 1 - cC * s / m_si * (cC * s / m_si)) by apply ch2.
  replace (m_ch * c + ce * (cC * s / m_si) * s) with (m_ch * c + ce * (cC * s / m_si) * s) by ring.
  apply (Rmult_eq_reg_l (m_si * m_si)); [|pose proof si_in; nra].
  transitivity (m_si * m_ch * c * cC * s + ce * cC * cC * s * s * s + se * s * m_ci * m_ch * m_si); [field; exact si_nz|].
  transitivity (m_si * m_si * (ce * s) - (ce * (m_si * m_ch) - se * m_ci - cC * c) * (m_si * m_ch * s)); [|field; exact si_nz].
  replace ((ce * (m_si * m_ch) - se * m_ci - cC * c) * (m_si * m_ch * s)) with (ce * s * (m_si * m_si) * (m_ch * m_ch) - (se * m_ci + cC * c) * (m_si * m_ch * s)) by ring.
  rewrite E. field. exact si_nz.
Qed.
Lemma node_z : m_x * m_si = se * s.
Proof. unfold m_x. field. exact si_nz. Qed.
Definition v_x : R := m_y * m_ch + m_x * (- m_ci * m_sh).
Definition v_y : R := m_y * m_sh + m_x * (m_ci * m_ch).
Definition v_z : R := m_x * m_si.
Lemma inv_si2 : 0 <= / (m_si * m_si) <= 103 / 10.
Proof.
  pose proof si_in. assert (0 < m_si * m_si) by nra. split; [left; apply Rinv_0_lt_compat; assumption|].
  apply (Rmult_le_reg_r (m_si * m_si)); [assumption|]. rewrite Rinv_l by lra. nra.
Qed.
Lemma v_x_err : Rabs (v_x - c) <= 25 / 10 ^ 9.
Proof.
  unfold v_x. rewrite node_x. replace (c + m_eta * (cC * (s * s) / (m_si * m_si)) - c) with (m_eta * (cC * (s * s) / (m_si * m_si))) by ring.
  replace (25 / 10 ^ 9) with (25 / 10 ^ 9 * 1) by ring. apply prod_small; [apply eta_err|]. apply abs2. pose proof inv_si2 as I. pose proof s_in.
  assert (0 <= s * s <= 1) by nra. unfold Rdiv at 1 2. unfold cC. split; nra.
Qed.
Lemma v_y_err : Rabs (v_y - ce * s) <= 9 / 10 ^ 8.
Proof.
  unfold v_y. rewrite node_y. replace (ce * s - m_eta * (m_k * s / (m_si * m_si)) - ce * s) with (m_eta * (- (m_k * s / (m_si * m_si)))) by ring.
  replace (9 / 10 ^ 8) with (25 / 10 ^ 9 * (36 / 10)) by lra. apply prod_small; [apply eta_err|]. rewrite Rabs_Ropp.
  unfold m_k. replace (m_si * m_ch * s / (m_si * m_si)) with (m_ch * s * / m_si) by (field; exact si_nz).
  pose proof ch_in. pose proof s_in. pose proof si_in as I. assert (J : 0 <= / m_si <= 32 / 10).
  { split; [left; apply Rinv_0_lt_compat; lra|]. apply (Rmult_le_reg_r m_si); [lra|]. rewrite Rinv_l by lra. lra. }
  replace (36 / 10) with (1 * (36 / 10)) by ring. apply prod_small; apply abs2; [split; nra|lra].
Qed.
Lemma v_z_eq : v_z = se * s.
Proof. exact node_z. Qed.
(** N' and M' are at right angles and of length 1 *)
Lemma length2 : m_x * m_x + m_y * m_y = v_x * v_x + v_y * v_y + v_z * v_z.
Proof.
  unfold v_x, v_y, v_z. pose proof ch2 as C. pose proof si2 as I. set (x := m_x) in *. set (y := m_y) in *. set (k := m_ch) in *. set (h := m_sh) in *. set (i := m_ci) in *. set (j := m_si) in *. clearbody x y k h i j.
  assert (I' : i * i = 1 - j * j) by lra. ring [C I'].
Qed.
Definition m_hyp : R := sqrt (m_y * m_y + m_x * m_x).
Lemma hyp2_err : Rabs (m_y * m_y + m_x * m_x - 1) <= 3 / 10 ^ 7.
Proof.
  rewrite Rplus_comm, length2, v_z_eq. pose proof v_x_err as A. pose proof v_y_err as B. apply abs2 in A, B. pose proof c_in. pose proof s_in.
  replace (v_x * v_x) with (c * c + (v_x - c) * (2 * c + (v_x - c))) by ring.
  replace (v_y * v_y) with (ce * ce * (s * s) + (v_y - ce * s) * (2 * (ce * s) + (v_y - ce * s))) by ring.
  assert (E1 : Rabs ((v_x - c) * (2 * c + (v_x - c))) <= 25 / 10 ^ 9 * (21 / 10)) by (apply prod_small; apply abs2; lra).
  assert (E2 : Rabs ((v_y - ce * s) * (2 * (ce * s) + (v_y - ce * s))) <= 9 / 10 ^ 8 * (21 / 10)) by (apply prod_small; apply abs2; unfold ce in *; lra).
  apply abs2 in E1, E2. apply abs2. assert (0 <= s * s <= 1) by nra. unfold ce, se in *. split; nra.
Qed.
Lemma hyp_err : Rabs (m_hyp - 1) <= 3 / 10 ^ 7.
Proof.
  pose proof hyp2_err as E. apply abs2 in E. assert (P : m_hyp * m_hyp = m_y * m_y + m_x * m_x) by (apply sqrt_sqrt; nra). assert (0 <= m_hyp) by apply sqrt_pos.
  apply abs2. split; nra.
Qed.
Lemma inv_hyp : Rabs (/ m_hyp - 1) <= 31 / 10 ^ 8.
Proof.
  pose proof hyp_err as E. apply abs2 in E. assert (0 < m_hyp) by lra. apply abs2. split.
  - apply (Rmult_le_reg_r m_hyp); [assumption|]. replace ((/ m_hyp - 1) * m_hyp) with (1 - m_hyp) by (field; lra). nra.
  - apply (Rmult_le_reg_r m_hyp); [assumption|]. replace ((/ m_hyp - 1) * m_hyp) with (1 - m_hyp) by (field; lra). nra.
Qed.
Lemma scaled a b t : Rabs (a - b) <= t -> Rabs b <= 1 -> t <= 1 / 10 -> Rabs (a * / m_hyp - b) <= t + 35 / 10 ^ 8.
Proof.
  intros H B L. pose proof inv_hyp as I. replace (a * / m_hyp - b) with ((a - b) + a * (/ m_hyp - 1)) by ring.
  eapply Rle_trans; [apply Rabs_triang|]. assert (Rabs (a * (/ m_hyp - 1)) <= 11 / 10 * (31 / 10 ^ 8)) by (apply prod_small; [apply abs2 in H, B; apply abs2; lra|exact I]). lra.
Qed.
(** The two directions: along the node on the ecliptic, and a right angle further *)
Definition n_x : R := v_x * / m_hyp.
Definition n_y : R := v_y * / m_hyp.
Definition n_z : R := v_z * / m_hyp.
Lemma n_err : near (45 / 10 ^ 8) (n_x, n_y, n_z) (c, ce * s, se * s).
Proof.
  pose proof c_in. pose proof s_in. unfold near, n_x, n_y, n_z. repeat split.
  - eapply Rle_trans; [apply (scaled _ _ (25 / 10 ^ 9)); [apply v_x_err|apply abs2; lra|lra]|lra].
  - eapply Rle_trans; [apply (scaled _ _ (9 / 10 ^ 8)); [apply v_y_err|apply abs2; unfold ce; lra|lra]|lra].
  - eapply Rle_trans; [apply (scaled _ _ 0); [rewrite v_z_eq, Rminus_diag_eq, Rabs_R0 by reflexivity; lra|apply abs2; unfold se; lra|lra]|lra].
Qed.
(** pole x v *)
Definition u_x : R := - m_k * v_z - m_ci * v_y.
Definition u_y : R := m_ci * v_x - cC * s * v_z.
Definition u_z : R := cC * s * v_y + m_k * v_x.
Lemma u_cross : - m_x * m_ch + m_y * (- m_ci * m_sh) = u_x /\ - m_x * m_sh + m_y * (m_ci * m_ch) = u_y /\ m_y * m_si = u_z.
Proof.
  unfold u_x, u_y, u_z, v_x, v_y, v_z, m_k. rewrite <- sh_si. pose proof ch2 as C. pose proof si2 as I.
  set (x := m_x) in *. set (y := m_y) in *. set (k := m_ch) in *. set (h := m_sh) in *. set (i := m_ci) in *. set (j := m_si) in *. clearbody x y k h i j.
  assert (I' : i * i = 1 - j * j) by lra. repeat split; ring [C I'].
Qed.
Lemma u_err : near (25 / 10 ^ 8) (u_x, u_y, u_z) (- cJ * s, cJ * c * ce - cC * se, cJ * c * se + cC * ce).
Proof.
  pose proof c_in as HC. pose proof s_in as HS. pose proof ci_in as HI. pose proof k_in as HK.
  pose proof v_x_err as A. pose proof v_y_err as B. pose proof ci_err as E. pose proof k_err as F.
  unfold near, u_x, u_y, u_z. rewrite v_z_eq.
  replace m_k with (m_t + (m_k - m_t)) by ring. replace m_ci with ((cJ * ce - cC * c * se) + (m_ci - (cJ * ce - cC * c * se))) by ring.
  replace v_x with (c + (v_x - c)) by ring. replace v_y with (ce * s + (v_y - ce * s)) by ring.
  assert (HF := k_in). assert (HM := ci_in).
  set (dk := m_k - m_t) in *. set (di := m_ci - (cJ * ce - cC * c * se)) in *. set (dx := v_x - c) in *. set (dy := v_y - ce * s) in *.
  assert (M1 : Rabs (cJ * ce - cC * c * se) <= 96 / 100) by (apply abs2; unfold cJ, ce, cC, se; lra).
  assert (M2 : Rabs m_t <= 48 / 100) by (pose proof t_in; apply abs2; lra).
  assert (S1 : Rabs (dk * (se * s)) <= 2 / 10 ^ 8 * (4 / 10)) by (apply prod_small; [exact F|apply abs2; unfold se; lra]).
  assert (S2 : Rabs (di * (ce * s + dy)) <= 3 / 10 ^ 9 * 1) by (apply prod_small; [exact E|apply abs2 in B; apply abs2; unfold ce; lra]).
  assert (S3 : Rabs ((cJ * ce - cC * c * se) * dy) <= 96 / 100 * (9 / 10 ^ 8)) by (apply prod_small; assumption).
  assert (S4 : Rabs (di * (c + dx)) <= 3 / 10 ^ 9 * (11 / 10)) by (apply prod_small; [exact E|apply abs2 in A; apply abs2; lra]).
  assert (S5 : Rabs ((cJ * ce - cC * c * se) * dx) <= 96 / 100 * (25 / 10 ^ 9)) by (apply prod_small; assumption).
  assert (S6 : Rabs (cC * s * dy) <= 1 / 10 * (9 / 10 ^ 8)) by (apply prod_small; [apply abs2; unfold cC; lra|assumption]).
  assert (S7 : Rabs (dk * (c + dx)) <= 2 / 10 ^ 8 * (11 / 10)) by (apply prod_small; [exact F|apply abs2 in A; apply abs2; lra]).
  assert (S8 : Rabs (m_t * dx) <= 48 / 100 * (25 / 10 ^ 9)) by (apply prod_small; assumption).
  apply abs2 in S1, S2, S3, S4, S5, S6, S7, S8. assert (QQ : ce * ce + se * se = 1 - 5285926 / 10 ^ 15 + (ce * ce + se * se - 1 + 5285926 / 10 ^ 15)) by ring.
  assert (Q1 : Rabs (ce * ce + se * se - 1) <= 6 / 10 ^ 9) by (apply abs2; unfold ce, se; lra). set (q1 := ce * ce + se * se - 1) in *.
  repeat split.
  - replace (- (m_t + dk) * (se * s) - (cJ * ce - cC * c * se + di) * (ce * s + dy) - - cJ * s)
      with (- (dk * (se * s)) - di * (ce * s + dy) - (cJ * ce - cC * c * se) * dy - cJ * s * q1) by (unfold m_t, q1; ring).
    assert (Rabs (cJ * s * q1) <= 1 * (6 / 10 ^ 9)) by (apply prod_small; [apply abs2; unfold cJ; lra|exact Q1]). apply abs2 in H. apply abs2. lra.
  - replace ((cJ * ce - cC * c * se + di) * (c + dx) - cC * s * (se * s) - (cJ * c * ce - cC * se))
      with (di * (c + dx) + (cJ * ce - cC * c * se) * dx + cC * se * (1 - (c * c + s * s))) by ring.
    rewrite T. apply abs2. lra.
  - replace (cC * s * (ce * s + dy) + (m_t + dk) * (c + dx) - (cJ * c * se + cC * ce))
      with (cC * s * dy + dk * (c + dx) + m_t * dx - cC * ce * (1 - (c * c + s * s))) by (unfold m_t; ring).
    rewrite T. apply abs2. lra.
Qed.
Lemma u_scaled : near (65 / 10 ^ 8) (u_x * / m_hyp, u_y * / m_hyp, u_z * / m_hyp) (- cJ * s, cJ * c * ce - cC * se, cJ * c * se + cC * ce).
Proof.
  pose proof c_in. pose proof s_in. destruct u_err as (A & B & C). unfold near. repeat split.
  - eapply Rle_trans; [apply (scaled _ _ _ A); [apply abs2; unfold cJ; lra|lra]|lra].
  - eapply Rle_trans; [apply (scaled _ _ _ B); [apply abs2; unfold cJ, ce, cC, se; lra|lra]|lra].
  - eapply Rle_trans; [apply (scaled _ _ _ C); [apply abs2; unfold cJ, ce, cC, se; lra|lra]|lra].
Qed.
End Moon.
