(** The secular angles of SGP8, Kepler's equation and the short-period terms. *)
From Coq Require Import ZArith Reals Lra Psatz Lia.
From Verif Require Import CLib ArithModel GeoLemmas OrbModel OrbSpec OrbProofs2 OrbProofs3 OrbProofs5 DeepProofs1 DeepProofs7 ThirdProofs1 Sgp8Model Sgp8Spec Sgp8Proofs1 Sgp8Proofs2.
Open Scope R_scope.

(** ** Orientation vectors *)
Lemma double_half x : x = 2 * (x / 2). Proof. field. Qed.
Lemma orient y4 y5 l : y4 ^ 2 + y5 ^ 2 <= 1 -> exists I u, 0 <= I <= PI /\ sin (I / 2) * sin u = y4 /\ sin (I / 2) * cos u = y5 /\ forall h, u + h = l ->
  radial h I u = v3 (2 * y4 * (y5 * sin l - y4 * cos l) + cos l) (- (2 * y4) * (y5 * cos l + y4 * sin l) + sin l) (2 * y4 * sqrt (1 - y4 ^ 2 - y5 ^ 2))
  /\ transverse h I u = v3 (2 * y5 * (y5 * sin l - y4 * cos l) - sin l) (- (2 * y5) * (y5 * cos l + y4 * sin l) + cos l) (2 * y5 * sqrt (1 - y4 ^ 2 - y5 ^ 2)).
Proof.
  intros B. set (q := sqrt (y5 * y5 + y4 * y4)). assert (Q2 : q * q = y5 * y5 + y4 * y4) by (apply sqrt_sqrt; nra). assert (Q0 : 0 <= q) by apply sqrt_pos.
  assert (Q1 : q <= 1) by nra.
  assert (U : exists u, q * sin u = y4 /\ q * cos u = y5).
  { destruct (Req_dec (y5 * y5 + y4 * y4) 0) as [Z|Z].
    - exists 0. assert (y4 = 0) by nra. assert (y5 = 0) by nra. assert (q = 0) by nra. subst y4 y5. rewrite H1. split; ring.
    - exists (Ratan2 y4 y5). destruct (Ratan2_polar y4 y5 Z) as [X Y]. split; symmetry; assumption. }
  destruct U as (u & U1 & U2). assert (AB := asin_bound q). assert (P := PI_RGT_0).
  assert (A0 : 0 <= asin q). { destruct (Rle_dec 0 (asin q)) as [|X]; [assumption|]. assert (Y := sin_lt_0_var (asin q) ltac:(lra) ltac:(lra)). rewrite sin_asin in Y by lra. lra. }
  exists (2 * asin q), u. replace (2 * asin q / 2) with (asin q) by field. rewrite sin_asin by lra. split; [lra|]. split; [exact U1|]. split; [exact U2|].
  intros h Hh. assert (SA : sin (asin q) = q) by (apply sin_asin; lra). assert (CA : cos (asin q) = sqrt (1 - q ^ 2)) by (rewrite cos_asin by lra; f_equal; unfold Rsqr; ring).
  assert (CI : cos (2 * asin q) = 1 - 2 * (q * q)) by (rewrite cos_2a_sin, SA; ring). assert (SI : sin (2 * asin q) = 2 * q * sqrt (1 - q ^ 2)) by (rewrite sin_2a, SA, CA; ring).
  assert (R : 1 - y4 ^ 2 - y5 ^ 2 = 1 - q ^ 2) by nra. rewrite R.
  replace h with (l - u) by lra. unfold radial, transverse, turn, tilt. cbn [c_x c_y c_z]. rewrite cos_minus, sin_minus, CI, SI. rewrite <- U1, <- U2. assert (T := square_trig u).
  assert (T' : sin u * sin u = 1 - cos u * cos u) by lra. set (s := sin u) in *. set (c := cos u) in *. set (sl := sin l). set (cl := cos l). set (k := sqrt (1 - q ^ 2)). clearbody s c sl cl k.
  split; f_equal; ring [T'].
Qed.

(** ** Kepler's equation *)
Lemma cos_ge c : 1 - c * c / 2 <= cos c.
Proof.
  assert (H : forall x, 0 <= x -> 1 - x * x / 2 <= cos x).
  { intros x X. rewrite (double_half x) at 3. rewrite cos_2a_sin. assert (Y : sin (x / 2) * sin (x / 2) <= x / 2 * (x / 2)); [|nra].
    destruct (Req_dec x 0) as [->|Z]; [unfold Rdiv; rewrite Rmult_0_l, sin_0; lra|]. assert (L := sin_lt_x (x / 2) ltac:(lra)). assert (B := SIN_bound (x / 2)).
    destruct (Rle_dec 2 x); [nra|]. assert (P := PI2_1). assert (G := sin_ge_0 (x / 2) ltac:(lra) ltac:(lra)). nra. }
  destruct (Rle_dec 0 c) as [C|C]; [exact (H c C)|]. assert (G := H (- c) ltac:(lra)). rewrite cos_neg in G. lra.
Qed.
Lemma sin_defect x h : Rabs (sin (x + h) - sin x - h * cos x) <= h ^ 2 / 2.
Proof.
  replace (sin (x + h) - sin x - h * cos x) with (cos x * (sin h - h) - sin x * (1 - cos h)) by (rewrite sin_plus; ring).
  (* |A cos x - B sin x| <= sqrt (A^2 + B^2) *)
  assert (Q : (sin h - h) ^ 2 + (1 - cos h) ^ 2 <= (h ^ 2 / 2) ^ 2).
  { assert (T := square_trig h). replace ((sin h - h) ^ 2 + (1 - cos h) ^ 2) with (2 - 2 * cos h + h ^ 2 - 2 * h * sin h) by nra.
    (* derivative of h^4/4 - 2 + 2 cos h - h^2 + 2 h sin h is h^3 - 2 h + 2 h cos h >= 0 for h >= 0 *)
    assert (G : forall y, 0 <= y -> 0 <= y ^ 4 / 4 - 2 + 2 * cos y - y ^ 2 + 2 * y * sin y).
    { intros y Y. destruct (Req_dec y 0) as [->|NZ]; [rewrite cos_0, sin_0; lra|].
      set (F := fun y => y * y * y * y / 4 - 2 + 2 * cos y - y * y + 2 * y * sin y).
      assert (D : forall z, derivable_pt_lim F z (z * z * z - 2 * z + 2 * z * cos z)).
      { intros z. unfold F, Rdiv. eapply D_eq; [derive|cbv beta; field]. }
      assert (L : 0 < y) by lra. destruct (MVT_cor2 F (fun z => z * z * z - 2 * z + 2 * z * cos z) 0 y L (fun c _ => D c)) as (c & E & C).
      assert (F0 : F 0 = 0) by (unfold F; rewrite cos_0, sin_0; field). rewrite F0 in E.
      assert (K : 1 - c * c / 2 <= cos c). { apply cos_ge. }
      replace (y ^ 4 / 4 - 2 + 2 * cos y - y ^ 2 + 2 * y * sin y) with (F y) by (unfold F; field). assert (0 <= c * c * c - 2 * c + 2 * c * cos c) by nra. nra. }
    destruct (Rle_dec 0 h) as [H|H]; [specialize (G h H); nra|]. specialize (G (- h) ltac:(lra)). rewrite cos_neg, sin_neg in G. nra. }
  assert (T := square_trig x). set (A := sin h - h) in *. set (B := 1 - cos h) in *. set (c := cos x) in *. set (s := sin x) in *. clearbody A B c s.
  assert (V : (c * A - s * B) ^ 2 <= (h ^ 2 / 2) ^ 2). { assert (E : (c * A - s * B) ^ 2 + (c * B + s * A) ^ 2 = A ^ 2 + B ^ 2) by (replace (A ^ 2 + B ^ 2) with ((s * s + c * c) * (A ^ 2 + B ^ 2)) by (rewrite T; ring); ring). assert (W := pow2_ge_0 (c * B + s * A)). lra. }
  assert (H0 : 0 <= h ^ 2 / 2) by nra. set (z := h ^ 2 / 2) in *. set (v := c * A - s * B) in *. clearbody z v. apply Rabs_le. split; nra.
Qed.

Section Kepler.
Context (e M : R) (He : 0 <= e <= 1 / 2).
Local Notation nw := (newton e M).
Definition left_over (x : R) : R := x - e * sin x - M.
Lemma slope x : 1 / 2 <= 1 - e * cos x. Proof. assert (B := COS_bound x). nra. Qed.
Lemma newton_step x : nw x - x = - left_over x / (1 - e * cos x).
Proof. unfold newton, left_over. assert (S := slope x). field. lra. Qed.
Lemma newton_move x : Rabs (nw x - x) <= 2 * Rabs (left_over x).
Proof.
  rewrite newton_step. assert (S := slope x). unfold Rdiv. rewrite Rabs_mult, Rabs_Ropp, Rabs_Rinv, (Rabs_right (1 - e * cos x)) by lra.
  assert (I : / (1 - e * cos x) <= 2). { replace 2 with (/ (1 / 2)) by field. apply Rinv_le_contravar; lra. } assert (A := Rabs_pos (left_over x)). nra.
Qed.
Lemma newton_left x : Rabs (left_over (nw x)) <= (left_over x) ^ 2.
Proof.
  assert (S := slope x). set (h := nw x - x). assert (E : left_over (nw x) = - e * (sin (x + h) - sin x - h * cos x)).
  { replace (nw x) with (x + h) by (unfold h; ring). unfold left_over. assert (H : h * (1 - e * cos x) = - left_over x) by (unfold h; rewrite newton_step; field; lra). unfold left_over in H. lra. }
  rewrite E, Rabs_mult, Rabs_Ropp, (Rabs_right e) by lra. assert (D := sin_defect x h). assert (A := newton_move x). fold h in A.
  assert (Q : h ^ 2 <= 4 * (left_over x) ^ 2). { rewrite <- (pow2_abs h), <- (pow2_abs (left_over x)). assert (0 <= Rabs h) by apply Rabs_pos. nra. }
  assert (0 <= Rabs (sin (x + h) - sin x - h * cos x)) by apply Rabs_pos. nra.
Qed.
Lemma guess_left : Rabs (left_over (first_guess e M)) <= 1 / 2.
Proof.
  unfold left_over, first_guess. set (d := e * sin M * (1 + e * cos M)).
  replace (M + d - e * sin (M + d) - M) with (e * (e * sin M * cos M) - e * (sin (M + d) - sin M)) by (unfold d; ring).
  assert (S := SIN_bound M). assert (C := COS_bound M). assert (T := square_trig M).
  assert (W1 := pow2_ge_0 (sin M - cos M)). assert (W2 := pow2_ge_0 (sin M + cos M)). assert (B1 : Rabs (sin M * cos M) <= 1 / 2) by (apply Rabs_le; split; lra).
  assert (B2 : Rabs (sin (M + d) - sin M) <= 3 / 4).
  { assert (L : Rabs (sin (M + d) - sin M) <= Rabs d).
    { destruct (MVT_abs sin cos M (M + d) (fun c _ => derivable_pt_lim_sin c)) as (c & E & _). rewrite E. replace (M + d - M) with d by ring. assert (X := COS_bound c). assert (Y : Rabs (cos c) <= 1) by (apply Rabs_le; lra). assert (0 <= Rabs d) by apply Rabs_pos. nra. }
    assert (D : Rabs d <= 3 / 4). { unfold d. rewrite !Rabs_mult. rewrite (Rabs_right e) by lra. assert (X : Rabs (sin M) <= 1) by (apply Rabs_le; lra). assert (Y : Rabs (1 + e * cos M) <= 3 / 2) by (apply Rabs_le; split; nra). assert (0 <= Rabs (sin M)) by apply Rabs_pos. assert (0 <= Rabs (1 + e * cos M)) by apply Rabs_pos. assert (e * Rabs (sin M) <= 1 / 2) by nra. nra. }
    lra. }
  eapply Rle_trans; [apply Rabs_triang|]. rewrite Rabs_Ropp. rewrite !Rmult_assoc, !Rabs_mult, (Rabs_right e) by lra. rewrite Rabs_mult in B1. set (q := Rabs (sin M) * Rabs (cos M)) in *. set (v := Rabs (sin (M + d) - sin M)) in *.
  assert (0 <= q) by (unfold q; assert (0 <= Rabs (sin M)) by apply Rabs_pos; assert (0 <= Rabs (cos M)) by apply Rabs_pos; nra). assert (0 <= v) by apply Rabs_pos. nra.
Qed.
Lemma iter_left j : Rabs (left_over (Nat.iter j nw (first_guess e M))) <= (1 / 2) ^ (2 ^ j).
Proof.
  induction j as [|j IH]; [cbn; assert (G := guess_left); lra|]. change (Nat.iter (S j) nw (first_guess e M)) with (nw (Nat.iter j nw (first_guess e M))).
  eapply Rle_trans; [apply newton_left|]. rewrite <- pow2_abs. replace (2 ^ S j)%nat with (2 ^ j * 2)%nat by (cbn; lia). rewrite pow_mult.
  apply pow_incr. split; [apply Rabs_pos|exact IH].
Qed.
(** For orbits up to the eccentricity 1/2 the method has converged. *)
Lemma solved_half E : solved8 e M E -> Rabs (nw E - E) <= / 10 ^ 6.
Proof.
  intros (j & J & -> & [->|H]); [|exact H]. eapply Rle_trans; [apply newton_move|]. assert (L := iter_left 5).
  change (Nat.iter 10 nw (first_guess e M)) with (nw (nw (nw (nw (nw (Nat.iter 5 nw (first_guess e M))))))).
  set (x := Nat.iter 5 nw (first_guess e M)) in *. assert (T : Rabs (left_over x) <= / 10 ^ 8). { eapply Rle_trans; [exact L|]. change (2 ^ 5)%nat with 32%nat. lra. }
  assert (N : forall y, Rabs (left_over y) <= / 10 ^ 8 -> Rabs (left_over (nw y)) <= / 10 ^ 8).
  { intros y Y. eapply Rle_trans; [apply newton_left|]. rewrite <- pow2_abs. assert (0 <= Rabs (left_over y)) by apply Rabs_pos. assert (/ 10 ^ 8 <= 1) by lra. nra. }
  assert (F := N _ (N _ (N _ (N _ (N _ T))))). lra.
Qed.
End Kepler.

Lemma kepler8_solved e M : forall n j, (n + j = 10)%nat -> let x := Nat.iter j (newton e M) (first_guess e M) in
  exists E, kepler8 ideal n M e x = (sin E, cos E, 1 / (1 - e * cos E)) /\ solved8 e M E.
Proof.
  induction n as [|n IH]; intros j J x; cbn [kepler8]; ic; replace (1 / 1) with 1 by lra.
  - exists x. split; [match goal with |- (if ?c then _ else _) = _ => destruct c; reflexivity end|]. exists j. split; [lia|]. split; [reflexivity|]. left. lia.
  - assert (S1 : (M + e * sin x - x) * (1 / (1 - e * cos x)) + x = newton e M x) by (unfold newton, Rdiv; ring).
    match goal with |- exists E, (if ?c then _ else _) = _ /\ _ => destruct c eqn:C end.
    + exists x. split; [reflexivity|]. exists j. split; [lia|]. split; [reflexivity|]. right. apply Rleb_t in C. rewrite S1 in C. replace (/ 10 ^ 6) with (1 / 1000000) by lra. exact C.
    + destruct (IH (S j) ltac:(lia)) as (E & K & SE). exists E. split; [|exact SE]. rewrite <- K. f_equal. rewrite S1. reflexivity.
Qed.

(** ** The place *)
Lemma xke_is : xke ideal = KE. Proof. unfold xke, KE. ic. reflexivity. Qed.
Section Place.
Context (o : orb ideal).
Let i : R := o_xincl ideal o.
Let d := sxpall_common_init ideal o.
Let c := sxp8_common_init ideal o d.
Context (n e M w node now : R) (Hn : 0 < n) (He : 0 <= e < 1).
Let a := Rpower (KE / n) (2 / 3).
Lemma place_ok : 1 + cos i <> 0 -> cos (i / 2) <> 0 ->
  exists E, solved8 e M E /\ let '(pos, vel) := posn_vel8 ideal c (sin i) (cos i) (cos i * cos i) (sin (now / 2)) n e M w node in
    placed8 n a e i w node M now E (vec_of pos) (vec_of vel).
Proof.
  intros Hi Hc. destruct (kepler8_solved e M 10 0 eq_refl) as (E & K & SE). change (Nat.iter 0 (newton e M) (first_guess e M)) with (first_guess e M) in K. exists E. split; [exact SE|].
  assert (A : 0 < a) by apply exp_pos. assert (B2 : 0 < 1 - e ^ 2) by nra. assert (B : 0 < sqrt (1 - e ^ 2)) by (apply sqrt_lt_R0; exact B2).
  assert (BB : sqrt (1 - e ^ 2) * sqrt (1 - e ^ 2) = 1 - e ^ 2) by (apply sqrt_sqrt; lra). assert (CB := COS_bound E). assert (SL : 0 < 1 - e * cos E) by nra.
  assert (T := square_trig E).
  set (sf := sqrt (1 - e ^ 2) * sin E * (1 / (1 - e * cos E))). set (cf := (cos E - e) * (1 / (1 - e * cos E))).
  assert (U : cf * cf + sf * sf = 1).
  { unfold cf, sf. replace ((cos E - e) * (1 / (1 - e * cos E)) * ((cos E - e) * (1 / (1 - e * cos E))) + sqrt (1 - e ^ 2) * sin E * (1 / (1 - e * cos E)) * (sqrt (1 - e ^ 2) * sin E * (1 / (1 - e * cos E))))
      with (((cos E - e) ^ 2 + (sqrt (1 - e ^ 2) * sqrt (1 - e ^ 2)) * (sin E * sin E)) / (1 - e * cos E) ^ 2) by (field; lra).
    rewrite BB. replace (sin E * sin E) with (1 - cos E * cos E) by lra. field. lra. }
  set (f := if Rlt_dec (Ratan2 sf cf) 0 then Ratan2 sf cf + (PI + PI) else Ratan2 sf cf).
  assert (F : 0 <= f < 2 * PI /\ cos f = cf /\ sin f = sf).
  { assert (R := Ratan2_range sf cf). destruct (Ratan2_polar sf cf) as [X Y]; [lra|]. rewrite U, sqrt_1, Rmult_1_l in X. rewrite U, sqrt_1, Rmult_1_l in Y. assert (P := PI_RGT_0). unfold f. destruct (Rlt_dec (Ratan2 sf cf) 0).
    - split; [lra|]. replace (Ratan2 sf cf + (PI + PI)) with (Ratan2 sf cf + 2 * INR 1 * PI) by (cbn; ring). rewrite cos_period, sin_period. split; symmetry; assumption.
    - split; [lra|]. split; symmetry; assumption. }
  destruct F as (F0 & FC & FS).
  set (l := f + w + node + d_lam a e i w M f). set (y4 := y_4 a e i w M now f). set (y5 := y_5 a e i w M now f). set (r := a * (1 - e * cos E)).
  set (rr := r + d_r a e i w f). set (rd := n * a * e * sin f / sqrt (1 - e ^ 2) + d_r' n a e i w f r). set (rf := n * a ^ 2 * sqrt (1 - e ^ 2) / r + d_rf n a e i w f r).
  set (ux := 2 * y4 * (y5 * sin l - y4 * cos l) + cos l). set (uy := - (2 * y4) * (y5 * cos l + y4 * sin l) + sin l). set (uz := 2 * y4 * sqrt (1 - y4 ^ 2 - y5 ^ 2)).
  set (vx := 2 * y5 * (y5 * sin l - y4 * cos l) - sin l). set (vy := - (2 * y5) * (y5 * cos l + y4 * sin l) + cos l). set (vz := 2 * y5 * sqrt (1 - y4 ^ 2 - y5 ^ 2)).
  assert (Q : posn_vel8 ideal c (sin i) (cos i) (cos i * cos i) (sin (now / 2)) n e M w node
    = ((rr * ux * XKMPER, rr * uy * XKMPER, rr * uz * XKMPER), ((rd * ux + rf * vx) * XKMPER, (rd * uy + rf * vy) * XKMPER, (rd * uz + rf * vz) * XKMPER))).
  { assert (KP := k2_pos). assert (R0 : 0 < r) by (unfold r; nra). set (p := a * (1 - e ^ 2)). assert (P0 : 0 < p) by (unfold p; nra).
    cbv delta [posn_vel8 int]; cbv beta. change (num ideal) with R in *.
    step (first_guess e M) ltac:(unfold first_guess; ic; field).
    rewrite K. cbv beta iota. rewrite k2_is, a3_is, tt_is.
    step a ltac:(ic; rewrite xke_is; apply Rcpow_pos; apply Rdiv_lt_0_compat; [unfold KE; lra|exact Hn]).
    step (1 - e ^ 2) ltac:(ic; field).
    step (sin w) reflexivity. step (cos w) reflexivity. step (e * cos w) reflexivity. step (e * sin w) reflexivity. step p reflexivity.
    step (1 / p) ltac:(ic; field; lra).
    step (K2 / (2 * p)) ltac:(ic; field; lra).
    step (K2 / (2 * p ^ 2)) ltac:(ic; field; lra).
    step (sqrt (1 - e ^ 2)) reflexivity.
    step (A30 / (4 * K2) * sin i) ltac:(ic; field; lra).
    step (A30 / (4 * K2 * p)) ltac:(ic; field; lra).
    step (sin f) ltac:(rewrite FS; reflexivity). step (cos f) ltac:(rewrite FC; reflexivity).
    step (Ratan2 sf cf) ltac:(rewrite <- FS, <- FC; reflexivity).
    step f idtac.
    { unfold f. ic. unfold Rltb. replace (0 / 1) with 0 by lra. destruct (Rlt_dec (Ratan2 sf cf) 0); reflexivity. }
    step (sin (f + w)) ltac:(rewrite sin_plus; reflexivity).
    step (cos (f + w)) ltac:(rewrite cos_plus; reflexivity).
    step (sin (2 * (f + w))) ltac:(rewrite sin_2a; ic; field).
    pass_. step (cos (2 * (f + w))) ltac:(rewrite cos_2a_cos; ic; field).
    step (e * cos f) reflexivity. step (f - M + e * sin f) reflexivity.
    assert (RP : p / (e * cos f + 1) = r). { unfold p, r. rewrite FC. unfold cf. field. split; [lra|]. replace (e * (cos E - e) + (1 - e * cos E)) with (1 - e ^ 2) by ring. lra. }
    step r ltac:(ic; replace (1 / 1) with 1 by lra; exact RP).
    step (a / r) reflexivity. step (n * (a / r)) reflexivity. step (- n * (a / r) ^ 2) ltac:(ic; ring).
    step (d_r a e i w f) idtac.
    { unfold d_r. fold p. change (b_unmth2 ideal c) with (1 / 1 - cos i * cos i). change (b_tthmun ideal c) with (cos i * cos i * (3 / 1) - 1 / 1). ic. field. split; lra. }
    step (tan_dI a e i w f) ltac:(unfold tan_dI; fold p; ic; field; split; lra).
    step (d_I a e i w f) ltac:(unfold d_I; ic; ring).
    assert (HI : o_xincl ideal o * (5 / 10) = i / 2) by (unfold i; lra).
    assert (S2 : b_sini2 ideal c = sin (i / 2)) by (rewrite <- HI; reflexivity). assert (C2 : b_cosi2 ideal c = cos (i / 2)) by (rewrite <- HI; reflexivity).
    step (s_du a e i w M f) idtac.
    { unfold s_du. fold p. rewrite S2, C2. change (b_unm5th ideal c) with (1 / 1 - cos i * cos i * (5 / 1)). ic. field. repeat split; lra. }
    step l idtac.
    { unfold l, d_lam. fold p. change (b_unm5th ideal c) with (1 / 1 - cos i * cos i * (5 / 1)). ic. field. repeat split; lra. }
    step y4 idtac. { unfold y4, y_4. rewrite C2. ic. field. }
    step y5 idtac. { unfold y5, y_5. rewrite C2. ic. field. }
    step rr reflexivity.
    step rd idtac. { unfold rd, d_r'. fold p. change (b_unmth2 ideal c) with (1 / 1 - cos i * cos i). ic. field. repeat split; lra. }
    pass_. step rf idtac. { unfold rf, d_rf. ic. field. lra. }
    step (sin l) reflexivity. step (cos l) reflexivity. pass_. step ux ltac:(unfold ux; ic; field). step vx ltac:(unfold vx; ic; field).
    pass_. step uy ltac:(unfold uy; ic; field). step vy ltac:(unfold vy; ic; field).
    step (sqrt (1 - y4 ^ 2 - y5 ^ 2) * 2) ltac:(ic; f_equal; [f_equal; field|lra]).
    step uz ltac:(unfold uz; ic; ring). step vz ltac:(unfold vz; ic; ring).
    step constr:(XKMPER) ltac:(unfold earth_radius_in_km, XKMPER; ic; lra).
    reflexivity. }
  rewrite Q. exists f, r. split; [exact F0|]. split; [reflexivity|].
  split; [rewrite FC; unfold cf, r; field; lra|]. split; [rewrite FS; unfold sf, r; field; lra|].
  intros Y. destruct (orient _ _ l Y) as (I & u & I0 & I1 & I2 & IH).
  exists I, u, (l - u). split; [exact I0|]. split; [exact I1|]. split; [exact I2|]. split; [unfold l; ring|].
  destruct (IH (l - u) ltac:(ring)) as [R1 R2]. rewrite R1, R2. fold y4 y5 ux uy uz vx vy vz. unfold vec_of, scale, plus. cbn [fst snd c_x c_y c_z]. fold rr rd rf. split; f_equal; ring.
Qed.
End Place.

(** ** SGP8 *)
Lemma FMod2p_ok x : 0 <= FMod2p ideal x < 2 * PI /\ exists k, FMod2p ideal x = x + 2 * PI * IZR k.
Proof.
  assert (P := PI_RGT_0). assert (F := Rfmod_range x (2 * PI) ltac:(lra)). apply Rabs_def2 in F. unfold FMod2p. cbv zeta. ic. rewrite o_twopi_eq. replace (0 / 1) with 0 by lra.
  assert (K : Rfmod x (2 * PI) = x - 2 * PI * IZR (Rtrunc (x / (2 * PI)))) by (unfold Rfmod; ring). set (r := Rfmod x (2 * PI)) in *.
  change (c_fmod ideal x (2 * PI)) with r. unfold Rltb. destruct (Rlt_dec r 0).
  - split; [lra|]. exists (1 - Rtrunc (x / (2 * PI)))%Z. rewrite minus_IZR. rewrite K. ring.
  - split; [lra|]. exists (- Rtrunc (x / (2 * PI)))%Z. rewrite opp_IZR. rewrite K. ring.
Qed.
Section Sgp8.
Context (o : orb ideal).
Let i : R := o_xincl ideal o.
Let e0 : R := o_eo ideal o.
Let N : R := n0'' i e0 (o_xno ideal o).
Let a : R := a0'' i e0 (o_xno ideal o).
Let d := sxpall_common_init ideal o.
Let c := sxp8_common_init ideal o d.
Context (He : 0 < e0 < 1) (Hn : 0 < o_xno ideal o) (HN : 0 < N) (Ha : height_s < a * (1 - e0)).
Lemma x_b : i_betao ideal d = sqrt (1 - e0 ^ 2). Proof. change (i_betao ideal d) with (sqrt (i_betao2 ideal d)). f_equal. apply (x_b2 o). Qed.
Lemma k4_is : ck4 ideal = K4. Proof. unfold ck4, xj4, ae, K4, J4. ic. lra. Qed.
Lemma rates8_ok : b_xmdt1 ideal c = - (3 / 2) * N * K2 * sqrt (1 - e0 ^ 2) / (a * (1 - e0 ^ 2)) ^ 2 * (1 - 3 * cos i ^ 2)
  /\ b_xgdt1 ideal c = - (3 / 2) * N * K2 / (a * (1 - e0 ^ 2)) ^ 2 * (1 - 5 * cos i ^ 2)
  /\ b_xhdt1 ideal c = - 3 * N * K2 / (a * (1 - e0 ^ 2)) ^ 2 * cos i
  /\ (forall M t, M + b_xmdot ideal c * t = M_DF i e0 M (o_xno ideal o) t) /\ (forall w t, w + b_omgdot ideal c * t = w_DF i e0 w (o_xno ideal o) t)
  /\ (forall h t, h + b_xnodot ideal c * t = node_DF i h e0 (o_xno ideal o) t).
Proof.
  assert (S := s_gt). assert (A : 0 < a) by exact (a_pos o He Ha). assert (B2 : 0 < 1 - e0 ^ 2) by nra. assert (B : 0 < sqrt (1 - e0 ^ 2)) by (apply sqrt_lt_R0; exact B2).
  assert (BB : 1 - e0 ^ 2 = sqrt (1 - e0 ^ 2) * sqrt (1 - e0 ^ 2)) by (symmetry; apply sqrt_sqrt; lra).
  unfold c, sxp8_common_init. cbv zeta. cbn [b_xmdt1 b_xgdt1 b_xhdt1 b_xmdot b_omgdot b_xnodot]. ic.
  unfold M_DF, w_DF, node_DF, beta0. fold i N a. fold d.
  assert (XN : i_xnodp ideal d = N) by exact (x_n o He Hn Ha). assert (XA : i_aodp ideal d = a) by exact (x_a o He Hn Ha). assert (XB : i_betao2 ideal d = 1 - e0 ^ 2) by exact (x_b2 o). assert (XC : i_cosio2 ideal d = cos i ^ 2) by exact (x_c2 o).
  rewrite x_b, XN, XA, XB, XC, k2_is, k4_is. change (i_cosio ideal d) with (cos i). clear XN XA XB XC.
  change (n0'' (o_xincl ideal o) (o_eo ideal o) (o_xno ideal o)) with N. change (a0'' (o_xincl ideal o) (o_eo ideal o) (o_xno ideal o)) with a. fold e0.
  change (cos (o_xincl ideal o)) with (cos i). set (b := sqrt (1 - e0 ^ 2)) in *. set (k := cos i). rewrite BB. clearbody b k N a. clear BB.
  repeat split; intros; field; repeat split; lra.
Qed.
Theorem sgp8_ok t : let p := SGP8_init ideal o in let '(n, e, Z) := decay ideal e0 p t in
  0 < n -> 0 <= e < 1 -> 1 + cos i <> 0 -> cos (i / 2) <> 0 ->
  exists M E k, 0 <= M < 2 * PI /\ M = M_8 i e0 (o_xmo ideal o) (o_xno ideal o) t Z + 2 * PI * IZR k /\ solved8 e M E
    /\ pl_code ideal (SGP8 ideal t o p) = 0%Z
    /\ placed8 n (Rpower (KE / n) (2 / 3)) e i (w_8 i e0 (o_omegao ideal o) (o_xno ideal o) t Z) (node_8 i (o_xnodeo ideal o) e0 (o_xno ideal o) t Z) M i E
         (vec_of (pl_pos ideal (SGP8 ideal t o p))) (vec_of (pl_vel ideal (SGP8 ideal t o p))).
Proof.
  intros p. destruct (decay ideal e0 p t) as [[n e] Z] eqn:DE. intros H1 H2 H3 H4.
  assert (PC : f_com ideal p = c /\ f_sini ideal p = sin i /\ f_cosi ideal p = cos i /\ f_cosio2 ideal p = cos i * cos i /\ f_xnodp ideal p = N).
  { unfold p, SGP8_init. cbv zeta. match goal with |- context [if ?b then _ else _] => destruct b end; cbn [f_com f_sini f_cosi f_cosio2 f_xnodp]; repeat split; try reflexivity; exact (x_n o He Hn Ha). }
  destruct PC as (P1 & P2 & P3 & P4 & P5). destruct rates8_ok as (R1 & R2 & R3 & R4 & R5 & R6).
  unfold SGP8. cbv zeta. rewrite P1, P2, P3, P4, P5. unfold e0 in DE. rewrite DE. rewrite tt_is.
  ic. rewrite R1, R2, R3, R4, R5, R6.
  destruct (FMod2p_ok (M_DF i e0 (o_xmo ideal o) (o_xno ideal o) t)) as [_ [k1 K1]].
  set (x := FMod2p ideal (M_DF i e0 (o_xmo ideal o) (o_xno ideal o) t)) in *.
  match goal with |- context [FMod2p ideal (x + ?u + ?v)] => set (y := x + u + v); destruct (FMod2p_ok y) as [KR [k2 K2']] end.
  set (M := FMod2p ideal y) in *.
  match goal with |- context [posn_vel8 ideal c _ _ _ _ n e M ?w ?h] => assert (W : w = w_8 i e0 (o_omegao ideal o) (o_xno ideal o) t Z); [|assert (HH : h = node_8 i (o_xnodeo ideal o) e0 (o_xno ideal o) t Z)] end.
  { unfold w_8. fold N a. change (n0'' i e0 (o_xno ideal o)) with N. field. assert (S := s_gt). assert (A : 0 < a) by exact (a_pos o He Ha). assert (B2 : 0 < 1 - e0 ^ 2) by nra. repeat split; nra. }
  { unfold node_8. fold N a. change (n0'' i e0 (o_xno ideal o)) with N. change (a0'' i e0 (o_xno ideal o)) with a. field. assert (S := s_gt). assert (A : 0 < a) by exact (a_pos o He Ha). assert (B2 : 0 < 1 - e0 ^ 2) by nra. repeat split; nra. }
  change (num ideal) with R in *. rewrite W, HH.
  destruct (place_ok o n e M (w_8 i e0 (o_omegao ideal o) (o_xno ideal o) t Z) (node_8 i (o_xnodeo ideal o) e0 (o_xno ideal o) t Z) i H1 H2 H3 H4) as (E & SE & PL).
  assert (S2 : b_sini2 ideal c = sin (i / 2)). { assert (HI : o_xincl ideal o * (5 / 10) = i / 2) by (unfold i; lra). rewrite <- HI. reflexivity. }
  rewrite S2. exists M, E, (k1 + k2)%Z. split; [exact KR|]. split.
  { rewrite K2'. unfold y. rewrite K1. unfold M_8. fold N a. change (n0'' i e0 (o_xno ideal o)) with N. change (a0'' i e0 (o_xno ideal o)) with a. rewrite plus_IZR. field.
    assert (S := s_gt). assert (A : 0 < a) by exact (a_pos o He Ha). assert (B2 : 0 < 1 - e0 ^ 2) by nra. repeat split; nra. }
  split; [exact SE|]. fold d c in PL. fold i in PL. destruct (posn_vel8 _ _ _ _ _ _ _ _ _ _ _) as [pos vel]. split; [reflexivity|]. exact PL.
Qed.
End Sgp8.

Lemma q_is : Rabs (q_s - (42 / XKMPER) ^ 4) <= 1 / 10 ^ 30.
Proof. unfold q_s, XKMPER. apply Rabs_le. lra. Qed.
(** An orbit at rest in its plane: eccentricity 0, inclination 0. *)
Lemma newton_example : first_guess 0 1 = 1 /\ newton 0 1 1 = 1 /\ solved8 0 1 1.
Proof.
  assert (F : first_guess 0 1 = 1) by (unfold first_guess; ring). assert (N : newton 0 1 1 = 1) by (unfold newton; field; lra). split; [exact F|]. split; [exact N|].
  exists 0%nat. split; [lia|]. split; [symmetry; exact F|]. right. rewrite N, Rminus_eq_0, Rabs_R0. lra.
Qed.
