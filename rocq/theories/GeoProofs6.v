(** The sub-satellite point. *)
From Coq Require Import ZArith Reals Lra Lia Bool Psatz.
From Coquelicot Require Import Coquelicot.
From Verif Require Import CLib ArithModel GeoModel GeoSpec GeoLemmas GeoProofs1 GeoProofs2 GeoProofs3 GeoProofs4.
Open Scope R_scope.

Lemma ecc2_eq : mul ideal (flattening ideal) (sub ideal (int ideal 2) (flattening ideal)) = ecc2.
Proof. unfold flattening, ecc2. ideal_. lits. reflexivity. Qed.
Lemma ecc2_bounds : 66 / 10000 < ecc2 < 67 / 10000.
Proof. unfold ecc2. cbv zeta. lra. Qed.

(** sin(phi) / sqrt(1 - e2 sin(phi)^2), as a function of the sine. *)
Definition wfun (x : R) : R := x / sqrt (1 - ecc2 * (x * x)).
Definition cfun (x : R) : R := 1 / sqrt (1 - ecc2 * (x * x)).

Lemma root_bounds x : -1 <= x <= 1 -> 996 / 1000 < sqrt (1 - ecc2 * (x * x)) <= 1.
Proof.
  intros X. assert (E := ecc2_bounds). assert (0 <= x * x <= 1) by nra.
  split.
  - rewrite <- (sqrt_square (996 / 1000)) by lra. apply sqrt_lt_1; nra.
  - rewrite <- sqrt_1 at 2. apply sqrt_le_1_alt. nra.
Qed.

Lemma lipschitz (f f' : R -> R) L a b x y : (forall t, a <= t <= b -> is_derive f t (f' t)) -> (forall t, a <= t <= b -> Rabs (f' t) <= L) ->
  a <= x <= b -> a <= y <= b -> Rabs (f x - f y) <= L * Rabs (x - y).
Proof.
  intros D B X Y.
  assert (K : forall u v, a <= u <= b -> a <= v <= b -> u < v -> Rabs (f v - f u) <= L * Rabs (v - u)).
  { intros u v U V Lt. destruct (MVT_cor2 f f' u v Lt) as [c [E C]]. { intros c C. apply is_derive_Reals, D. lra. }
    rewrite E, Rabs_mult. apply Rmult_le_compat_r; [apply Rabs_pos | apply B; lra]. }
  destruct (Rtotal_order x y) as [G | [G | G]].
  - rewrite Rabs_minus_sym, (Rabs_minus_sym x). apply K; assumption.
  - subst. rewrite !Rminus_eq_0, Rabs_R0. lra.
  - apply K; assumption.
Qed.

Lemma wfun_lip x y : -1 <= x <= 1 -> -1 <= y <= 1 -> Rabs (wfun x - wfun y) <= 102 / 100 * Rabs (x - y).
Proof.
  intros X Y. apply (lipschitz wfun (fun t => / (sqrt (1 - ecc2 * (t * t)) * sqrt (1 - ecc2 * (t * t)) * sqrt (1 - ecc2 * (t * t)))) _ (-1) 1); try assumption.
  - intros t T. assert (R := root_bounds t T). assert (E := ecc2_bounds). unfold wfun.
    assert (Q : 0 < 1 - ecc2 * (t * t)) by nra. assert (S := sqrt_sqrt (1 - ecc2 * (t * t)) (Rlt_le _ _ Q)).
    auto_derive; [repeat split; try lra; replace (1 + - (ecc2 * (t * t))) with (1 - ecc2 * (t * t)) by ring; lra|].
    replace (1 + - (ecc2 * (t * t))) with (1 - ecc2 * (t * t)) by ring. set (s := sqrt (1 - ecc2 * (t * t))) in *.
    field_simplify; [|lra|lra]. apply (Rmult_eq_reg_r (s * s * s)); [|nra]. field_simplify; [|lra|lra]. nra.
  - intros t T. assert (R := root_bounds t T). set (s := sqrt (1 - ecc2 * (t * t))) in *.
    assert (A : 988 / 1000 < s * s * s). { assert (992 / 1000 < s * s) by nra. nra. }
    rewrite Rabs_right; [|apply Rle_ge, Rlt_le, Rinv_0_lt_compat; lra].
    apply (Rmult_le_reg_r (s * s * s)); [lra|]. rewrite Rinv_l by lra. nra.
Qed.

Lemma cfun_lip x y : -1 <= x <= 1 -> -1 <= y <= 1 -> Rabs (cfun x - cfun y) <= 7 / 1000 * Rabs (x - y).
Proof.
  intros X Y. apply (lipschitz cfun (fun t => ecc2 * t / (sqrt (1 - ecc2 * (t * t)) * sqrt (1 - ecc2 * (t * t)) * sqrt (1 - ecc2 * (t * t)))) _ (-1) 1); try assumption.
  - intros t T. assert (R := root_bounds t T). assert (E := ecc2_bounds). unfold cfun.
    assert (Q : 0 < 1 - ecc2 * (t * t)) by nra.
    auto_derive; [repeat split; try lra; replace (1 + - (ecc2 * (t * t))) with (1 - ecc2 * (t * t)) by ring; lra|].
    replace (1 + - (ecc2 * (t * t))) with (1 - ecc2 * (t * t)) by ring. set (s := sqrt (1 - ecc2 * (t * t))) in *. field. lra.
  - intros t T. assert (R := root_bounds t T). assert (E := ecc2_bounds). set (s := sqrt (1 - ecc2 * (t * t))) in *.
    assert (A : 988 / 1000 < s * s * s). { assert (992 / 1000 < s * s) by nra. nra. }
    unfold Rdiv. rewrite Rabs_mult, Rabs_inv, (Rabs_right (s * s * s)) by lra. rewrite Rabs_mult, (Rabs_right ecc2) by lra.
    assert (Rabs t <= 1) by (apply Rabs_le; lra). assert (0 <= Rabs t) by apply Rabs_pos.
    apply (Rmult_le_reg_r (s * s * s)); [lra|]. rewrite Rmult_assoc, Rinv_l by lra. nra.
Qed.

Lemma cfun_bounds x : -1 <= x <= 1 -> 1 <= cfun x <= 1005 / 1000.
Proof.
  intros X. assert (R := root_bounds x X). unfold cfun. set (s := sqrt (1 - ecc2 * (x * x))) in *.
  split; apply (Rmult_le_reg_r s); try lra; replace (1 / s * s) with 1 by (field; lra); lra.
Qed.

Lemma sin_lip x y : Rabs (sin x - sin y) <= Rabs (x - y).
Proof.
  set (m := Rmin x y). set (M := Rmax x y).
  assert (H := lipschitz sin cos 1 m M x y). rewrite Rmult_1_l in H. apply H.
  - intros. auto_derive; [exact I | ring].
  - intros. apply Rabs_le, COS_bound.
  - split; [apply Rmin_l | apply Rmax_l].
  - split; [apply Rmin_r | apply Rmax_r].
Qed.

(** The polar angle of (r, Z) moves slowly with Z when (r, Z) is far from the origin. *)
Lemma atan2_lip r m (Z1 Z2 : R) : 0 < r -> 0 < m ->
  (forall Z, Rmin Z1 Z2 <= Z <= Rmax Z1 Z2 -> m * m <= r * r + Z * Z) -> Rabs (Ratan2 Z1 r - Ratan2 Z2 r) <= / m * Rabs (Z1 - Z2).
Proof.
  intros R M F.
  assert (E : forall Z, Ratan2 Z r = atan (Z / r)) by (intros; unfold Ratan2; destruct (Rlt_dec 0 r); [reflexivity | lra]).
  rewrite !E.
  apply (lipschitz (fun Z => atan (Z / r)) (fun Z => r / (r * r + Z * Z)) (/ m) (Rmin Z1 Z2) (Rmax Z1 Z2)).
  - intros t T. assert (0 <= t * t) by apply Rle_0_sqr. assert (0 < r * r) by nra. auto_derive; [lra|]. field. repeat split; try lra; apply Rgt_not_eq; nra.
  - intros t T. specialize (F t T). assert (0 <= t * t) by apply Rle_0_sqr. assert (0 < r * r) by nra.
    unfold Rdiv. rewrite Rabs_right; [|apply Rle_ge, Rmult_le_pos; [lra | apply Rlt_le, Rinv_0_lt_compat; lra]].
    apply (Rmult_le_reg_r (r * r + t * t)); [lra|]. rewrite Rmult_assoc, Rinv_l by lra. rewrite Rmult_1_r.
    apply (Rmult_le_reg_l m); [lra|]. rewrite <- Rmult_assoc, Rinv_r by lra. rewrite Rmult_1_l.
    assert (0 <= (m - r) * (m - r)) by apply Rle_0_sqr. lra.
  - split; [apply Rmin_l | apply Rmax_l].
  - split; [apply Rmin_r | apply Rmax_r].
Qed.

Lemma erad_eq : ERAD ideal = erad.
Proof. reflexivity. Qed.

(** One turn of the iteration. *)
Definition next_lat (z r phi : R) : R := Ratan2 (z + erad * ecc2 * wfun (sin phi)) r.

Lemma wfun_bound x : -1 <= x <= 1 -> Rabs (wfun x) <= 1005 / 1000.
Proof.
  intros X. assert (C := cfun_bounds x X). replace (wfun x) with (x * cfun x) by (unfold wfun, cfun, Rdiv; ring). rewrite Rabs_mult.
  rewrite (Rabs_right (cfun x)) by lra. assert (Rabs x <= 1) by (apply Rabs_le; lra). assert (0 <= Rabs x) by apply Rabs_pos. nra.
Qed.

Lemma between a b t : Rmin a b <= t <= Rmax a b -> forall z k, Rabs (a - z) <= k -> Rabs (b - z) <= k -> Rabs (t - z) <= k.
Proof.
  intros T z k A B. apply Rabs_le. apply Rabs_def2_le in A || (unfold Rabs in A, B; unfold Rmin, Rmax in T; destruct (Rle_dec a b), (Rcase_abs (a - z)), (Rcase_abs (b - z)); lra).
Qed.

(** Far enough from the centre of the Earth (at least 0.9 equatorial radii): all the arguments stay far from the origin. *)
Definition outside (z r : R) : Prop := 81 / 100 * (erad * erad) <= r * r + z * z.

Lemma stays_far z r Z : outside z r -> Rabs (Z - z) <= 68 / 10000 * erad -> (89 / 100 * erad) * (89 / 100 * erad) <= r * r + Z * Z.
Proof.
  unfold outside. intros O K. unfold erad in *. set (a := 63781366 / 10000) in *. assert (A : 0 < a) by (unfold a; lra).
  assert (K2 : - (68 / 10000 * a) <= Z - z <= 68 / 10000 * a) by (unfold Rabs in K; destruct (Rcase_abs (Z - z)); lra).
  (* |Z| >= |z| - k ; minimise over z *)
  set (k := 68 / 10000 * a) in *. assert (KA : k = 68 / 10000 * a) by reflexivity.
  destruct (Rle_dec (81 / 100 * (a * a)) (r * r)). { assert (0 <= Z * Z) by apply Rle_0_sqr. assert (0 < a * a) by nra. nra. }
  assert (ZZ : 81 / 100 * (a * a) - r * r <= z * z) by lra.
  assert (Q : Rabs z - k <= Rabs Z). { unfold Rabs. destruct (Rcase_abs z), (Rcase_abs Z); lra. }
  assert (ZA : Rabs z * Rabs z = z * z) by (rewrite <- Rabs_mult; apply Rabs_right, Rle_ge, Rle_0_sqr).
  assert (ZB : Rabs Z * Rabs Z = Z * Z) by (rewrite <- Rabs_mult; apply Rabs_right, Rle_ge, Rle_0_sqr).
  assert (P1 := Rabs_pos z). assert (P2 := Rabs_pos Z). rewrite <- ZB. rewrite <- ZA in ZZ, O.
  set (u := Rabs z) in *. set (v := Rabs Z) in *. assert (RR : 0 <= r * r) by apply Rle_0_sqr. clearbody u v k. clear ZA ZB K K2.
  destruct (Rle_dec u a) as [UA|UA].
  - assert (K0 : 0 < k) by (rewrite KA; lra).
    assert (u * u - 2 * k * a <= v * v).
    { destruct (Rle_dec k u) as [KU|KU].
      - assert ((u - k) * (u - k) <= v * v) by (apply Rmult_le_compat; lra). assert (u * k <= a * k) by (apply Rmult_le_compat_r; lra). nra.
      - assert (0 <= v * v) by apply Rle_0_sqr. assert (u * u <= k * k) by (apply Rmult_le_compat; lra). assert (k * k <= k * a) by (apply Rmult_le_compat_l; lra). lra. }
    assert (k * a = 68 / 10000 * (a * a)) by (rewrite KA; ring). nra.
  - assert (a - k <= v) by lra. rewrite KA in H. assert (9932 / 10000 * a <= v) by lra. nra.
Qed.

Lemma next_lip z r p q : 0 < r -> outside z r -> Rabs (next_lat z r p - next_lat z r q) <= 8 / 1000 * Rabs (p - q).
Proof.
  intros R O. unfold next_lat. assert (EB := ecc2_bounds). assert (AP : 0 < erad) by (unfold erad; lra).
  assert (SP := SIN_bound p). assert (SQ := SIN_bound q).
  set (Z1 := z + erad * ecc2 * wfun (sin p)). set (Z2 := z + erad * ecc2 * wfun (sin q)).
  assert (K : forall x, -1 <= x <= 1 -> Rabs (z + erad * ecc2 * wfun x - z) <= 68 / 10000 * erad).
  { intros x X. replace (z + erad * ecc2 * wfun x - z) with (erad * ecc2 * wfun x) by ring. rewrite !Rabs_mult, (Rabs_right erad), (Rabs_right ecc2) by lra.
    assert (W := wfun_bound x X). assert (0 <= Rabs (wfun x)) by apply Rabs_pos.
    assert (ecc2 * Rabs (wfun x) <= 68 / 10000) by nra. nra. }
  assert (L := atan2_lip r (89 / 100 * erad) Z1 Z2 R).
  assert (D : Rabs (Z1 - Z2) <= erad * (7 / 1000) * Rabs (p - q)).
  { unfold Z1, Z2. replace (z + erad * ecc2 * wfun (sin p) - (z + erad * ecc2 * wfun (sin q))) with (erad * ecc2 * (wfun (sin p) - wfun (sin q))) by ring.
    rewrite !Rabs_mult, (Rabs_right erad), (Rabs_right ecc2) by lra. rewrite Rmult_assoc, Rmult_assoc. apply Rmult_le_compat_l; [lra|].
    assert (W := wfun_lip (sin p) (sin q) SP SQ). assert (S1 := sin_lip p q). assert (0 <= Rabs (wfun (sin p) - wfun (sin q))) by apply Rabs_pos.
    assert (0 <= Rabs (sin p - sin q)) by apply Rabs_pos. nra. }
  assert (G : Rabs (Ratan2 Z1 r - Ratan2 Z2 r) <= / (89 / 100 * erad) * Rabs (Z1 - Z2)).
  { apply L; [lra|]. intros Z B. apply (stays_far z r Z O). apply (between Z1 Z2 Z B z); apply K; assumption. }
  eapply Rle_trans; [exact G|].
  apply (Rmult_le_reg_l (89 / 100 * erad)); [lra|]. rewrite <- Rmult_assoc, Rinv_r, Rmult_1_l by lra.
  eapply Rle_trans; [exact D|]. assert (0 <= Rabs (p - q)) by apply Rabs_pos. nra.
Qed.

(** The start: the geocentric latitude is the turn with nothing added. *)
Lemma first_step z r : 0 < r -> outside z r -> Rabs (next_lat z r (Ratan2 z r) - Ratan2 z r) <= 8 / 1000.
Proof.
  intros R O. unfold next_lat. assert (EB := ecc2_bounds). assert (AP : 0 < erad) by (unfold erad; lra).
  set (p := Ratan2 z r) at 1. assert (SP := SIN_bound p). set (Z1 := z + erad * ecc2 * wfun (sin p)).
  assert (K : Rabs (Z1 - z) <= 68 / 10000 * erad).
  { unfold Z1. replace (z + erad * ecc2 * wfun (sin p) - z) with (erad * ecc2 * wfun (sin p)) by ring. rewrite !Rabs_mult, (Rabs_right erad), (Rabs_right ecc2) by lra.
    assert (W := wfun_bound (sin p) SP). assert (0 <= Rabs (wfun (sin p))) by apply Rabs_pos.
    assert (ecc2 * Rabs (wfun (sin p)) <= 68 / 10000) by nra. nra. }
  assert (G : Rabs (Ratan2 Z1 r - Ratan2 z r) <= / (89 / 100 * erad) * Rabs (Z1 - z)).
  { apply atan2_lip; [exact R | lra|]. intros Z B. apply (stays_far z r Z O). apply (between Z1 z Z B z); [exact K|]. rewrite Rminus_eq_0, Rabs_R0. lra. }
  eapply Rle_trans; [exact G|]. apply (Rmult_le_reg_l (89 / 100 * erad)); [lra|]. rewrite <- Rmult_assoc, Rinv_r, Rmult_1_l by lra. lra.
Qed.

(** The loop of the model is this iteration. *)
Lemma geo_lat_turn f z r lat : geo_lat ideal (S f) ecc2 z r lat =
  (let l := next_lat z r lat in if Rleb (1 / 10000000000) (Rabs (l - lat)) then geo_lat ideal f ecc2 z r l else Ok (l, cfun (sin lat))).
Proof.
  cbn [geo_lat]. rewrite erad_eq. ideal_. lits. cbv zeta. unfold next_lat.
  replace (erad * (1 / sqrt (1 - ecc2 * sin lat * sin lat)) * ecc2 * sin lat) with (erad * ecc2 * wfun (sin lat)).
  - replace (1 / sqrt (1 - ecc2 * sin lat * sin lat)) with (cfun (sin lat)); [reflexivity|]. unfold cfun. do 3 f_equal. ring.
  - unfold wfun. replace (ecc2 * sin lat * sin lat) with (ecc2 * (sin lat * sin lat)) by ring. unfold Rdiv. ring.
Qed.

Lemma geo_lat_ends z r d f lat n : 0 < r -> outside z r -> Rabs (next_lat z r lat - lat) <= d -> 0 <= d ->
  (8 / 1000) ^ n * d < 1 / 10000000000 -> (n < f)%nat ->
  exists phi, geo_lat ideal f ecc2 z r lat = Ok (next_lat z r phi, cfun (sin phi)) /\ Rabs (next_lat z r phi - phi) < 1 / 10000000000.
Proof.
  intros R O. revert d f lat. induction n; intros d f lat D D0 B F.
  - destruct f; [lia|]. rewrite geo_lat_turn. cbv zeta. cbn [pow] in B.
    replace (Rleb (1 / 10000000000) (Rabs (next_lat z r lat - lat))) with false by (symmetry; apply Rleb_f; lra).
    exists lat. split; [reflexivity | lra].
  - destruct f; [lia|]. rewrite geo_lat_turn. cbv zeta.
    destruct (Rleb (1 / 10000000000) (Rabs (next_lat z r lat - lat))) eqn:T.
    + apply (IHn (8 / 1000 * d) f (next_lat z r lat)); [| lra | cbn [pow] in B; lra | lia].
      eapply Rle_trans; [apply next_lip; assumption|]. apply Rmult_le_compat_l; lra.
    + apply Rleb_f in T. exists lat. split; [reflexivity | exact T].
Qed.

Lemma geo_lat_five z r f : 0 < r -> outside z r -> (5 <= f)%nat ->
  exists phi, geo_lat ideal f ecc2 z r (Ratan2 z r) = Ok (next_lat z r phi, cfun (sin phi)) /\ Rabs (next_lat z r phi - phi) < 1 / 10000000000.
Proof.
  intros R O F. apply (geo_lat_ends z r (8 / 1000) f (Ratan2 z r) 4 R O); [apply first_step; assumption | lra | | lia].
  cbn [pow]. lra.
Qed.

(** *** The whole function *)
Lemma place_error z r phi : 0 < r -> Rabs (next_lat z r phi - phi) < 1 / 10000000000 ->
  let lat := next_lat z r phi in
  let alt := r / cos lat - erad * cfun (sin phi) in
  0 < cos lat /\ Rabs ((prime_vertical erad ecc2 lat + alt) * cos lat - r) <= 1 / 1000000 /\ Rabs ((prime_vertical erad ecc2 lat * (1 - ecc2) + alt) * sin lat - z) <= 1 / 1000000.
Proof.
  intros R D. cbv zeta. set (lat := next_lat z r phi) in *. assert (EB := ecc2_bounds). assert (P := pi_lower).
  assert (LE : lat = atan ((z + erad * ecc2 * wfun (sin phi)) / r)). { unfold lat, next_lat, Ratan2. destruct (Rlt_dec 0 r); [reflexivity | lra]. }
  assert (C : 0 < cos lat) by (rewrite LE; apply cos_atan_pos).
  assert (T : sin lat = (z + erad * ecc2 * wfun (sin phi)) / r * cos lat).
  { assert (tan lat = (z + erad * ecc2 * wfun (sin phi)) / r) by (rewrite LE; apply tan_atan). unfold tan in H. rewrite <- H. field. lra. }
  assert (PV : prime_vertical erad ecc2 lat = erad * cfun (sin lat)) by (unfold prime_vertical, cfun, Rdiv; ring).
  rewrite PV. split; [exact C|].
  assert (SL := SIN_bound lat). assert (SP := SIN_bound phi). assert (CL := COS_bound lat).
  assert (DC : Rabs (cfun (sin lat) - cfun (sin phi)) <= 7 / 10000000000000).
  { eapply Rle_trans; [apply cfun_lip; assumption|]. assert (H := sin_lip lat phi). lra. }
  assert (DS : Rabs (sin phi - sin lat) <= 1 / 10000000000). { assert (H := sin_lip phi lat). rewrite (Rabs_minus_sym phi) in H. lra. }
  assert (CB := cfun_bounds (sin phi) SP).
  assert (DC2 : - (7 / 10000000000000) <= cfun (sin lat) - cfun (sin phi) <= 7 / 10000000000000) by (unfold Rabs in DC; destruct (Rcase_abs (cfun (sin lat) - cfun (sin phi))); lra).
  assert (DS2 : - (1 / 10000000000) <= sin phi - sin lat <= 1 / 10000000000) by (unfold Rabs in DS; destruct (Rcase_abs (sin phi - sin lat)); lra).
  set (dc := cfun (sin lat) - cfun (sin phi)) in *. set (ds := sin phi - sin lat) in *. set (c0 := cfun (sin phi)) in *.
  split.
  - replace ((erad * cfun (sin lat) + (r / cos lat - erad * c0)) * cos lat - r) with (erad * (dc * cos lat)) by (unfold dc; field; lra).
    apply Rabs_le. assert (-7 / 10000000000000 <= dc * cos lat <= 7 / 10000000000000) by nra. unfold erad. lra.
  - replace ((erad * cfun (sin lat) * (1 - ecc2) + (r / cos lat - erad * c0)) * sin lat - z)
      with (erad * (dc * (1 - ecc2) * sin lat + c0 * ecc2 * ds)).
    + apply Rabs_le. assert (-7 / 10000000000000 <= dc * (1 - ecc2) * sin lat <= 7 / 10000000000000).
      { assert (-7 / 10000000000000 <= dc * (1 - ecc2) <= 7 / 10000000000000) by nra. nra. }
      assert (0 < c0 * ecc2 < 1 / 100) by nra. assert (-1 / 1000000000000 <= c0 * ecc2 * ds <= 1 / 1000000000000) by nra. unfold erad. lra.
    + assert (X : r / cos lat * sin lat = z + erad * ecc2 * (c0 * sin phi)).
      { rewrite T. replace (wfun (sin phi)) with (c0 * sin phi) by (unfold wfun, c0, cfun, Rdiv; ring). field. lra. }
      rewrite !Rmult_plus_distr_r, Rmult_minus_distr_r, X. unfold dc, ds. ring.
Qed.

Lemma lon_range th g : -180 < th <= 180 -> 0 <= g <= 24 ->
  let l := th - g * 15 in
  let l := if Rltb 180 l then l - 360 else if Rltb l (-180) then l + 360 else l in
  -180 <= l <= 180 /\ exists k : Z, l + 15 * g = th + 360 * IZR k.
Proof.
  intros T G. cbv zeta. destruct (Rltb 180 (th - g * 15)) eqn:A; [apply Rltb_t in A | apply Rltb_f in A].
  - split; [lra|]. exists (-1)%Z. lra.
  - destruct (Rltb (th - g * 15) (-180)) eqn:B; [apply Rltb_t in B | apply Rltb_f in B].
    + split; [lra|]. exists 1%Z. lra.
    + split; [lra|]. exists 0%Z. lra.
Qed.

Lemma place_right fuel gmst x y z : (5 <= fuel)%nat -> 0 <= gmst <= 24 -> 0 < x * x + y * y -> 81 / 100 * (erad * erad) <= x * x + y * y + z * z ->
  exists p, sat_geoLocation ideal fuel gmst (x, y, z) = Ok p /\
    -180 <= pl_lon ideal p <= 180 /\ -90 < pl_lat ideal p < 90 /\
    near (2 / 1000000) (geodetic erad ecc2 (radians (pl_lon ideal p + 15 * gmst)) (radians (pl_lat ideal p)) (pl_alt ideal p)) (x, y, z).
Proof.
  intros F G R O. unfold sat_geoLocation. ideal_. lits. change (mul ideal) with Rmult.
  replace (flattening ideal * (2 - flattening ideal)) with ecc2 by (symmetry; assert (E := ecc2_eq); ideal_; lits; exact E).
  set (r := sqrt (x * x + y * y)). assert (RP : 0 < r) by (apply sqrt_lt_R0; exact R).
  assert (RR : r * r = x * x + y * y) by (apply sqrt_sqrt; lra).
  destruct (geo_lat_five z r fuel RP) as [phi [E D]]; [unfold outside; lra | exact F |].
  rewrite E. cbn [bind]. rewrite erad_eq. set (lat := next_lat z r phi) in *. cbv beta iota zeta.
  destruct (place_error z r phi RP D) as [C [E1 E2]]. fold lat in C, E1, E2.
  assert (P := PI_RGT_0).
  assert (LB : - PI / 2 < lat < PI / 2). { unfold lat, next_lat, Ratan2. destruct (Rlt_dec 0 r); [apply atan_bound | lra]. }
  fold (degrees lat). assert (DB : -90 < degrees lat < 90).
  { unfold degrees. assert (A1 : - PI / 2 * (180 / PI) = -90) by (field; lra). assert (A2 : PI / 2 * (180 / PI) = 90) by (field; lra).
    assert (0 < 180 / PI) by (apply Rdiv_lt_0_compat; lra). destruct LB as [L U]. split; [apply (Rmult_lt_compat_r (180 / PI)) in L | apply (Rmult_lt_compat_r (180 / PI)) in U]; lra. }
  replace (Rltb 90 (degrees lat)) with false by (symmetry; apply Rltb_f; lra).
  fold (degrees (Ratan2 y x)). set (th := degrees (Ratan2 y x)).
  assert (TB : -180 < th <= 180).
  { unfold th, degrees. assert (A1 : - PI * (180 / PI) = -180) by (field; lra). assert (A2 : PI * (180 / PI) = 180) by (field; lra).
    assert (0 < 180 / PI) by (apply Rdiv_lt_0_compat; lra). destruct (Ratan2_range y x) as [L U].
    split; [apply (Rmult_lt_compat_r (180 / PI)) in L | apply (Rmult_le_compat_r (180 / PI)) in U]; lra. }
  destruct (lon_range th gmst TB G) as [B [k K]]. cbv zeta in B, K.
  eexists. split; [reflexivity|]. cbn [pl_lon pl_lat pl_alt].
  set (lon := if Rltb 180 (th - gmst * 15) then th - gmst * 15 - 360 else if Rltb (th - gmst * 15) (-180) then th - gmst * 15 + 360 else th - gmst * 15) in *.
  split; [exact B|]. split; [exact DB|].
  assert (RL : radians (degrees lat) = lat) by (unfold radians, degrees; field; lra). rewrite RL.
  destruct (congruent_trig (radians (lon + 15 * gmst)) (Ratan2 y x)) as [CT ST].
  { exists k. rewrite K. unfold radians, th, degrees. field. lra. }
  destruct (Ratan2_polar y x) as [PX PY]; [lra|]. fold r in PX, PY.
  unfold near, geodetic. rewrite CT, ST. set (t := Ratan2 y x) in *. set (q := (prime_vertical erad ecc2 lat + (r / cos lat - erad * cfun (sin phi))) * cos lat) in *.
  assert (CB := COS_bound t). assert (SB := SIN_bound t).
  assert (QB : - (1 / 1000000) <= q - r <= 1 / 1000000) by (unfold Rabs in E1; destruct (Rcase_abs (q - r)); lra).
  split; [|split].
  - rewrite PX. replace (q * cos t - r * cos t) with ((q - r) * cos t) by ring. apply Rabs_le. nra.
  - rewrite PY. replace (q * sin t - r * sin t) with ((q - r) * sin t) by ring. apply Rabs_le. nra.
  - lra.
Qed.

(** Exactly over a pole: the altitude is minus the radius of curvature. *)
Lemma place_pole fuel gmst z : (1 <= fuel)%nat -> 0 < z ->
  exists p, sat_geoLocation ideal fuel gmst (0, 0, z) = Ok p /\ pl_alt ideal p = - erad * cfun 1 /\ pl_lat ideal p = 90.
Proof.
  intros F Z. unfold sat_geoLocation. ideal_. lits. change (mul ideal) with Rmult.
  replace (flattening ideal * (2 - flattening ideal)) with ecc2 by (symmetry; assert (E := ecc2_eq); ideal_; lits; exact E).
  replace (0 * 0 + 0 * 0) with 0 by ring. rewrite sqrt_0. assert (P := PI_RGT_0). assert (EB := ecc2_bounds).
  assert (T : forall Y, 0 < Y -> Ratan2 Y 0 = PI / 2). { intros Y H. unfold Ratan2. destruct (Rlt_dec 0 0); [lra|]. destruct (Rlt_dec 0 Y); [reflexivity | lra]. }
  rewrite (T z Z). destruct fuel as [|f]; [lia|]. rewrite geo_lat_turn. cbv zeta. unfold next_lat. rewrite sin_PI2.
  assert (C : 1 <= cfun 1 <= 1005 / 1000) by (apply cfun_bounds; lra). assert (AP : 0 < erad) by (unfold erad; lra). assert (W : wfun 1 = cfun 1) by reflexivity.
  assert (Q : 0 < z + erad * ecc2 * wfun 1). { rewrite W. assert (0 < erad * ecc2) by (apply Rmult_lt_0_compat; lra).
    assert (0 < erad * ecc2 * cfun 1) by (apply Rmult_lt_0_compat; lra). lra. }
  rewrite (T _ Q).
  rewrite Rminus_eq_0, Rabs_R0. replace (Rleb (1 / 10000000000) 0) with false by (symmetry; apply Rleb_f; lra).
  cbn [bind]. cbv beta iota zeta. rewrite erad_eq. eexists. split; [reflexivity|]. cbn [pl_alt pl_lat]. split.
  - unfold Rdiv. rewrite Rmult_0_l. ring.
  - replace (PI / 2 * (180 / PI)) with 90 by (field; lra). replace (Rltb 90 90) with false by (symmetry; apply Rltb_f; lra). reflexivity.
Qed.
