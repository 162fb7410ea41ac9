(** Shadow and horizon coordinates. *)
From Coq Require Import ZArith Reals Lra Lia Bool Psatz.
From Verif Require Import CLib ArithModel GeoModel GeoSpec GeoLemmas GeoProofs1.
Open Scope R_scope.

Ltac lits := repeat match goal with
  | |- context [ IZR ?n / 1 ] => replace (IZR n / 1) with (IZR n) by field
  | H : context [ IZR ?n / 1 ] |- _ => replace (IZR n / 1) with (IZR n) in H by field end.

(** *** Shadow: a quadratic with a root that is not negative. *)
Lemma quadratic_halfline b c : (exists d, 0 <= d /\ d * d - 2 * b * d + c <= 0) <-> (0 <= b * b - c /\ 0 <= b + sqrt (b * b - c)).
Proof.
  split.
  - intros [d [D E]]. assert (Q : (d - b) * (d - b) <= b * b - c) by lra. assert (0 <= (d - b) * (d - b)) by apply Rle_0_sqr.
    split; [lra|]. assert (d - b <= sqrt (b * b - c)). { destruct (Rle_dec (d - b) 0). { assert (0 <= sqrt (b * b - c)) by apply sqrt_pos. lra. }
      rewrite <- (sqrt_square (d - b)) by lra. apply sqrt_le_1_alt. exact Q. } lra.
  - intros [N P]. exists (b + sqrt (b * b - c)). split; [exact P|].
    assert (sqrt (b * b - c) * sqrt (b * b - c) = b * b - c) by (apply sqrt_sqrt; exact N). nra.
Qed.

Lemma norm_le v r : 0 <= r -> (norm v <= r <-> dot v v <= r * r).
Proof.
  intros H. unfold norm. assert (P : 0 <= dot v v). { destruct v as [[x y] z]. unfold dot. nra. }
  split; intros L.
  - assert (S := sqrt_pos (dot v v)). rewrite <- (sqrt_sqrt (dot v v)) by exact P. apply Rmult_le_compat; assumption.
  - rewrite <- (sqrt_square r) by exact H. apply sqrt_le_1_alt. exact L.
Qed.

Lemma erad_pos : 0 < ERAD ideal.
Proof. unfold ERAD. ideal_. lra. Qed.

Lemma shadow_iff (sat sun : rvec) : minus sun sat <> (0, 0, 0) ->
  (fst (fst (intersect_satsun_sphere ideal sat sun)) = true <-> blocked (ERAD ideal) sat sun).
Proof.
  intros N. destruct sat as [[x y] z], sun as [[p q] s]. unfold intersect_satsun_sphere, blocked. ideal_. lits.
  assert (EP := erad_pos). set (E := ERAD ideal) in *. rewrite !Rplus_0_l.
  set (a := p - x). set (b := q - y). set (c := s - z).
  set (l := sqrt (a * a + b * b + c * c)).
  assert (LL : 0 < a * a + b * b + c * c).
  { assert (0 <= a * a) by apply Rle_0_sqr. assert (0 <= b * b) by apply Rle_0_sqr. assert (0 <= c * c) by apply Rle_0_sqr.
    assert (Z : forall t, t * t = 0 -> t = 0) by (intros t E0; apply Rmult_integral in E0; tauto).
    destruct (Rle_lt_or_eq_dec 0 (a * a + b * b + c * c)); [lra | assumption |].
    exfalso. apply N. unfold minus. fold a b c. rewrite (Z a), (Z b), (Z c) by lra. reflexivity. }
  assert (LP : 0 < l) by (apply sqrt_lt_R0; exact LL). assert (L2 : l * l = a * a + b * b + c * c) by (apply sqrt_sqrt; lra).
  set (B := a / l * - x + b / l * - y + c / l * - z).
  replace (- x * - x + - y * - y + - z * - z - E * E) with (x * x + y * y + z * z - E * E) by ring. set (C := x * x + y * y + z * z - E * E).
  assert (D : B * 2 * (B * 2) - 4 * C = 4 * (B * B - C)) by ring.
  assert (I : (exists d, 0 <= d /\ norm (plus (x, y, z) (scale d (minus (p, q, s) (x, y, z)))) <= E) <->
              (exists d, 0 <= d /\ d * d - 2 * B * d + C <= 0)).
  { assert (K : forall d, dot (plus (x, y, z) (scale d (minus (p, q, s) (x, y, z)))) (plus (x, y, z) (scale d (minus (p, q, s) (x, y, z)))) - E * E
                  = (d * l) * (d * l) - 2 * B * (d * l) + C).
    { intros d. unfold dot, plus, scale, minus, C. fold a b c. replace (d * l * (d * l)) with (d * d * (l * l)) by ring. rewrite L2.
      unfold B. replace (2 * (a / l * - x + b / l * - y + c / l * - z) * (d * l)) with (2 * d * (a * - x + b * - y + c * - z)) by (field; lra). ring. }
    split.
    - intros [d [D0 H]]. exists (d * l). split; [apply Rmult_le_pos; lra|]. apply norm_le in H; [|lra]. specialize (K d). lra.
    - intros [d [D0 H]]. exists (d / l). split; [apply Rmult_le_pos; [lra|]; apply Rlt_le, Rinv_0_lt_compat; lra|].
      apply norm_le; [lra|]. specialize (K (d / l)). replace (d / l * l) with d in K by (field; lra). lra. }
  rewrite I, quadratic_halfline, D.
  destruct (Rltb (4 * (B * B - C)) 0) eqn:T.
  - apply Rltb_t in T. cbn [fst]. split; [discriminate | intros [G _]; lra].
  - apply Rltb_f in T. cbn [fst].
    assert (SQ : sqrt (4 * (B * B - C)) = 2 * sqrt (B * B - C)).
    { rewrite sqrt_mult by lra. f_equal. replace 4 with (2 * 2) by ring. apply sqrt_square. lra. }
    rewrite SQ. replace ((B * 2 + 2 * sqrt (B * B - C)) / 2) with (B + sqrt (B * B - C)) by field.
    destruct (Rltb (B + sqrt (B * B - C)) 0) eqn:U; [apply Rltb_t in U | apply Rltb_f in U].
    + split; [discriminate | intros [_ G]; lra].
    + split; [intros _; lra | reflexivity].
Qed.

(** eray[0] and eray[1]: the distances along the ray at which it crosses the sphere. *)
Lemma shadow_points (sat sun : rvec) r0 r1 : minus sun sat <> (0, 0, 0) ->
  intersect_satsun_sphere ideal sat sun = (true, r0, r1) ->
  forall r, (r = r0 \/ r = r1) -> norm (plus sat (scale (r / norm (minus sun sat)) (minus sun sat))) = ERAD ideal.
Proof.
  intros N. destruct sat as [[x y] z], sun as [[p q] s]. unfold intersect_satsun_sphere. ideal_. lits.
  assert (EP := erad_pos). set (E := ERAD ideal) in *. rewrite !Rplus_0_l.
  set (a := p - x). set (b := q - y). set (c := s - z).
  set (l := sqrt (a * a + b * b + c * c)).
  replace (norm (minus (p, q, s) (x, y, z))) with l by (unfold norm, dot, minus; reflexivity).
  unfold plus, scale, minus. fold a b c.
  assert (LL : 0 < a * a + b * b + c * c).
  { assert (0 <= a * a) by apply Rle_0_sqr. assert (0 <= b * b) by apply Rle_0_sqr. assert (0 <= c * c) by apply Rle_0_sqr.
    assert (Z : forall t, t * t = 0 -> t = 0) by (intros t E0; apply Rmult_integral in E0; tauto).
    destruct (Rle_lt_or_eq_dec 0 (a * a + b * b + c * c)); [lra | assumption |].
    exfalso. apply N. unfold minus. fold a b c. rewrite (Z a), (Z b), (Z c) by lra. reflexivity. }
  assert (LP : 0 < l) by (apply sqrt_lt_R0; exact LL). assert (L2 : l * l = a * a + b * b + c * c) by (apply sqrt_sqrt; lra).
  set (B := a / l * - x + b / l * - y + c / l * - z).
  replace (- x * - x + - y * - y + - z * - z - E * E) with (x * x + y * y + z * z - E * E) by ring. set (C := x * x + y * y + z * z - E * E).
  replace (B * 2 * (B * 2) - 4 * C) with (4 * (B * B - C)) by ring.
  destruct (Rltb (4 * (B * B - C)) 0) eqn:T; [intros Q; discriminate Q|]. apply Rltb_f in T.
  assert (SQ : sqrt (4 * (B * B - C)) = 2 * sqrt (B * B - C)).
  { rewrite sqrt_mult by lra. f_equal. replace 4 with (2 * 2) by ring. apply sqrt_square. lra. }
  rewrite SQ. intros Q. assert (Q0 := f_equal (fun w => snd (fst w)) Q). assert (Q1 := f_equal snd Q). cbn [fst snd] in Q0, Q1. clear Q.
  assert (SS : sqrt (B * B - C) * sqrt (B * B - C) = B * B - C) by (apply sqrt_sqrt; lra).
  assert (G : forall r, r * r - 2 * B * r + C = 0 -> norm (x + r / l * a, y + r / l * b, z + r / l * c) = E).
  { intros r H. unfold norm, dot. rewrite <- (sqrt_square E) by lra. f_equal.
    assert (r * r = (r / l) * (r / l) * (a * a + b * b + c * c)). { rewrite <- L2. field. lra. }
    assert (B * r = r / l * (a * - x + b * - y + c * - z)). { unfold B. field. lra. }
    unfold C in H. nra. }
  intros r [R|R]; apply G; subst r; [rewrite <- Q0 | rewrite <- Q1]; nra.
Qed.

(** *** Horizon coordinates *)
Lemma radians_deg x : radians (180 / PI * x) = x.
Proof. unfold radians. assert (P := PI_RGT_0). field. lra. Qed.

Lemma sin_ha_dir dec h lat : dot (ha_dir dec h) (zenith lat) = cos dec * cos h * cos lat + sin dec * sin lat.
Proof. unfold dot, ha_dir, zenith. ring. Qed.

Lemma horizon_norm dec h lat :
  let d := ha_dir dec h in
  dot d (zenith lat) * dot d (zenith lat) + dot d (north lat) * dot d (north lat) + dot d east * dot d east = 1.
Proof.
  cbv zeta. unfold dot, ha_dir, zenith, north, east.
  assert (A := sc2 dec). assert (B := sc2 h). assert (C := sc2 lat).
  replace ((cos dec * cos h * cos lat + - (cos dec * sin h) * 0 + sin dec * sin lat) * (cos dec * cos h * cos lat + - (cos dec * sin h) * 0 + sin dec * sin lat) +
   (cos dec * cos h * - sin lat + - (cos dec * sin h) * 0 + sin dec * cos lat) * (cos dec * cos h * - sin lat + - (cos dec * sin h) * 0 + sin dec * cos lat) +
   (cos dec * cos h * 0 + - (cos dec * sin h) * 1 + sin dec * 0) * (cos dec * cos h * 0 + - (cos dec * sin h) * 1 + sin dec * 0))
   with ((sin lat * sin lat + cos lat * cos lat) * (cos dec * cos dec * (cos h * cos h) + sin dec * sin dec) + cos dec * cos dec * (sin h * sin h)) by ring.
  rewrite C. nra.
Qed.

Lemma elevation_asin dec h lat x : x = cos dec * cos h * cos lat + sin dec * sin lat ->
  elevation dec h lat (180 / PI * asin x).
Proof.
  intros E. assert (N := horizon_norm dec h lat). cbv zeta in N. rewrite sin_ha_dir in N. rewrite <- E in N.
  assert (B : -1 <= x <= 1) by nra. assert (P := PI_RGT_0). destruct (asin_bound x) as [L U].
  split.
  - assert (0 < 180 / PI) by (apply Rdiv_lt_0_compat; lra).
    replace (-90) with (180 / PI * - (PI / 2)) by (field; lra). replace 90 with (180 / PI * (PI / 2)) by (field; lra).
    split; apply Rmult_le_compat_l; lra.
  - rewrite radians_deg, sin_asin by exact B. rewrite sin_ha_dir. exact E.
Qed.

Definition regular_alt (dec lat : R) : Prop := 1 / 1000000 <= Rabs (dec - radians lat).
Definition not_polar (lat : R) : Prop := 1 / 1000000 <= cos (radians lat).

Lemma altitude dec ha lat h : dechalat2alt ideal dec ha lat = Ok h -> regular_alt dec lat -> ha = 0 \/ not_polar lat ->
  elevation dec (hour_angle ha) (radians lat) (hz_alt ideal h).
Proof.
  unfold dechalat2alt, regular_alt, not_polar, hour_angle. ideal_. lits. fold (radians lat). set (la := radians lat).
  intros E RA NP.
  destruct (Reqb ha 0) eqn:H0.
  - apply Reqb_t in H0. subst ha.
    assert (X : hz_alt ideal h = 180 / PI * asin (cos dec * 1 * cos la + sin dec * sin la)).
    { destruct (Reqb (cos dec) 0); cbn [bind] in E; injection E as <-; cbn [hz_alt];
      replace (Rltb (Rabs (dec - la)) (1 / 1000000)) with false by (symmetry; apply Rltb_f; exact RA); reflexivity. }
    rewrite X. apply elevation_asin. unfold radians. rewrite !Rmult_0_l, cos_0. reflexivity.
  - apply Reqb_f in H0. destruct NP as [NP|NP]; [lra|].
    replace (Rltb (cos la) (1 / 1000000)) with false in E by (symmetry; apply Rltb_f; exact NP).
    assert (X : hz_alt ideal h = 180 / PI * asin (cos dec * cos (ha * 15 * (PI / 180)) * cos la + sin dec * sin la)).
    { destruct (Reqb (cos dec) 0); cbn [bind] in E; injection E as <-; cbn [hz_alt];
      replace (Rltb (Rabs (dec - la)) (1 / 1000000)) with false by (symmetry; apply Rltb_f; exact RA); reflexivity. }
    rewrite X. apply elevation_asin. reflexivity.
Qed.

(** The other case: 90 whatever the hour angle. *)
Lemma altitude_shortcut dec ha lat h : dechalat2alt ideal dec ha lat = Ok h -> ~ regular_alt dec lat -> hz_alt ideal h = 90.
Proof.
  unfold dechalat2alt, regular_alt. ideal_. lits. fold (radians lat). set (la := radians lat). intros E N.
  assert (T : Rltb (Rabs (dec - la)) (1 / 1000000) = true) by (apply Rltb_t; lra). rewrite T in E.
  destruct (Reqb ha 0), (Reqb (cos dec) 0), (Rltb (cos la) (1 / 1000000)); cbn [bind] in E; injection E as <-; reflexivity.
Qed.

Lemma horizon_defined dec ha lat : exists h, dechalat2alt ideal dec ha lat = Ok h.
Proof.
  unfold dechalat2alt. ideal_. lits. destruct (Reqb ha 0), (Reqb (cos dec) 0), (Rltb (cos (lat * (PI / 180))) (1 / 1000000)); eexists; reflexivity.
Qed.

Lemma azimuth dec ha lat h : dechalat2alt ideal dec ha lat = Ok h -> ha <> 0 -> not_polar lat ->
  bearing dec (hour_angle ha) (radians lat) (hz_az ideal h).
Proof.
  unfold dechalat2alt, not_polar, hour_angle. ideal_. lits. fold (radians lat). set (la := radians lat).
  intros E H0 NP. replace (Reqb ha 0) with false in E by (symmetry; apply Reqb_f; exact H0).
  replace (Rltb (cos la) (1 / 1000000)) with false in E by (symmetry; apply Rltb_f; exact NP).
  fold (radians (ha * 15)) in E. set (hr := radians (ha * 15)) in *.
  set (y := -1 * cos dec * sin hr) in *. set (x := sin dec * cos la - cos dec * cos hr * sin la) in *. set (t := Ratan2 y x) in *.
  set (az0 := t * (180 / PI)) in *. set (az1 := if Rltb az0 0 then az0 + 360 else az0) in *.
  assert (X : hz_az ideal h = if Rleb 360 az1 then az1 - 360 else az1).
  { destruct (Reqb (cos dec) 0); cbn [bind] in E; injection E as <-; reflexivity. }
  assert (P := PI_RGT_0). destruct (Ratan2_range y x) as [L U]. fold t in L, U.
  assert (K : 0 < 180 / PI) by (apply Rdiv_lt_0_compat; lra).
  assert (B : -180 < az0 <= 180).
  { unfold az0. assert (A1 : - PI * (180 / PI) = -180) by (field; lra). assert (A2 : PI * (180 / PI) = 180) by (field; lra).
    split; [apply (Rmult_lt_compat_r (180 / PI)) in L | apply (Rmult_le_compat_r (180 / PI)) in U]; lra. }
  assert (R1 : 0 <= az1 < 360). { unfold az1. destruct (Rltb az0 0) eqn:Q; [apply Rltb_t in Q | apply Rltb_f in Q]; lra. }
  rewrite X. replace (Rleb 360 az1) with false by (symmetry; apply Rleb_f; lra).
  split; [exact R1|].
  assert (CS : cos (radians az1) = cos t /\ sin (radians az1) = sin t).
  { assert (T : radians az0 = t) by (unfold az0, radians; field; lra). unfold az1. destruct (Rltb az0 0).
    - replace (radians (az0 + 360)) with (t + 2 * PI) by (rewrite <- T; unfold radians; field). rewrite cos_plus_2pi, sin_plus_2pi. tauto.
    - rewrite T. tauto. }
  destruct CS as [CC SS]. rewrite CC, SS.
  assert (NN : dot (ha_dir dec hr) (north la) = x) by (unfold dot, ha_dir, north, x; ring).
  assert (EE : dot (ha_dir dec hr) east = y) by (unfold dot, ha_dir, east, y; ring). rewrite NN, EE.
  exists (sqrt (x * x + y * y)). split; [apply sqrt_pos|].
  destruct (Req_dec (x * x + y * y) 0) as [O|O].
  - assert (Z : forall t, t * t = 0 -> t = 0) by (intros t0 E0; apply Rmult_integral in E0; tauto).
    assert (0 <= x * x) by apply Rle_0_sqr. assert (0 <= y * y) by apply Rle_0_sqr.
    rewrite (Z x), (Z y) by lra. replace (0 * 0 + 0 * 0) with 0 by ring. rewrite sqrt_0. lra.
  - destruct (Ratan2_polar y x O) as [E1 E2]. fold t in E1, E2. split; assumption.
Qed.
