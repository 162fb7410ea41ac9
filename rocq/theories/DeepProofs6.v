(** Equatorial to ecliptic and back. *)
From Coq Require Import ZArith List Reals Lra Lia Psatz Bool.
From Flocq Require Import Core IEEE754.BinarySingleNaN Relative.
From Verif Require Import CLib FloatModel ArithModel FloatLemmas GeoLemmas OrbModel DeepModel.
Import ListNotations.
Open Scope R_scope.

Lemma round_trip_ideal x y z : exists k, Rabs (k - 1) <= / 10 ^ 38 /\ ecliptic_to_equatorial ideal (equatorial_to_ecliptic ideal (x, y, z)) = (x, k * y, k * z).
Proof.
  set (c := 917482062069181825744000384639406458043 / 1000000000000000000000000000000000000000). set (s := 397777155931913701597179975942380896684 / 1000000000000000000000000000000000000000).
  exists (c * c + s * s). split; [unfold c, s; apply Rabs_le; lra|].
  unfold ecliptic_to_equatorial, equatorial_to_ecliptic. change (cos_obliq_2000 ideal) with c. change (sin_obliq_2000 ideal) with s.
  change ((x, (y * c + z * s) * c - (z * c - y * s) * s, (z * c - y * s) * c + (y * c + z * s) * s) = (x, (c * c + s * s) * y, (c * c + s * s) * z)).
  f_equal; [f_equal|]; ring.
Qed.

(** One rounding, relative to the size of the result; [tiny] covers results near the smallest numbers. *)
Definition u := / 9007199254740992.
Definition tiny := bpow radix2 (-1075).
Lemma RN_rel x : Rabs (RN x - x) <= u * Rabs x + tiny.
Proof.
  destruct (error_N_FLT radix2 (-1074) 53 ltac:(lia) (fun n => negb (Z.even n)) x) as (eps & eta & E1 & E2 & _ & V).
  assert (V' : RN x = x * (1 + eps) + eta).
  { rewrite <- V. reflexivity. }
  rewrite V'. replace (x * (1 + eps) + eta - x) with (x * eps + eta) by ring. eapply Rle_trans; [apply Rabs_triang|]. rewrite Rabs_mult.
  apply Rplus_le_compat.
  - rewrite Rmult_comm. apply Rmult_le_compat_r; [apply Rabs_pos|]. eapply Rle_trans; [exact E1|]. unfold u. change (bpow radix2 (- (53) + 1)) with (bpow radix2 (-52)). rewrite bpow_neg. change (IZR (2 ^ 52)) with 4503599627370496. lra.
  - eapply Rle_trans; [exact E2|]. unfold tiny. replace (bpow radix2 (-1074)) with (2 * bpow radix2 (-1075)); [lra|]. change 2 with (bpow radix2 1). rewrite <- bpow_plus. reflexivity.
Qed.

Definition Cs := 8263943745707763 / 9007199254740992.
Definition Sn := 7165716204925849 / 18014398509481984.
Lemma cos_lit m : fin (cos_obliq_2000 (machine m)) /\ toR (cos_obliq_2000 (machine m)) = Cs.
Proof.
  change (cos_obliq_2000 (machine m)) with (round_ratio 917482062069181825744000384639406458043 1000000000000000000000000000000000000000).
  split; [vm_compute; reflexivity|]. rewrite <- SF2R_B2SF. replace (B2SF (round_ratio 917482062069181825744000384639406458043 1000000000000000000000000000000000000000)) with (SpecFloat.S754_finite false 8263943745707763 (-53)) by (vm_compute; reflexivity). unfold Cs. cbn. unfold F2R. cbn. lra.
Qed.
Lemma sin_lit m : fin (sin_obliq_2000 (machine m)) /\ toR (sin_obliq_2000 (machine m)) = Sn.
Proof.
  change (sin_obliq_2000 (machine m)) with (round_ratio 397777155931913701597179975942380896684 1000000000000000000000000000000000000000).
  split; [vm_compute; reflexivity|]. rewrite <- SF2R_B2SF. replace (B2SF (round_ratio 397777155931913701597179975942380896684 1000000000000000000000000000000000000000)) with (SpecFloat.S754_finite false 7165716204925849 (-54)) by (vm_compute; reflexivity). unfold Sn. cbn. unfold F2R. cbn. lra.
Qed.
Lemma unit : Rabs (Cs * Cs + Sn * Sn - 1) <= / 5 * u.
Proof. unfold Cs, Sn, u. apply Rabs_le. lra. Qed.
Lemma cs_bounds : 0 <= Cs <= 9175 / 10000 /\ 0 <= Sn <= 3978 / 10000.
Proof. unfold Cs, Sn. lra. Qed.
Lemma sqrt_bound x r : 0 <= r -> x * x <= r * r -> x <= r.
Proof. intros P H. nra. Qed.
(** |a| Cs + |b| Sn <= the length of (a, b), and the same the other way round. *)
Lemma cauchy a b r : 0 <= r -> a * a + b * b <= r * r -> Rabs a * Cs + Rabs b * Sn <= 10001 / 10000 * r.
Proof.
  intros P H. apply sqrt_bound; [lra|].
  assert (A2 : Rabs a * Rabs a = a * a) by (rewrite <- Rabs_mult, Rabs_pos_eq by apply Rle_0_sqr; reflexivity). assert (B2 : Rabs b * Rabs b = b * b) by (rewrite <- Rabs_mult, Rabs_pos_eq by apply Rle_0_sqr; reflexivity).
  set (x := Rabs a) in *. set (y := Rabs b) in *. rewrite <- A2, <- B2 in H. clearbody x y. clear A2 B2.
  assert (K : Cs * Cs + Sn * Sn <= 10001 / 10000) by (unfold Cs, Sn; lra). assert (Q := Rle_0_sqr (x * Sn - y * Cs)). unfold Rsqr in Q.
  assert (E : (x * Cs + y * Sn) * (x * Cs + y * Sn) = (Cs * Cs + Sn * Sn) * (x * x + y * y) - (x * Sn - y * Cs) * (x * Sn - y * Cs)) by ring. rewrite E.
  assert ((Cs * Cs + Sn * Sn) * (x * x + y * y) <= 10001 / 10000 * (r * r)); [|assert (Q3 := Rle_0_sqr r); unfold Rsqr in Q3; lra].
  assert (Q1 := Rle_0_sqr x). assert (Q2 := Rle_0_sqr y). unfold Rsqr in Q1, Q2. apply Rle_trans with (10001 / 10000 * (x * x + y * y)); [apply Rmult_le_compat_r; [lra | exact K] | lra].
Qed.
Lemma RN_opp x : RN (- x) = - RN x.
Proof. apply round_NE_opp. Qed.
(** A product-and-sum of the four. *)
Lemma stage a b w : Rabs a * Cs + Rabs b * Sn <= w -> Rabs (RN (RN (a * Cs) + RN (b * Sn)) - (a * Cs + b * Sn)) <= u * w + u * (w + u * w + 2 * tiny) + 3 * tiny.
Proof.
  intros H. destruct cs_bounds as [C0 S0]. assert (E1 := RN_rel (a * Cs)). assert (E2 := RN_rel (b * Sn)). assert (E3 := RN_rel (RN (a * Cs) + RN (b * Sn))).
  rewrite Rabs_mult, (Rabs_pos_eq Cs) in E1 by lra. rewrite Rabs_mult, (Rabs_pos_eq Sn) in E2 by lra.
  assert (T : Rabs (a * Cs + b * Sn) <= w). { eapply Rle_trans; [apply Rabs_triang|]. rewrite !Rabs_mult, (Rabs_pos_eq Cs), (Rabs_pos_eq Sn) by lra. exact H. }
  set (p := RN (a * Cs)) in *. set (q := RN (b * Sn)) in *. set (o := RN (p + q)) in *. clearbody p q o.
  assert (U : 0 < u < 1) by (unfold u; lra). assert (TP : 0 < tiny) by apply bpow_gt_0.
  assert (PQ : Rabs (p + q - (a * Cs + b * Sn)) <= u * w + 2 * tiny).
  { replace (p + q - (a * Cs + b * Sn)) with ((p - a * Cs) + (q - b * Sn)) by ring. eapply Rle_trans; [apply Rabs_triang|]. assert (u * (Rabs a * Cs + Rabs b * Sn) <= u * w) by (apply Rmult_le_compat_l; lra). lra. }
  assert (PQ2 : Rabs (p + q) <= w + u * w + 2 * tiny). { replace (p + q) with ((p + q - (a * Cs + b * Sn)) + (a * Cs + b * Sn)) by ring. eapply Rle_trans; [apply Rabs_triang|]. lra. }
  replace (o - (a * Cs + b * Sn)) with ((o - (p + q)) + (p + q - (a * Cs + b * Sn))) by ring. eapply Rle_trans; [apply Rabs_triang|].
  assert (u * Rabs (p + q) <= u * (w + u * w + 2 * tiny)) by (apply Rmult_le_compat_l; lra). lra.
Qed.
(** The same when the two arguments carry an error. *)
Lemma stage2 a b a' b' r e : 0 <= r -> a * a + b * b <= r * r -> Rabs (a' - a) <= e -> Rabs (b' - b) <= e ->
  Rabs (RN (RN (a' * Cs) + RN (b' * Sn)) - (a * Cs + b * Sn)) <= 13153 / 10000 * e + (let w := 10001 / 10000 * r + 13153 / 10000 * e in u * w + u * (w + u * w + 2 * tiny) + 3 * tiny).
Proof.
  intros P H Ha Hb. destruct cs_bounds as [C0 S0]. assert (H1 := cauchy a b r P H). assert (A1 := Rabs_triang_inv a' a). assert (B1 := Rabs_triang_inv b' b).
  assert (W : Rabs a' * Cs + Rabs b' * Sn <= 10001 / 10000 * r + 13153 / 10000 * e).
  { assert (0 <= e) by (assert (X := Rabs_pos (a' - a)); lra). assert (Rabs a' * Cs <= (Rabs a + e) * Cs) by (apply Rmult_le_compat_r; lra). assert (Rabs b' * Sn <= (Rabs b + e) * Sn) by (apply Rmult_le_compat_r; lra).
    assert (e * Cs <= e * (9175 / 10000)) by (apply Rmult_le_compat_l; lra). assert (e * Sn <= e * (3978 / 10000)) by (apply Rmult_le_compat_l; lra). lra. }
  assert (S := stage a' b' _ W). cbn zeta. set (o := RN _) in *.
  replace (o - (a * Cs + b * Sn)) with ((o - (a' * Cs + b' * Sn)) + ((a' - a) * Cs + (b' - b) * Sn)) by ring. eapply Rle_trans; [apply Rabs_triang|].
  assert (Rabs ((a' - a) * Cs + (b' - b) * Sn) <= 13153 / 10000 * e); [|lra].
  eapply Rle_trans; [apply Rabs_triang|]. rewrite !Rabs_mult, (Rabs_pos_eq Cs), (Rabs_pos_eq Sn) by lra.
  assert (0 <= e) by (assert (X := Rabs_pos (a' - a)); lra).
  assert (Rabs (a' - a) * Cs <= e * (9175 / 10000)) by (apply Rmult_le_compat; try lra; apply Rabs_pos). assert (Rabs (b' - b) * Sn <= e * (3978 / 10000)) by (apply Rmult_le_compat; try lra; apply Rabs_pos). lra.
Qed.
Lemma combo a b c s : fin a -> fin b -> fin c -> fin s -> toR c = Cs -> toR s = Sn -> Rabs (toR a) <= bpow radix2 910 -> Rabs (toR b) <= bpow radix2 910 ->
  (fin (fadd (fmul a c) (fmul b s)) /\ toR (fadd (fmul a c) (fmul b s)) = RN (RN (toR a * Cs) + RN (toR b * Sn)))
  /\ (fin (fsub (fmul a c) (fmul b s)) /\ toR (fsub (fmul a c) (fmul b s)) = RN (RN (toR a * Cs) + RN (- toR b * Sn))).
Proof.
  intros Fa Fb Fc Fs Vc Vs Ba Bb. destruct cs_bounds as [C0 S0].
  assert (G : forall q k, 0 <= k <= 1 -> Rabs q <= bpow radix2 910 -> Rabs (q * k) <= bpow radix2 910).
  { intros q k K Q. rewrite Rabs_mult, (Rabs_pos_eq k) by lra. rewrite <- (Rmult_1_r (bpow radix2 910)). apply Rmult_le_compat; [apply Rabs_pos | lra | exact Q | lra]. }
  destruct (fmul_R a c 910 Fa Fc) as [G1 V1]; [lia | rewrite Vc; apply G; [lra | exact Ba]|]. destruct (fmul_R b s 910 Fb Fs) as [G2 V2]; [lia | rewrite Vs; apply G; [lra | exact Bb]|].
  rewrite Vc in V1. rewrite Vs in V2. fold (RN (toR a * Cs)) in V1. fold (RN (toR b * Sn)) in V2.
  assert (B1 : Rabs (toR (fmul a c)) <= bpow radix2 910) by (rewrite V1; apply RN_abs_le; [lia | apply G; [lra | exact Ba]]).
  assert (B2 : Rabs (toR (fmul b s)) <= bpow radix2 910) by (rewrite V2; apply RN_abs_le; [lia | apply G; [lra | exact Bb]]).
  assert (D : bpow radix2 911 = 2 * bpow radix2 910) by (change 2 with (bpow radix2 1); rewrite <- bpow_plus; reflexivity).
  split.
  - destruct (fadd_R _ _ 911 G1 G2) as [G3 V3]; [lia | rewrite D; eapply Rle_trans; [apply Rabs_triang | lra]|]. split; [exact G3|]. rewrite V3, V1, V2. reflexivity.
  - destruct (fsub_R _ _ 911 G1 G2) as [G3 V3]; [lia | rewrite D; unfold Rminus; eapply Rle_trans; [apply Rabs_triang | rewrite Rabs_Ropp; lra]|]. split; [exact G3|]. rewrite V3, V1, V2.
    replace (- toR b * Sn) with (- (toR b * Sn)) by ring. rewrite RN_opp. reflexivity.
Qed.
(** The round trip. *)
Lemma round_trip64 m x y z r : fin y -> fin z -> toR y * toR y + toR z * toR z = r * r -> bpow radix2 (-900) <= r <= bpow radix2 900 ->
  exists y' z', ecliptic_to_equatorial (machine m) (equatorial_to_ecliptic (machine m) (x, y, z)) = (x, y', z')
    /\ fin y' /\ fin z' /\ Rabs (toR y' - toR y) <= 6 * u * r /\ Rabs (toR z' - toR z) <= 6 * u * r.
Proof.
  intros Fy Fz H [L1 L2]. destruct (cos_lit m) as [Fc Vc]. destruct (sin_lit m) as [Fsn Vs]. destruct cs_bounds as [C0 S0].
  assert (P900 := bpow_gt_0 radix2 (-900)). assert (P : 0 <= r) by lra.
  assert (TN : 0 < tiny <= u * u * u * r).
  { split; [apply bpow_gt_0|]. assert (E : tiny = bpow radix2 (-175) * bpow radix2 (-900)) by (unfold tiny; rewrite <- bpow_plus; reflexivity). rewrite E. apply Rmult_le_compat; [apply bpow_ge_0 | lra | | exact L1].
    assert (EU : u = bpow radix2 (-53)) by (rewrite bpow_neg; reflexivity). rewrite EU, <- !bpow_plus. apply bpow_le. lia. }
  set (c := cos_obliq_2000 (machine m)) in *. set (s := sin_obliq_2000 (machine m)) in *.
  assert (E : ecliptic_to_equatorial (machine m) (equatorial_to_ecliptic (machine m) (x, y, z)) =
     (let yE := fadd (fmul y c) (fmul z s) in let zE := fsub (fmul z c) (fmul y s) in (x, fsub (fmul yE c) (fmul zE s), fadd (fmul zE c) (fmul yE s)))) by reflexivity.
  rewrite E. clear E. cbn zeta. clearbody c s.
  assert (BYZ : forall a b, a * a + b * b = r * r -> Rabs a <= r).
  { intros a b Q. apply sqrt_bound; [exact P|]. rewrite <- Rabs_mult, Rabs_pos_eq by apply Rle_0_sqr. assert (X := Rle_0_sqr b). unfold Rsqr in X. lra. }
  assert (By := BYZ _ _ H). assert (Bz : Rabs (toR z) <= r) by (apply (BYZ (toR z) (toR y)); lra).
  assert (B10 : bpow radix2 910 = 1024 * bpow radix2 900) by (change 1024 with (bpow radix2 10); rewrite <- bpow_plus; reflexivity).
  assert (By9 : Rabs (toR y) <= bpow radix2 910) by (assert (X := bpow_ge_0 radix2 900); lra). assert (Bz9 : Rabs (toR z) <= bpow radix2 910) by (assert (X := bpow_ge_0 radix2 900); lra).
  destruct (combo y z c s Fy Fz Fc Fsn Vc Vs By9 Bz9) as [[GY VY] _]. destruct (combo z y c s Fz Fy Fc Fsn Vc Vs Bz9 By9) as [_ [GZ VZ]].
  set (yE := fadd (fmul y c) (fmul z s)) in *. set (zE := fsub (fmul z c) (fmul y s)) in *.
  set (Y := toR y * Cs + toR z * Sn). set (Z := toR z * Cs + - toR y * Sn).
  assert (EY : Rabs (toR yE - Y) <= 201 / 100 * u * r).
  { rewrite VY. unfold Y. eapply Rle_trans; [apply stage, cauchy; [exact P | lra]|]. unfold u in *. lra. }
  assert (EZ : Rabs (toR zE - Z) <= 201 / 100 * u * r).
  { rewrite VZ. unfold Z. eapply Rle_trans; [apply stage, (cauchy _ _ r); [exact P | lra]|]. unfold u in *. lra. }
  assert (K := unit). apply Rabs_le_inv in K.
  assert (YZ : Y * Y + Z * Z <= (10001 / 10000 * r) * (10001 / 10000 * r)).
  { replace (Y * Y + Z * Z) with ((Cs * Cs + Sn * Sn) * (toR y * toR y + toR z * toR z)) by (unfold Y, Z; ring). rewrite H. assert (Q := Rle_0_sqr r). unfold Rsqr in Q.
    apply Rle_trans with (10001 / 10000 * (r * r)); [apply Rmult_le_compat_r; [lra | unfold u in K; lra] | lra]. }
  assert (AY : Rabs Y <= 10001 / 10000 * r). { apply sqrt_bound; [lra|]. rewrite <- Rabs_mult, Rabs_pos_eq by apply Rle_0_sqr. assert (X := Rle_0_sqr Z). unfold Rsqr in X. lra. }
  assert (AZ : Rabs Z <= 10001 / 10000 * r). { apply sqrt_bound; [lra|]. rewrite <- Rabs_mult, Rabs_pos_eq by apply Rle_0_sqr. assert (X := Rle_0_sqr Y). unfold Rsqr in X. lra. }
  assert (B9 : forall a b, Rabs b <= 10001 / 10000 * r -> Rabs (a - b) <= 201 / 100 * u * r -> Rabs a <= bpow radix2 910).
  { intros a b Q1 Q2. assert (X := Rabs_triang_inv a b). assert (X2 := bpow_ge_0 radix2 900). unfold u in Q2. lra. }
  destruct (combo yE zE c s GY GZ Fc Fsn Vc Vs (B9 _ _ AY EY) (B9 _ _ AZ EZ)) as [_ [Gy Vy]]. destruct (combo zE yE c s GZ GY Fc Fsn Vc Vs (B9 _ _ AZ EZ) (B9 _ _ AY EY)) as [[Gz Vz] _].
  do 2 eexists. split; [reflexivity|]. split; [exact Gy|]. split; [exact Gz|].
  assert (R1 : 0 <= 10001 / 10000 * r) by lra.
  assert (F : forall o w, Rabs (o - (Cs * Cs + Sn * Sn) * w) <= 4655 / 1000 * u * r -> Rabs w <= r -> Rabs (o - w) <= 6 * u * r).
  { intros o w Q1 Q2. replace (o - w) with ((o - (Cs * Cs + Sn * Sn) * w) + (Cs * Cs + Sn * Sn - 1) * w) by ring. eapply Rle_trans; [apply Rabs_triang|].
    assert (Rabs ((Cs * Cs + Sn * Sn - 1) * w) <= / 5 * u * r); [|unfold u in *; lra]. rewrite Rabs_mult. apply Rmult_le_compat; [apply Rabs_pos | apply Rabs_pos | apply unit | exact Q2]. }
  split; apply F; try assumption.
  - rewrite Vy. replace ((Cs * Cs + Sn * Sn) * toR y) with (Y * Cs + - Z * Sn) by (unfold Y, Z; ring).
    eapply Rle_trans; [apply (stage2 Y (- Z) (toR yE) (- toR zE) (10001 / 10000 * r) (201 / 100 * u * r) R1); [lra | exact EY|]|].
    + replace (- toR zE - - Z) with (- (toR zE - Z)) by ring. rewrite Rabs_Ropp. exact EZ.
    + cbn zeta. unfold u in *. lra.
  - rewrite Vz. replace ((Cs * Cs + Sn * Sn) * toR z) with (Z * Cs + Y * Sn) by (unfold Y, Z; ring).
    eapply Rle_trans; [apply (stage2 Z Y (toR zE) (toR yE) (10001 / 10000 * r) (201 / 100 * u * r) R1); [lra | exact EZ | exact EY]|].
    cbn zeta. unfold u in *. lra.
Qed.
Lemma round_trip64' m x y z r : fin y -> fin z -> toR y * toR y + toR z * toR z = r * r -> bpow radix2 (-900) <= r <= bpow radix2 900 ->
  exists y' z', ecliptic_to_equatorial (machine m) (equatorial_to_ecliptic (machine m) (x, y, z)) = (x, y', z')
    /\ fin y' /\ fin z' /\ Rabs (toR y' - toR y) <= 6 * / 2 ^ 53 * r /\ Rabs (toR z' - toR z) <= 6 * / 2 ^ 53 * r.
Proof. assert (U : / 2 ^ 53 = u) by (unfold u; f_equal; lra). rewrite U. apply round_trip64. Qed.
