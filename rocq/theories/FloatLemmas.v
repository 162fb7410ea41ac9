(** Lemmas relating the executable binary64 operations to real arithmetic. *)
From Coq Require Import ZArith Bool Reals Lra Lia.
From Flocq Require Import Core IEEE754.BinarySingleNaN.
From Verif Require Import CLib FloatModel.
Open Scope R_scope.

Notation fexp64 := (SpecFloat.fexp 53 1024).
Definition RN (x : R) : R := round radix2 fexp64 ZnearestE x.
Definition fin (x : b64) : Prop := is_finite x = true.
Notation toR := (@B2R 53 1024).

#[global] Instance fexp64_valid : Valid_exp fexp64 := fexp_correct 53 1024 prec64_gt0.
#[global] Instance fexp64_mono : Monotone_exp fexp64 := fexp_monotone 53 1024.

Lemma fexp64_eq : forall e, fexp64 e = Z.max (e - 53) (-1074).
Proof. reflexivity. Qed.

Lemma RN_le : forall x y, x <= y -> RN x <= RN y.
Proof. intros; apply round_le; auto with typeclass_instances. Qed.

Lemma RN_abs_le : forall x e, (-1074 <= e)%Z -> Rabs x <= bpow radix2 e -> Rabs (RN x) <= bpow radix2 e.
Proof.
  intros x e He H. apply abs_round_le_generic; auto with typeclass_instances.
  apply generic_format_bpow. rewrite fexp64_eq. lia.
Qed.

Lemma bpow_lt_1024 : forall e, (e < 1024)%Z -> bpow radix2 e < bpow radix2 1024.
Proof. intros; now apply bpow_lt. Qed.

Lemma no_overflow : forall x e, (-1074 <= e < 1024)%Z -> Rabs x <= bpow radix2 e ->
  Rlt_bool (Rabs (round radix2 fexp64 (round_mode mode_NE) x)) (bpow radix2 1024) = true.
Proof.
  intros x e He H. apply Rlt_bool_true. eapply Rle_lt_trans; [|apply bpow_lt_1024; apply He].
  apply (RN_abs_le x e); tauto.
Qed.

Lemma fadd_R : forall x y e, fin x -> fin y -> (-1074 <= e < 1024)%Z -> Rabs (toR x + toR y) <= bpow radix2 e ->
  fin (fadd x y) /\ toR (fadd x y) = RN (toR x + toR y).
Proof.
  intros x y e Hx Hy He H. pose proof (@Bplus_correct 53 1024 _ _ mode_NE x y Hx Hy) as C.
  rewrite (no_overflow _ e He H) in C. destruct C as (C1 & C2 & _). split; [exact C2|exact C1].
Qed.

Lemma fsub_R : forall x y e, fin x -> fin y -> (-1074 <= e < 1024)%Z -> Rabs (toR x - toR y) <= bpow radix2 e ->
  fin (fsub x y) /\ toR (fsub x y) = RN (toR x - toR y).
Proof.
  intros x y e Hx Hy He H. pose proof (@Bminus_correct 53 1024 _ _ mode_NE x y Hx Hy) as C.
  rewrite (no_overflow _ e He H) in C. destruct C as (C1 & C2 & _). split; [exact C2|exact C1].
Qed.

Lemma fmul_R : forall x y e, fin x -> fin y -> (-1074 <= e < 1024)%Z -> Rabs (toR x * toR y) <= bpow radix2 e ->
  fin (fmul x y) /\ toR (fmul x y) = RN (toR x * toR y).
Proof.
  intros x y e Hx Hy He H. pose proof (@Bmult_correct 53 1024 _ _ mode_NE x y) as C.
  rewrite (no_overflow _ e He H) in C. destruct C as (C1 & C2 & _). split; [|exact C1].
  unfold fin, fmul. rewrite C2. now rewrite Hx, Hy.
Qed.

Lemma fdiv_R : forall x y e, fin x -> toR y <> 0 -> (-1074 <= e < 1024)%Z -> Rabs (toR x / toR y) <= bpow radix2 e ->
  fin (fdiv x y) /\ toR (fdiv x y) = RN (toR x / toR y).
Proof.
  intros x y e Hx Hy He H. pose proof (@Bdiv_correct 53 1024 _ _ mode_NE x y Hy) as C.
  rewrite (no_overflow _ e He H) in C. destruct C as (C1 & C2 & _). split; [|exact C1].
  unfold fin, fdiv. now rewrite C2.
Qed.

Lemma ffloor_R : forall x, fin x -> fin (ffloor x) /\ toR (ffloor x) = IZR (Zfloor (toR x)).
Proof.
  intros x Hx. destruct (@Bnearbyint_correct 53 1024 _ mode_DN x) as (C1 & C2 & _).
  split; [unfold fin, ffloor; now rewrite C2|]. unfold ffloor. rewrite C1. apply round_FIX_IZR.
Qed.

Lemma ftrunc_R : forall x, fin x -> fin (ftrunc x) /\ toR (ftrunc x) = IZR (Ztrunc (toR x)).
Proof.
  intros x Hx. destruct (@Bnearbyint_correct 53 1024 _ mode_ZR x) as (C1 & C2 & _).
  split; [unfold fin, ftrunc; now rewrite C2|]. unfold ftrunc. rewrite C1. apply round_FIX_IZR.
Qed.

Lemma Btrunc_R : forall x : b64, Btrunc x = Ztrunc (toR x).
Proof.
  intro x. apply eq_IZR. rewrite Btrunc_correct by exact prec64_lt. apply round_FIX_IZR.
Qed.

Lemma flt_R : forall x y, fin x -> fin y -> flt x y = true <-> toR x < toR y.
Proof.
  intros x y Hx Hy. unfold flt. rewrite (Bltb_correct _ _ x y Hx Hy).
  destruct (Rlt_bool_spec (toR x) (toR y)); split; intros; try assumption; try discriminate; try reflexivity; lra.
Qed.

Lemma fle_R : forall x y, fin x -> fin y -> fle x y = true <-> toR x <= toR y.
Proof.
  intros x y Hx Hy. unfold fle. rewrite (Bleb_correct _ _ x y Hx Hy).
  destruct (Rle_bool_spec (toR x) (toR y)); split; intros; try assumption; try discriminate; try reflexivity; lra.
Qed.

Lemma flt_false : forall x y, fin x -> fin y -> flt x y = false <-> toR y <= toR x.
Proof.
  intros x y Hx Hy. unfold flt. rewrite (Bltb_correct _ _ x y Hx Hy).
  destruct (Rlt_bool_spec (toR x) (toR y)); split; intros; try assumption; try discriminate; try reflexivity; lra.
Qed.

Lemma fle_false : forall x y, fin x -> fin y -> fle x y = false <-> toR y < toR x.
Proof.
  intros x y Hx Hy. unfold fle. rewrite (Bleb_correct _ _ x y Hx Hy).
  destruct (Rle_bool_spec (toR x) (toR y)); split; intros; try assumption; try discriminate; try reflexivity; lra.
Qed.

(** Values that are multiples of a power of two. *)
Definition fx (k : Z) (a : Z) (r : R) : Prop := r = IZR a * bpow radix2 k.

Lemma RN_fx : forall k a r, (-1074 <= k)%Z -> fx k a r -> (Z.abs a <= 2 ^ 53)%Z -> RN r = r.
Proof.
  intros k a r Hk -> Ha. apply round_generic; auto with typeclass_instances.
  destruct (Z.eq_dec (Z.abs a) (2 ^ 53)) as [E|E].
  - assert (generic_format radix2 fexp64 (bpow radix2 (53 + k))) as G.
    { apply generic_format_bpow. rewrite fexp64_eq. lia. }
    rewrite bpow_plus in G. rewrite <- (IZR_Zpower radix2) in G by lia. change (radix2 ^ 53)%Z with (2 ^ 53)%Z in G.
    rewrite <- E in G. destruct (Z.abs_spec a) as [[_ Q]|[_ Q]]; rewrite Q in G; [exact G|].
    apply generic_format_opp in G. rewrite opp_IZR in G.
    now replace (- (- IZR a * bpow radix2 k)) with (IZR a * bpow radix2 k) in G by ring.
  - apply (generic_format_FLT radix2 (-1074) 53).
    exists (Float radix2 a k); [reflexivity| |exact Hk]. cbn. change (Z.pow_pos 2 53) with (2 ^ 53)%Z. lia.
Qed.

Lemma of_int_R : forall z, (Z.abs z <= 2 ^ 53)%Z -> fin (of_int z) /\ toR (of_int z) = IZR z.
Proof.
  intros z Hz. pose proof (binary_normalize_correct 53 1024 prec64_gt0 prec64_lt mode_NE z 0 false) as C.
  cbn zeta in C.
  assert (E: F2R (Float radix2 z 0) = IZR z) by (unfold F2R; cbn; ring).
  rewrite E in C. rewrite (no_overflow _ 53) in C.
  - destruct C as (C1 & C2 & _). split; [exact C2|]. unfold of_int. rewrite C1.
    apply (RN_fx 0 z); [lia| |exact Hz]. unfold fx; cbn; ring.
  - lia.
  - rewrite <- abs_IZR. change (bpow radix2 53) with (IZR (2 ^ 53)). now apply IZR_le.
Qed.

(** Error of one rounding. *)
Lemma RN_err : forall x e, (-1000 <= e)%Z -> Rabs x <= bpow radix2 e -> Rabs (RN x - x) <= bpow radix2 (e - 54).
Proof.
  intros x e He H.
  destruct (Rle_lt_or_eq_dec _ _ H) as [L|L].
  - eapply Rle_trans; [apply error_le_half_ulp; auto with typeclass_instances|].
    replace (e - 54)%Z with (-1 + (e - 53))%Z by lia. rewrite bpow_plus. change (bpow radix2 (-1)) with (/ 2).
    apply Rmult_le_compat_l; [lra|].
    destruct (Req_dec x 0) as [->|N].
    + change (ulp radix2 fexp64 0) with (ulp radix2 (FLT_exp (-1074) 53) 0). rewrite ulp_FLT_0 by exact prec64_gt0. apply bpow_le. lia.
    + rewrite ulp_neq_0 by assumption. apply bpow_le. unfold cexp. rewrite fexp64_eq.
      pose proof (mag_le_bpow radix2 x e N L). lia.
  - assert (G: RN x = x).
    { apply round_generic; auto with typeclass_instances.
      unfold Rabs in L. destruct (Rcase_abs x).
      - replace x with (- bpow radix2 e) by lra. apply generic_format_opp, generic_format_bpow. rewrite fexp64_eq. lia.
      - rewrite L. apply generic_format_bpow. rewrite fexp64_eq. lia. }
    rewrite G. unfold Rminus. rewrite Rplus_opp_r, Rabs_R0. apply bpow_ge_0.
Qed.

Lemma bound_abs : forall x m e, (IZR m <= bpow radix2 e) -> Rabs x <= IZR m -> Rabs x <= bpow radix2 e.
Proof. intros; lra. Qed.

(** A double below a power of two is a multiple of a fixed power of two above its last place. *)
Lemma b64_fx : forall x : b64, forall e, bpow radix2 e <= Rabs (toR x) -> (-1000 <= e)%Z ->
  exists a, fx (e - 52) a (toR x).
Proof.
  intros x e H He.
  pose proof (generic_format_B2R 53 1024 x) as G.
  assert (N: toR x <> 0).
  { intro Z0. rewrite Z0, Rabs_R0 in H. pose proof (bpow_gt_0 radix2 e). lra. }
  assert (M: (e + 1 <= mag radix2 (toR x))%Z) by (now apply mag_ge_bpow; replace (e + 1 - 1)%Z with e by lia).
  unfold generic_format in G. unfold F2R in G. cbn [Fnum Fexp] in G. unfold cexp in G. rewrite fexp64_eq in G.
  set (c := Z.max (mag radix2 (toR x) - 53) (-1074)) in G.
  assert (Hc: (e - 52 <= c)%Z) by (unfold c; lia).
  set (mm := Ztrunc (scaled_mantissa radix2 fexp64 (toR x))) in G.
  exists (mm * radix2 ^ (c - (e - 52)))%Z. unfold fx. rewrite mult_IZR, IZR_Zpower by lia.
  rewrite Rmult_assoc, <- bpow_plus. replace (c - (e - 52) + (e - 52))%Z with c by lia. exact G.
Qed.

Lemma b64_fx_le : forall x : b64, forall e k, bpow radix2 e <= Rabs (toR x) -> (-1000 <= e)%Z -> (k <= e - 52)%Z ->
  exists a, fx k a (toR x).
Proof.
  intros x e k H He Hk. destruct (b64_fx x e H He) as [a Ha].
  exists (a * radix2 ^ (e - 52 - k))%Z. unfold fx in *. rewrite mult_IZR, IZR_Zpower by lia.
  rewrite Rmult_assoc, <- bpow_plus. now replace (e - 52 - k + k)%Z with (e - 52)%Z by lia.
Qed.

(** Exact operations on multiples of powers of two. *)
Lemma fx_bound : forall k a, (-1074 <= k <= 900)%Z -> (Z.abs a <= 2 ^ 53)%Z -> Rabs (IZR a * bpow radix2 k) <= bpow radix2 (53 + k).
Proof.
  intros k a Hk Ha. rewrite Rabs_mult, (Rabs_pos_eq (bpow radix2 k)) by apply bpow_ge_0.
  rewrite bpow_plus. apply Rmult_le_compat_r; [apply bpow_ge_0|].
  rewrite <- abs_IZR. change (bpow radix2 53) with (IZR (2 ^ 53)). now apply IZR_le.
Qed.

Lemma fadd_exact : forall x y k a b, fin x -> fin y -> fx k a (toR x) -> fx k b (toR y) ->
  (-1074 <= k <= 900)%Z -> (Z.abs (a + b) <= 2 ^ 53)%Z ->
  fin (fadd x y) /\ toR (fadd x y) = toR x + toR y /\ fx k (a + b) (toR (fadd x y)).
Proof.
  intros x y k a b Fx Fy Hx Hy Hk Hab.
  assert (S: fx k (a + b) (toR x + toR y)) by (unfold fx in *; rewrite Hx, Hy, plus_IZR; ring).
  destruct (fadd_R x y (53 + k) Fx Fy) as [F E]; [lia| |].
  { rewrite S. now apply fx_bound. }
  rewrite (RN_fx k (a + b)) in E; [|lia|assumption|assumption].
  split; [assumption|]. rewrite E. now split.
Qed.

Lemma fsub_exact : forall x y k a b, fin x -> fin y -> fx k a (toR x) -> fx k b (toR y) ->
  (-1074 <= k <= 900)%Z -> (Z.abs (a - b) <= 2 ^ 53)%Z ->
  fin (fsub x y) /\ toR (fsub x y) = toR x - toR y /\ fx k (a - b) (toR (fsub x y)).
Proof.
  intros x y k a b Fx Fy Hx Hy Hk Hab.
  assert (S: fx k (a - b) (toR x - toR y)) by (unfold fx in *; rewrite Hx, Hy, minus_IZR; ring).
  destruct (fsub_R x y (53 + k) Fx Fy) as [F E]; [lia| |].
  { rewrite S. now apply fx_bound. }
  rewrite (RN_fx k (a - b)) in E; [|lia|assumption|assumption].
  split; [assumption|]. rewrite E. now split.
Qed.

Lemma fmul_exact : forall x y k l a b, fin x -> fin y -> fx k a (toR x) -> fx l b (toR y) ->
  (-1074 <= k + l <= 900)%Z -> (Z.abs (a * b) <= 2 ^ 53)%Z ->
  fin (fmul x y) /\ toR (fmul x y) = toR x * toR y /\ fx (k + l) (a * b) (toR (fmul x y)).
Proof.
  intros x y k l a b Fx Fy Hx Hy Hk Hab.
  assert (S: fx (k + l) (a * b) (toR x * toR y)) by (unfold fx in *; rewrite Hx, Hy, mult_IZR, bpow_plus; ring).
  destruct (fmul_R x y (53 + (k + l)) Fx Fy) as [F E]; [lia| |].
  { rewrite S. now apply fx_bound. }
  rewrite (RN_fx (k + l) (a * b)) in E; [|lia|assumption|assumption].
  split; [assumption|]. rewrite E. now split.
Qed.

Lemma fx_int : forall a r, r = IZR a -> fx 0 a r.
Proof. intros a r ->. unfold fx. cbn. ring. Qed.

Lemma fx_scale : forall k l a r, (l <= k)%Z -> fx k a r -> fx l (a * 2 ^ (k - l)) r.
Proof.
  intros k l a r H ->. unfold fx. rewrite mult_IZR. change 2%Z with (radix_val radix2). rewrite IZR_Zpower by lia.
  rewrite Rmult_assoc, <- bpow_plus. now replace (k - l + l)%Z with k by lia.
Qed.

(** [fmod( x, 1.)] is exact. *)
Lemma fmod1_R : forall x, fin x -> Rabs (toR x) <= bpow radix2 900 ->
  fin (fmod1 x) /\ toR (fmod1 x) = toR x - IZR (Ztrunc (toR x)).
Proof.
  intros x Fx Hb. unfold fmod1. destruct (ftrunc_R x Fx) as [Ft Et].
  assert (Hd: Rabs (toR x - IZR (Ztrunc (toR x))) <= Rabs (toR x)).
  { destruct (Rle_dec 0 (toR x)) as [P|P].
    - rewrite (Ztrunc_floor _ P). pose proof (Zfloor_lb (toR x)). pose proof (Zfloor_ub (toR x)).
      assert (0 <= IZR (Zfloor (toR x))) by (apply IZR_le; now apply Zfloor_lub).
      rewrite (Rabs_pos_eq (toR x)) by lra. rewrite Rabs_pos_eq; lra.
    - assert (toR x <= 0) as N by lra. rewrite (Ztrunc_ceil _ N). pose proof (Zceil_ub (toR x)).
      assert (IZR (Zceil (toR x)) <= 0) by (apply IZR_le; now apply Zceil_glb).
      rewrite (Rabs_left1 (toR x)) by lra. rewrite Rabs_left1; lra. }
  assert (G: RN (toR x - IZR (Ztrunc (toR x))) = toR x - IZR (Ztrunc (toR x))).
  { pose proof (FLT_format_B2R 53 1024 prec64_gt0 x) as FF. destruct FF as [[m c] E1 E2 E3]. cbn in E2, E3.
    change (SpecFloat.emin 53 1024) with (-1074)%Z in E3.
    unfold F2R in E1. cbn [Fnum Fexp] in E1.
    destruct (Z_le_dec 0 c) as [C|C].
    - assert (I: toR x = IZR (m * radix2 ^ c)).
      { rewrite E1, mult_IZR, IZR_Zpower by assumption. reflexivity. }
      rewrite I, Ztrunc_IZR. unfold Rminus. rewrite Rplus_opp_r. unfold RN. apply round_0; auto with typeclass_instances.
    - set (z := Ztrunc (toR x)) in *.
      assert (S: fx c (m - z * 2 ^ (- c)) (toR x - IZR z)).
      { unfold fx. rewrite E1 at 1. rewrite minus_IZR, mult_IZR. change 2%Z with (radix_val radix2).
        rewrite IZR_Zpower by lia. rewrite Rmult_minus_distr_r, Rmult_assoc, <- bpow_plus.
        replace (- c + c)%Z with 0%Z by lia. cbn. ring. }
      apply (RN_fx c (m - z * 2 ^ (- c))); [assumption|assumption|].
      assert (Rabs (IZR (m - z * 2 ^ (- c))) <= Rabs (IZR m)) as LE.
      { unfold fx in S. rewrite S, E1 in Hd. rewrite !Rabs_mult in Hd.
        rewrite (Rabs_pos_eq (bpow radix2 c)) in Hd by apply bpow_ge_0.
        apply Rmult_le_reg_r in Hd; [assumption|apply bpow_gt_0]. }
      rewrite <- !abs_IZR in LE. apply le_IZR in LE. change (Z.pow_pos 2 53) with (2 ^ 53)%Z in E2. lia. }
  destruct (fsub_R x (ftrunc x) 900 Fx Ft) as [F E]; [lia|rewrite Et; lra|].
  split; [assumption|]. rewrite E, Et. exact G.
Qed.

Lemma b64_eq : forall x y : b64, B2SF x = B2SF y -> x = y.
Proof. intros; now apply B2SF_inj. Qed.

Lemma RN_neg : forall x, RN x < 0 -> x < 0.
Proof.
  intros x H. destruct (Rlt_le_dec x 0) as [L|L]; [assumption|exfalso].
  apply RN_le in L. unfold RN in L at 1. rewrite round_0 in L by auto with typeclass_instances. lra.
Qed.

Lemma RN_int_le : forall x z, (Z.abs z <= 2 ^ 53)%Z -> x <= IZR z -> RN x <= IZR z.
Proof.
  intros x z Hz H. rewrite <- (RN_fx 0 z (IZR z)); [now apply RN_le|lia|now apply fx_int|assumption].
Qed.
Lemma RN_int_ge : forall x z, (Z.abs z <= 2 ^ 53)%Z -> IZR z <= x -> IZR z <= RN x.
Proof.
  intros x z Hz H. rewrite <- (RN_fx 0 z (IZR z)); [now apply RN_le|lia|now apply fx_int|assumption].
Qed.

Lemma err_pos : forall x e, (-1000 <= e)%Z -> 0 <= x <= bpow radix2 e -> x - bpow radix2 (e - 54) <= RN x <= x + bpow radix2 (e - 54).
Proof.
  intros x e He [H1 H2]. pose proof (RN_err x e He) as H. rewrite (Rabs_pos_eq x) in H by assumption.
  specialize (H H2). apply Rabs_le_inv in H. lra.
Qed.
Lemma err_abs : forall x e b, (-1000 <= e)%Z -> Rabs x <= b -> b <= bpow radix2 e ->
  x - bpow radix2 (e - 54) <= RN x <= x + bpow radix2 (e - 54).
Proof.
  intros x e b He H1 H2. pose proof (RN_err x e He ltac:(lra)) as H. apply Rabs_le_inv in H. lra.
Qed.

(** Values of [bpow] as rational constants. *)
Lemma bpow_neg : forall p, bpow radix2 (Zneg p) = / IZR (2 ^ Zpos p).
Proof. intro p. reflexivity. Qed.
Lemma bpow_pos : forall p, bpow radix2 (Zpos p) = IZR (2 ^ Zpos p).
Proof. intro p. reflexivity. Qed.

(** binary32. *)
Notation fexp32 := (SpecFloat.fexp 24 128).
Definition RN32 (x : R) : R := round radix2 fexp32 ZnearestE x.
Definition fin32 (x : b32) : Prop := is_finite x = true.
Notation toR32 := (@B2R 24 128).
#[global] Instance fexp32_valid : Valid_exp fexp32 := fexp_correct 24 128 prec32_gt0.
#[global] Instance fexp32_mono : Monotone_exp fexp32 := fexp_monotone 24 128.
Lemma fexp32_eq : forall e, fexp32 e = Z.max (e - 24) (-149).
Proof. reflexivity. Qed.

Lemma no_overflow32 : forall x e, (-149 <= e < 128)%Z -> Rabs x <= bpow radix2 e ->
  Rlt_bool (Rabs (round radix2 fexp32 (round_mode mode_NE) x)) (bpow radix2 128) = true.
Proof.
  intros x e He H. apply Rlt_bool_true. eapply Rle_lt_trans; [|apply bpow_lt; apply He].
  apply abs_round_le_generic; auto with typeclass_instances.
  apply generic_format_bpow. rewrite fexp32_eq. lia.
Qed.

Lemma RN32_err : forall x e, (-100 <= e)%Z -> Rabs x <= bpow radix2 e -> Rabs (RN32 x - x) <= bpow radix2 (e - 25).
Proof.
  intros x e He H.
  destruct (Rle_lt_or_eq_dec _ _ H) as [L|L].
  - eapply Rle_trans; [apply error_le_half_ulp; auto with typeclass_instances|].
    replace (e - 25)%Z with (-1 + (e - 24))%Z by lia. rewrite bpow_plus. change (bpow radix2 (-1)) with (/ 2).
    apply Rmult_le_compat_l; [lra|].
    destruct (Req_dec x 0) as [->|N].
    + change (ulp radix2 fexp32 0) with (ulp radix2 (FLT_exp (-149) 24) 0). rewrite ulp_FLT_0 by exact prec32_gt0. apply bpow_le. lia.
    + rewrite ulp_neq_0 by assumption. apply bpow_le. unfold cexp. rewrite fexp32_eq.
      pose proof (mag_le_bpow radix2 x e N L). lia.
  - assert (G: RN32 x = x).
    { apply round_generic; auto with typeclass_instances.
      unfold Rabs in L. destruct (Rcase_abs x).
      - replace x with (- bpow radix2 e) by lra. apply generic_format_opp, generic_format_bpow. rewrite fexp32_eq. lia.
      - rewrite L. apply generic_format_bpow. rewrite fexp32_eq. lia. }
    rewrite G. unfold Rminus. rewrite Rplus_opp_r, Rabs_R0. apply bpow_ge_0.
Qed.

Lemma narrow_R : forall x e, fin x -> (-149 <= e < 128)%Z -> Rabs (toR x) <= bpow radix2 e ->
  fin32 (narrow x) /\ toR32 (narrow x) = RN32 (toR x).
Proof.
  intros x e Fx He H. destruct x as [s|s| |s m c B]; try discriminate Fx.
  - split; [reflexivity|]. cbn. symmetry. apply round_0; auto with typeclass_instances.
  - unfold narrow.
    pose proof (binary_normalize_correct 24 128 prec32_gt0 prec32_lt mode_NE (if s then Zneg m else Zpos m) c s) as C.
    cbn zeta in C.
    assert (E: F2R (Float radix2 (if s then Zneg m else Zpos m) c) = toR (B754_finite s m c B)) by (destruct s; reflexivity).
    rewrite E in C. rewrite (no_overflow32 _ e He H) in C. destruct C as (C1 & C2 & _). split; [exact C2|exact C1].
Qed.

Lemma widen_R : forall x, fin32 x -> fin (widen x) /\ toR (widen x) = toR32 x.
Proof.
  intros x Fx. destruct x as [s|s| |s m c B]; try discriminate Fx; [split; reflexivity|].
  unfold widen.
  pose proof (binary_normalize_correct 53 1024 prec64_gt0 prec64_lt mode_NE (if s then Zneg m else Zpos m) c s) as C.
  cbn zeta in C.
  assert (E: F2R (Float radix2 (if s then Zneg m else Zpos m) c) = toR32 (B754_finite s m c B)) by (destruct s; reflexivity).
  rewrite E in C.
  pose proof (FLT_format_B2R 24 128 prec32_gt0 (B754_finite s m c B)) as FF.
  destruct FF as [[m' c'] E1 E2 E3]. cbn in E2, E3. change (SpecFloat.emin 24 128) with (-149)%Z in E3.
  pose proof (abs_B2R_lt_emax 24 128 (B754_finite s m c B)) as Lt.
  rewrite (no_overflow _ 128) in C; [|lia|lra].
  destruct C as (C1 & C2 & _). split; [exact C2|]. rewrite C1.
  apply (RN_fx c' m'); [lia|exact E1|]. change (Z.pow_pos 2 24) with (2 ^ 24)%Z in E2. lia.
Qed.

Lemma of_int32_R : forall z, (Z.abs z < 2 ^ 24)%Z -> fin32 (of_int32 z) /\ toR32 (of_int32 z) = IZR z.
Proof.
  intros z Hz. pose proof (binary_normalize_correct 24 128 prec32_gt0 prec32_lt mode_NE z 0 false) as C.
  cbn zeta in C.
  assert (E: F2R (Float radix2 z 0) = IZR z) by (unfold F2R; cbn; ring).
  rewrite E in C. rewrite (no_overflow32 _ 24) in C.
  - destruct C as (C1 & C2 & _). split; [exact C2|]. unfold of_int32. rewrite C1.
    apply round_generic; auto with typeclass_instances. apply (generic_format_FLT radix2 (-149) 24).
    exists (Float radix2 z 0); [unfold F2R; cbn; ring|exact Hz|cbn; lia].
  - lia.
  - rewrite <- abs_IZR. change (bpow radix2 24) with (IZR (2 ^ 24)). apply IZR_le. lia.
Qed.

Lemma fdiv32_R : forall x y e, fin32 x -> toR32 y <> 0 -> (-149 <= e < 128)%Z -> Rabs (toR32 x / toR32 y) <= bpow radix2 e ->
  fin32 (fdiv32 x y) /\ toR32 (fdiv32 x y) = RN32 (toR32 x / toR32 y).
Proof.
  intros x y e Hx Hy He H. pose proof (@Bdiv_correct 24 128 _ _ mode_NE x y Hy) as C.
  rewrite (no_overflow32 _ e He H) in C. destruct C as (C1 & C2 & _). split; [|exact C1].
  unfold fin32, fdiv32. now rewrite C2.
Qed.

Lemma froundf_R : forall x, fin32 x -> fin32 (froundf x) /\ toR32 (froundf x) = IZR (ZnearestA (toR32 x)).
Proof.
  intros x Hx. destruct (@Bnearbyint_correct 24 128 _ mode_NA x) as (C1 & C2 & _).
  split; [unfold fin32, froundf; now rewrite C2|]. unfold froundf. rewrite C1. apply round_FIX_IZR.
Qed.
