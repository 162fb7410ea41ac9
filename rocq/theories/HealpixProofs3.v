(** Integer square roots computed through [sqrt]. *)
From Coq Require Import ZArith Bool Reals Lra Lia.
From Flocq Require Import Core IEEE754.BinarySingleNaN.
From Verif Require Import CLib FloatModel FloatLemmas CalendarProofs3 CalendarProofs4 HealpixModel.
Open Scope R_scope.

Lemma fsqrt_R : forall x, fin x -> 0 <= toR x -> fin (fsqrt x) /\ toR (fsqrt x) = RN (sqrt (toR x)).
Proof.
  intros x F H. destruct (Bsqrt_correct 53 1024 prec64_gt0 prec64_lt mode_NE x) as (E1 & E2 & _).
  split; [|exact E1]. unfold fin. unfold fsqrt. rewrite E2. destruct x as [b|b| |b m e Hb]; try reflexivity; try discriminate F.
  destruct b; [|reflexivity]. exfalso. cbn in H. 
  assert (F2R (Float radix2 (Zneg m) e) < 0) by (apply F2R_lt_0; cbn; lia). cbn in H0. lra.
Qed.

Lemma of_int_RN : forall z e, (0 <= e < 1000)%Z -> Rabs (IZR z) <= bpow radix2 e -> fin (of_int z) /\ toR (of_int z) = RN (IZR z).
Proof.
  intros z e He Hz. pose proof (binary_normalize_correct 53 1024 prec64_gt0 prec64_lt mode_NE z 0 false) as C.
  cbn zeta in C.
  assert (E: F2R (Float radix2 z 0) = IZR z) by (unfold F2R; cbn; ring).
  rewrite E in C. rewrite (no_overflow _ e) in C; [|lia|exact Hz].
  destruct C as (C1 & C2 & _). split; [exact C2|exact C1].
Qed.

Lemma sqrt_le_of : forall x y, 0 <= x -> 0 <= y -> x <= y * y -> sqrt x <= y.
Proof. intros x y Hx Hy H. rewrite <- (sqrt_square y Hy). now apply sqrt_le_1_alt. Qed.
Lemma sqrt_ge_of : forall x y, 0 <= y -> y * y <= x -> y <= sqrt x.
Proof. intros x y Hy H. rewrite <- (sqrt_square y Hy). now apply sqrt_le_1_alt. Qed.

Lemma trunc_range : forall r z, (0 <= z)%Z -> IZR z <= r < IZR (z + 1) -> Ztrunc r = z.
Proof.
  intros r z Hz H. rewrite Ztrunc_floor; [|pose proof (IZR_le 0 z Hz); lra]. apply Zfloor_imp. exact H.
Qed.

(** Up to 2^50 the truncated root is the integer root. *)
Lemma root_small : forall v, (0 <= v < 2 ^ 50)%Z ->
  let s := fsqrt (fadd (of_int v) (lit 1 2)) in fin s /\ Ztrunc (toR s) = Z.sqrt v.
Proof.
  intros v Hv s. destruct (of_int_R v) as [F1 E1]; [lia|]. destruct half_val as [F2 E2].
  assert (V0: 0 <= IZR v) by (apply (IZR_le 0); lia).
  assert (V1: IZR v <= IZR (2 ^ 50)) by (apply IZR_le; lia). change (2 ^ 50)%Z with 1125899906842624%Z in V1.
  destruct (fadd_R (of_int v) (lit 1 2) 51 F1 F2) as [F3 E3]; [lia| |].
  { rewrite E1, E2, Rabs_pos_eq by lra. rewrite bpow_pos. change (IZR (2 ^ 51)) with 2251799813685248. lra. }
  rewrite E1, E2 in E3. rewrite (RN_fx (-1) (2 * v + 1)) in E3; [|lia| |lia].
  2:{ unfold fx. rewrite bpow_neg, plus_IZR, mult_IZR. change (IZR (2 ^ 1)) with 2. lra. }
  destruct (fsqrt_R _ F3) as [F4 E4]; [rewrite E3; lra|]. rewrite E3 in E4.
  split; [exact F4|]. fold s in E4. rewrite E4.
  pose proof (Z.sqrt_nonneg v) as R0. destruct (Z.sqrt_spec v ltac:(lia)) as [S1 S2]. set (r := Z.sqrt v) in *.
  assert (R1: (r < 2 ^ 25)%Z) by (apply Z.square_lt_simpl_nonneg; lia).
  apply trunc_range; [exact R0|].
  assert (S1': IZR r * IZR r <= IZR v) by (rewrite <- mult_IZR; apply IZR_le; exact S1).
  assert (S2': IZR v + 1 <= IZR (r + 1) * IZR (r + 1)).
  { rewrite <- mult_IZR. change 1 with (IZR 1) at 1. rewrite <- plus_IZR. apply IZR_le. lia. }
  assert (R0': 0 <= IZR r) by (apply (IZR_le 0); exact R0).
  assert (R1': IZR r + 1 <= IZR (2 ^ 25)) by (change 1 with (IZR 1) at 1; rewrite <- plus_IZR; apply IZR_le; lia).
  change (IZR (2 ^ 25)) with 33554432 in R1'. rewrite plus_IZR in *.
  split.
  - apply RN_int_ge; [lia|]. apply sqrt_ge_of; [exact R0'|lra].
  - apply Rle_lt_trans with (IZR r + 1 - / IZR (2 ^ 27)).
    + rewrite <- (RN_fx (-27) ((r + 1) * 2 ^ 27 - 1) (IZR r + 1 - / IZR (2 ^ 27))).
      * apply RN_le. apply sqrt_le_of; [lra| |].
        -- change (IZR (2 ^ 27)) with 134217728. lra.
        -- change (IZR (2 ^ 27)) with 134217728. nra.
      * lia.
      * unfold fx. rewrite bpow_neg, minus_IZR, mult_IZR, plus_IZR. change (IZR (2 ^ 27)) with 134217728. lra.
      * lia.
    + change (IZR (2 ^ 27)) with 134217728. lra.
Qed.

Lemma isqrt_ok : forall v, (0 <= v < 2 ^ 31)%Z -> isqrt v = Ok (Z.sqrt v).
Proof.
  intros v Hv. unfold isqrt. destruct (root_small v ltac:(lia)) as [F E].
  rewrite to_int_R; [now rewrite E|exact F|]. rewrite E.
  pose proof (Z.sqrt_nonneg v). assert (Z.sqrt v <= v)%Z by (apply Z.sqrt_le_lin; lia). lia.
Qed.

Lemma to_long_R : forall x, fin x -> (- long_max - 1 <= Ztrunc (toR x) <= long_max)%Z -> to_long x = Ok (Ztrunc (toR x)).
Proof.
  intros x F H. unfold to_long. unfold fin in F. rewrite F, Btrunc_R.
  replace ((- long_max - 1 <=? Ztrunc (toR x)) && (Ztrunc (toR x) <=? long_max))%Z with true; [reflexivity|].
  symmetry. apply andb_true_iff. rewrite !Z.leb_le. exact H.
Qed.

(** Beyond, it is at most one off. *)
Lemma root_large : forall v, (2 ^ 50 <= v < 2 ^ 62)%Z ->
  let s := fsqrt (fadd (of_int v) (lit 1 2)) in fin s /\ (Z.sqrt v - 1 <= Ztrunc (toR s) <= Z.sqrt v + 1)%Z.
Proof.
  intros v Hv s.
  assert (V0: IZR (2 ^ 50) <= IZR v) by (apply IZR_le; lia).
  assert (V1: IZR v <= IZR (2 ^ 62)) by (apply IZR_le; lia).
  change (IZR (2 ^ 50)) with 1125899906842624 in V0. change (IZR (2 ^ 62)) with 4611686018427387904 in V1.
  destruct (of_int_RN v 62) as [F1 E1]; [lia| |].
  { rewrite Rabs_pos_eq, bpow_pos by lra. change (IZR (2 ^ 62)) with 4611686018427387904. lra. }
  destruct half_val as [F2 E2].
  destruct (err_pos (IZR v) 62) as [D1 D2]; [lia|rewrite bpow_pos; change (IZR (2 ^ 62)) with 4611686018427387904; lra|].
  change (62 - 54)%Z with 8%Z in D1, D2. rewrite bpow_pos in D1, D2. change (IZR (2 ^ 8)) with 256 in D1, D2.
  rewrite <- E1 in D1, D2. set (w := toR (of_int v)) in *.
  destruct (fadd_R (of_int v) (lit 1 2) 63 F1 F2) as [F3 E3]; [lia| |].
  { fold w. rewrite E2, Rabs_pos_eq by lra. rewrite bpow_pos. change (IZR (2 ^ 63)) with 9223372036854775808. lra. }
  fold w in E3. rewrite E2 in E3.
  destruct (err_pos (w + / 2) 63) as [D3 D4]; [lia|rewrite bpow_pos; change (IZR (2 ^ 63)) with 9223372036854775808; lra|].
  change (63 - 54)%Z with 9%Z in D3, D4. rewrite bpow_pos in D3, D4. change (IZR (2 ^ 9)) with 512 in D3, D4.
  rewrite <- E3 in D3, D4. set (u := toR (fadd (of_int v) (lit 1 2))) in *.
  destruct (fsqrt_R _ F3) as [F4 E4]; [fold u; lra|]. fold u s in E4. split; [exact F4|].
  pose proof (Z.sqrt_nonneg v) as R0. destruct (Z.sqrt_spec v ltac:(lia)) as [S1 S2]. set (r := Z.sqrt v) in *.
  assert (R1: (r < 2 ^ 31)%Z) by (apply Z.square_lt_simpl_nonneg; lia).
  assert (R2: (2 ^ 25 <= r)%Z).
  { destruct (Z.lt_ge_cases r (2 ^ 25)) as [L|G]; [|exact G]. assert ((r + 1) * (r + 1) <= 2 ^ 25 * 2 ^ 25)%Z by (apply Z.mul_le_mono_nonneg; lia). lia. }
  assert (S1': IZR r * IZR r <= IZR v) by (rewrite <- mult_IZR; apply IZR_le; exact S1).
  assert (S2': IZR v + 1 <= (IZR r + 1) * (IZR r + 1)).
  { replace ((IZR r + 1) * (IZR r + 1)) with (IZR (Z.succ r * Z.succ r)) by (rewrite mult_IZR, succ_IZR; reflexivity).
    replace (IZR v + 1) with (IZR (v + 1)) by (rewrite plus_IZR; reflexivity). apply IZR_le. lia. }
  assert (R1': IZR r + 1 <= IZR (2 ^ 31)) by (replace (IZR r + 1) with (IZR (r + 1)) by (rewrite plus_IZR; reflexivity); apply IZR_le; lia).
  change (IZR (2 ^ 31)) with 2147483648 in R1'.
  assert (R2': IZR (2 ^ 25) <= IZR r) by (apply IZR_le; lia). change (IZR (2 ^ 25)) with 33554432 in R2'.
  assert (L: IZR (r - 1) <= toR s).
  { rewrite E4. apply RN_int_ge; [lia|]. apply sqrt_ge_of; rewrite minus_IZR; [lra|nra]. }
  assert (U: toR s <= IZR r + 3 / 2).
  { rewrite E4. rewrite <- (RN_fx (-1) (2 * r + 3) (IZR r + 3 / 2)).
    - apply RN_le. apply sqrt_le_of; [lra|lra|nra].
    - lia.
    - unfold fx. rewrite bpow_neg, plus_IZR, mult_IZR. change (IZR (2 ^ 1)) with 2. lra.
    - lia. }
  rewrite minus_IZR in L. destruct (trunc_bounds (toR s)) as [T _]. specialize (T ltac:(lra)).
  split.
  - assert (IZR (r - 1) < IZR (Ztrunc (toR s) + 1)) as Q by (rewrite minus_IZR, plus_IZR; lra). apply lt_IZR in Q. lia.
  - assert (IZR (Ztrunc (toR s)) < IZR (r + 2)) as Q by (rewrite plus_IZR; lra). apply lt_IZR in Q. lia.
Qed.

Lemma isqrt64_ok : forall v, (0 <= v < 2 ^ 62)%Z -> isqrt64 v = Ok (Z.sqrt v).
Proof.
  intros v Hv. unfold isqrt64. destruct (Z.ltb_spec v (2 ^ 50)) as [L|G].
  - destruct (root_small v ltac:(lia)) as [F E]. rewrite to_long_R; [rewrite E; reflexivity|exact F|]. rewrite E.
    pose proof (Z.sqrt_nonneg v). assert (Z.sqrt v <= v)%Z by (apply Z.sqrt_le_lin; lia). unfold long_max. lia.
  - destruct (root_large v ltac:(lia)) as [F E].
    pose proof (Z.sqrt_nonneg v) as N. assert (B: (Z.sqrt v <= v)%Z) by (apply Z.sqrt_le_lin; lia).
    destruct (Z.sqrt_spec v ltac:(lia)) as [S1 S2].
    rewrite to_long_R; [|exact F|unfold long_max; lia]. cbn [bind].
    set (t := Ztrunc _) in *. set (r := Z.sqrt v) in *. clearbody t r.
    assert (C: (t = r - 1 \/ t = r \/ t = r + 1)%Z) by lia. 
    destruct C as [C|[C|C]].
    + subst t. replace (r - 1 + 1)%Z with r by lia. 
      rewrite (proj2 (Z.ltb_ge v ((r - 1) * (r - 1)))) by nia. rewrite (proj2 (Z.leb_le (r * r) v)) by nia. reflexivity.
    + subst t. rewrite (proj2 (Z.ltb_ge v (r * r))) by nia. rewrite (proj2 (Z.leb_gt ((r + 1) * (r + 1)) v)) by nia. reflexivity.
    + subst t. rewrite (proj2 (Z.ltb_lt v ((r + 1) * (r + 1)))) by nia. f_equal. lia.
Qed.
