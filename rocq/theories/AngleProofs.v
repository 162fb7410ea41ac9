(** Reduction of angles and sidereal time in binary64. *)
From Coq Require Import ZArith Reals Lra Lia Bool Psatz.
From Flocq Require Import Core IEEE754.BinarySingleNaN.
From Flocq Require Import Sterbenz.
From Verif Require Import CLib FloatModel ArithModel FloatLemmas OrbModel TimeModel.
Open Scope R_scope.

Lemma bounded_range m e : SpecFloat.bounded 53 1024 m e = true -> (Z.pos m < 2 ^ 53)%Z /\ (-1074 <= e <= 971)%Z.
Proof.
  intros B. destruct (andb_prop _ _ B) as [C D]. apply Zeq_bool_eq in C. apply Zle_bool_imp_le in D.
  unfold SpecFloat.fexp, SpecFloat.emin in C. split; [|lia].
  assert (H : (Z.pos (SpecFloat.digits2_pos m) <= 53)%Z) by lia. rewrite Digits.Zpos_digits2_pos in H.
  assert (T := Digits.Zdigits_correct radix2 (Z.pos m)). destruct T as [_ T]. rewrite Z.abs_eq in T by lia.
  eapply Z.lt_le_trans; [exact T|]. change 2%Z with (radix_val radix2). apply Zpower_le. exact H.
Qed.

Lemma scaled m e k : (k <= e)%Z -> IZR m * bpow radix2 e = IZR (m * 2 ^ (e - k)) * bpow radix2 k.
Proof.
  intros H. rewrite mult_IZR. change 2%Z with (radix_val radix2). rewrite IZR_Zpower by lia. rewrite Rmult_assoc, <- bpow_plus. do 2 f_equal. lia.
Qed.

(** fmod is exact. *)
Lemma ffmod_R x y : fin x -> fin y -> 0 < toR y ->
  fin (ffmod x y) /\ toR (ffmod x y) = toR x - IZR (Ztrunc (toR x / toR y)) * toR y.
Proof.
  intros Fx Fy Py. unfold fin in *.
  destruct x as [sx|sx| |sx mx ex bx]; try discriminate Fx; destruct y as [sy|sy| |sy my ey by_]; try discriminate Fy; try (cbn in Py; lra).
  - cbn [ffmod]. split; [reflexivity|]. cbn [B2R]. unfold Rdiv. rewrite Rmult_0_l, (Ztrunc_IZR 0). ring.
  - assert (sy = false) as ->. { destruct sy; [|reflexivity]. cbn in Py. exfalso. assert (F2R (Float radix2 (Z.neg my) ey) < 0) by (apply F2R_lt_0; reflexivity). lra. }
    cbn [ffmod]. set (e := Z.min ex ey).
    set (X := (cond_Zopp sx (Z.pos mx) * 2 ^ (ex - e))%Z). set (Y := (Z.pos my * 2 ^ (ey - e))%Z).
    destruct (bounded_range _ _ bx) as [Bx1 Bx2]. destruct (bounded_range _ _ by_) as [By1 By2].
    assert (E1 : (e <= ex)%Z) by (unfold e; lia). assert (E2 : (e <= ey)%Z) by (unfold e; lia).
    assert (PY : (0 < Y)%Z) by (unfold Y; apply Z.mul_pos_pos; [lia | apply Z.pow_pos_nonneg; lia]).
    cbn [B2R]. unfold F2R. cbn [Fnum Fexp].
    replace (IZR (cond_Zopp sx (Z.pos mx)) * bpow radix2 ex) with (IZR X * bpow radix2 e) by (symmetry; apply scaled; assumption).
    replace (IZR (cond_Zopp false (Z.pos my)) * bpow radix2 ey) with (IZR Y * bpow radix2 e) by (symmetry; apply scaled; assumption).
    assert (BP : 0 < bpow radix2 e) by apply bpow_gt_0. assert (RY : 0 < IZR Y) by (apply IZR_lt; exact PY).
    replace (IZR X * bpow radix2 e / (IZR Y * bpow radix2 e)) with (IZR X / IZR Y) by (field; lra).
    rewrite Ztrunc_div by lia.
    assert (RM : Z.rem X Y = (X - Y * Z.quot X Y)%Z) by (assert (Q := Z.quot_rem X Y ltac:(lia)); lia).
    assert (SM : (Z.abs (Z.rem X Y) <= 2 ^ 53)%Z).
    { destruct (Z.le_ge_cases ey ex) as [L|L].
      - assert (e = ey) as EE by (unfold e; lia). assert (Y = Z.pos my) by (unfold Y; rewrite EE, Z.sub_diag; cbn; lia).
        assert (R := Z.rem_bound_abs X Y ltac:(lia)). lia.
      - assert (e = ex) as EE by (unfold e; lia). assert (X = cond_Zopp sx (Z.pos mx)) by (unfold X; rewrite EE, Z.sub_diag; cbn; lia).
        assert (Z.abs X = Z.pos mx) by (rewrite H; destruct sx; reflexivity).
        assert (R := Z.rem_le (Z.abs X) (Z.abs Y) ltac:(lia) ltac:(lia)). rewrite Z.rem_abs in R by lia. lia. }
    assert (V : IZR X * bpow radix2 e - IZR (Z.quot X Y) * (IZR Y * bpow radix2 e) = IZR (Z.rem X Y) * bpow radix2 e).
    { rewrite RM, minus_IZR, mult_IZR. ring. }
    rewrite V.
    assert (C := binary_normalize_correct 53 1024 prec64_gt0 prec64_lt mode_NE (Z.rem X Y) e sx). cbv zeta in C.
    unfold F2R in C. cbn [Fnum Fexp] in C.
    assert (RR : RN (IZR (Z.rem X Y) * bpow radix2 e) = IZR (Z.rem X Y) * bpow radix2 e).
    { apply (RN_fx e (Z.rem X Y)); [unfold e; lia | reflexivity | exact SM]. }
    change (round radix2 fexp64 (round_mode mode_NE) (IZR (Z.rem X Y) * bpow radix2 e)) with (RN (IZR (Z.rem X Y) * bpow radix2 e)) in C.
    rewrite RR in C.
    assert (OV : Rlt_bool (Rabs (IZR (Z.rem X Y) * bpow radix2 e)) (bpow radix2 1024) = true).
    { apply Rlt_bool_true. rewrite Rabs_mult, (Rabs_pos_eq (bpow radix2 e)) by lra.
      assert (Z.abs (Z.rem X Y) < Y)%Z. { assert (R := Z.rem_bound_abs X Y ltac:(lia)). lia. }
      apply Rlt_trans with (IZR Y * bpow radix2 e). { apply Rmult_lt_compat_r; [lra|]. rewrite <- abs_IZR. apply IZR_lt. exact H. }
      unfold Y. rewrite <- scaled by assumption.
      apply Rlt_le_trans with (IZR (2 ^ 53) * bpow radix2 ey). { apply Rmult_lt_compat_r; [apply bpow_gt_0 | apply IZR_lt; exact By1]. }
      change (2 ^ 53)%Z with (radix2 ^ 53)%Z. rewrite IZR_Zpower by lia. rewrite <- bpow_plus. apply bpow_le. lia. }
    rewrite OV in C. destruct C as (C1 & C2 & _). split; [exact C2 | exact C1].
Qed.

(** The angle constants. *)
Lemma PI64_R : fin PI64 /\ toR PI64 = 7074237752028440 / 2251799813685248.
Proof.
  split; [vm_compute; reflexivity|]. rewrite <- SF2R_B2SF. replace (B2SF PI64) with (SpecFloat.S754_finite false 7074237752028440 (-51)) by (vm_compute; reflexivity).
  cbn. unfold F2R. cbn. lra.
Qed.
Lemma twopi64_R m : fin (o_twopi (machine m)) /\ toR (o_twopi (machine m)) = 2 * toR PI64.
Proof.
  assert (E : o_twopi (machine m) = fmul PI64 (round_ratio 2 1)) by reflexivity. rewrite E.
  split; [vm_compute; reflexivity|]. destruct PI64_R as [_ ->].
  rewrite <- SF2R_B2SF. replace (B2SF (fmul PI64 (round_ratio 2 1))) with (SpecFloat.S754_finite false 7074237752028440 (-50)) by (vm_compute; reflexivity).
  cbn. unfold F2R. cbn. lra.
Qed.

Lemma gen x : generic_format radix2 fexp64 (toR x).
Proof. apply generic_format_B2R. Qed.
Lemma RN_gen x : generic_format radix2 fexp64 x -> RN x = x.
Proof. intros. apply round_generic; auto with typeclass_instances. Qed.

Lemma trunc_rem x y : 0 < y -> Rabs (x - IZR (Ztrunc (x / y)) * y) < y.
Proof.
  intros H. replace (x - IZR (Ztrunc (x / y)) * y) with ((x / y - IZR (Ztrunc (x / y))) * y) by (field; lra).
  rewrite Rabs_mult, (Rabs_pos_eq y) by lra. apply Rlt_le_trans with (1 * y); [|lra]. apply Rmult_lt_compat_r; [lra|].
  set (q := x / y). destruct (Rle_dec 0 q).
  - rewrite Ztrunc_floor by lra. assert (A := Zfloor_lb q). assert (B := Zfloor_ub q). apply Rabs_def1; lra.
  - rewrite Ztrunc_ceil by lra. assert (A := Zceil_ub q). assert (B := Zceil_lb q). apply Rabs_def1; lra.
Qed.

(** centralize_angle subtracts a multiple of its 2 pi, exactly, and the result is at most its pi in size. *)
Lemma centralize64 m x : fin x ->
  fin (centralize_angle (machine m) x)
  /\ (exists k, toR (centralize_angle (machine m) x) = toR x - IZR k * toR (o_twopi (machine m)))
  /\ Rabs (toR (centralize_angle (machine m) x)) <= toR PI64.
Proof.
  intros Fx. destruct PI64_R as [FP VP]. destruct (twopi64_R m) as [FT VT].
  unfold centralize_angle. set (tp := o_twopi (machine m)) in *. cbn [ltn sub add opp c_fmod machine]. change (o_pi (machine m)) with PI64.
  destruct (ffmod_R x tp Fx FT) as [FF VF]; [rewrite VT; lra|]. set (f := ffmod x tp) in *.
  assert (RF := trunc_rem (toR x) (toR tp) ltac:(rewrite VT; lra)). rewrite <- VF in RF. set (k := Ztrunc (toR x / toR tp)) in *. apply Rabs_def2 in RF.
  assert (FO : fin (fopp PI64)) by (unfold fopp, fin; rewrite is_finite_Bopp; exact FP).
  assert (VO : toR (fopp PI64) = - toR PI64) by (unfold fopp; apply B2R_Bopp).
  destruct (flt PI64 f) eqn:Q1; [apply flt_R in Q1; try assumption | apply flt_false in Q1; try assumption; destruct (flt f (fopp PI64)) eqn:Q2; [apply flt_R in Q2; try assumption | apply flt_false in Q2; try assumption]].
  - assert (RD : RN (toR f - toR tp) = toR f - toR tp).
    { apply RN_gen. apply sterbenz; auto with typeclass_instances; [apply gen | apply gen | lra]. }
    destruct (fsub_R f tp 10 FF FT) as [F V]; [lia | change (bpow radix2 10) with 1024; apply Rabs_le; lra |].
    split; [exact F|]. rewrite V, RD. split; [exists (k + 1)%Z; rewrite plus_IZR; lra | apply Rabs_le; lra].
  - rewrite VO in Q2. assert (RD : RN (toR f + toR tp) = toR f + toR tp).
    { apply RN_gen. replace (toR f + toR tp) with (- (- toR f - toR tp)) by ring. apply generic_format_opp.
      apply sterbenz; auto with typeclass_instances; [apply generic_format_opp, gen | apply gen | lra]. }
    destruct (fadd_R f tp 10 FF FT) as [F V]; [lia | change (bpow radix2 10) with 1024; apply Rabs_le; lra |].
    split; [exact F|]. rewrite V, RD. split; [exists (k - 1)%Z; rewrite minus_IZR; lra | apply Rabs_le; lra].
  - rewrite VO in Q2. split; [exact FF|]. split; [exists k; exact VF | apply Rabs_le; lra].
Qed.

(** FMod2p: within the closed interval, and one rounding away from congruent (exactly congruent if fmod was not negative). *)
Lemma FMod64 m x : fin x ->
  fin (FMod2p (machine m) x) /\ 0 <= toR (FMod2p (machine m) x) <= toR (o_twopi (machine m))
  /\ exists k, toR (FMod2p (machine m) x) = RN (toR x - IZR k * toR (o_twopi (machine m)))
               /\ (0 <= toR x -> toR (FMod2p (machine m) x) = toR x - IZR k * toR (o_twopi (machine m)) /\ toR (FMod2p (machine m) x) < toR (o_twopi (machine m))).
Proof.
  intros Fx. destruct PI64_R as [FP VP]. destruct (twopi64_R m) as [FT VT].
  unfold FMod2p. set (tp := o_twopi (machine m)) in *. cbn [ltn sub add opp c_fmod machine].
  destruct (ffmod_R x tp Fx FT) as [FF VF]; [rewrite VT; lra|]. set (f := ffmod x tp) in *.
  assert (RF := trunc_rem (toR x) (toR tp) ltac:(rewrite VT; lra)). rewrite <- VF in RF. set (k := Ztrunc (toR x / toR tp)) in *. apply Rabs_def2 in RF.
  assert (Z0 : fin (int (machine m) 0) /\ toR (int (machine m) 0) = 0) by (split; reflexivity). destruct Z0 as [Z1 Z2].
  destruct (flt f (int (machine m) 0)) eqn:Q1; [apply flt_R in Q1; try assumption | apply flt_false in Q1; try assumption]; rewrite Z2 in Q1.
  - destruct (fadd_R f tp 10 FF FT) as [F V]; [lia | change (bpow radix2 10) with 1024; apply Rabs_le; lra |].
    split; [exact F|]. rewrite V. split.
    + split.
      * replace 0 with (RN 0) by (apply RN_gen, generic_format_0). apply RN_le. lra.
      * rewrite <- (RN_gen (toR tp)) at 2 by apply gen. apply RN_le. lra.
    + exists (k - 1)%Z. rewrite minus_IZR. split; [f_equal; lra|]. intros X. exfalso.
      assert (0 <= toR x / toR tp) by (apply Rmult_le_pos; [exact X | apply Rlt_le, Rinv_0_lt_compat; lra]).
      unfold k in VF. rewrite Ztrunc_floor in VF by assumption. assert (A := Zfloor_lb (toR x / toR tp)).
      assert (IZR (Zfloor (toR x / toR tp)) * toR tp <= toR x / toR tp * toR tp) by (apply Rmult_le_compat_r; lra).
      replace (toR x / toR tp * toR tp) with (toR x) in H0 by (field; lra). lra.
  - split; [exact FF|]. split; [lra|]. exists k. split; [rewrite <- VF; symmetry; apply RN_gen, gen | intros _; split; [exact VF | lra]].
Qed.
