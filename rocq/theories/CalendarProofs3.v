(** MJD to date in floating point: splitting into day number and day fraction. *)
From Coq Require Import ZArith List Bool Lia Reals Lra.
From Flocq Require Import Core IEEE754.BinarySingleNaN.
From Verif Require Import CLib FloatModel FloatLemmas CalendarModel CalendarSpec CalendarProofs1 CalendarProofs2.
Import ListNotations.
Open Scope R_scope.

Lemma half_s : fin HALF_S_IN_DAYS /\ 5.78703703 * / 1000000 <= toR HALF_S_IN_DAYS <= 5.78703704 * / 1000000.
Proof.
  split; [vm_compute; reflexivity|].
  assert (E: B2SF HALF_S_IN_DAYS = SpecFloat.S754_finite false 6832127434707241 (-70)) by (vm_compute; reflexivity).
  rewrite <- (SF2R_B2SF _ _ HALF_S_IN_DAYS), E. unfold SF2R, F2R, cond_Zopp, Fnum, Fexp.
  change (bpow radix2 (-70)) with (/ 1180591620717411303424). lra.
Qed.

Lemma one_int : fin (of_int 1) /\ toR (of_int 1) = 1. Proof. apply of_int_R. lia. Qed.
Lemma zero_int : fin (of_int 0) /\ toR (of_int 0) = 0. Proof. apply of_int_R. lia. Qed.
Lemma half_val : fin (lit 1 2) /\ toR (lit 1 2) = / 2.
Proof. destruct lit_half as [F X]. split; [exact F|]. rewrite X, bpow_neg. change (IZR (2 ^ 1)) with 2. lra. Qed.

Lemma fmod_JD : fmod1 JD_OFF = lit 1 2.
Proof. apply b64_eq. vm_compute. reflexivity. Qed.
Lemma floor_JD : fsub JD_OFF (lit 1 2) = of_int 2400000.
Proof. apply b64_eq. vm_compute. reflexivity. Qed.
Lemma fmod_2400000 : fmod1 (of_int 2400000) = of_int 0.
Proof. apply b64_eq. vm_compute. reflexivity. Qed.

Lemma floor_int : forall x z, fin x -> toR x = IZR z -> fin (ffloor x) /\ toR (ffloor x) = IZR z.
Proof. intros x z F E. destruct (ffloor_R x F) as [F' E']. split; [exact F'|]. now rewrite E', E, Zfloor_IZR. Qed.

Lemma fadd_int : forall x y a b, fin x -> fin y -> toR x = IZR a -> toR y = IZR b -> (Z.abs (a + b) <= 2 ^ 53)%Z ->
  fin (fadd x y) /\ toR (fadd x y) = IZR (a + b).
Proof.
  intros x y a b Fx Fy Ex Ey H. destruct (fadd_exact x y 0 a b Fx Fy (fx_int _ _ Ex) (fx_int _ _ Ey)) as (F & _ & X); try lia.
  split; [exact F|]. rewrite X. cbn. ring.
Qed.
Lemma fsub_int : forall x y r z, fin x -> fin y -> toR x - toR y = r -> r = IZR z -> (Z.abs z <= 2 ^ 53)%Z ->
  fin (fsub x y) /\ toR (fsub x y) = IZR z.
Proof.
  intros x y r z Fx Fy E1 E2 H. destruct (fsub_R x y 53 Fx Fy) as [F E].
  - lia.
  - rewrite E1, E2, <- abs_IZR. change (bpow radix2 53) with (IZR (2 ^ 53)). now apply IZR_le.
  - split; [exact F|]. rewrite E, E1, E2. apply (RN_fx 0 z); [lia|now apply fx_int|exact H].
Qed.

Lemma trunc_bounds : forall r, (0 <= r -> IZR (Ztrunc r) <= r < IZR (Ztrunc r) + 1) /\ (r <= 0 -> IZR (Ztrunc r) - 1 < r <= IZR (Ztrunc r)).
Proof.
  intro r. split; intro H.
  - rewrite (Ztrunc_floor _ H). split; [apply Zfloor_lb|apply Zfloor_ub].
  - rewrite (Ztrunc_ceil _ H). split; [|apply Zceil_ub]. pose proof (Zfloor_lb r).
    destruct (Rlt_le_dec (IZR (Zfloor r)) r) as [L|L].
    + rewrite (Zceil_floor_neq r), plus_IZR; lra.
    + assert (E: r = IZR (Zfloor r)) by lra. rewrite E at 1. rewrite Zceil_IZR. lra.
Qed.

Lemma to_long_int : forall x z, fin x -> toR x = IZR z -> (Z.abs z <= 2 ^ 60)%Z -> to_long (ffloor x) = Ok z.
Proof.
  intros x z F E H. destruct (floor_int x z F E) as [F' E']. unfold to_long.
  unfold fin in F'. rewrite F', Btrunc_R, E', Ztrunc_IZR.
  replace ((- long_max - 1 <=? z) && (z <=? long_max))%Z with true; [reflexivity|].
  symmetry. apply andb_true_iff. unfold long_max. rewrite !Z.leb_le. lia.
Qed.

(** The fraction arithmetic of lines 46-50, for [d1 = DJ1]. *)
Lemma fraction_small : forall d2, fin d2 -> Rabs (toR d2) <= 5000000 ->
  let f2 := fmod1 d2 in
  let g := fadd (lit 1 2) f2 in
  let f0 := fmod1 g in
  let f := if flt f0 (of_int 0) then fadd f0 (of_int 1) else f0 in
  exists n, to_long (ffloor (fadd (fadd (ffloor (of_int 2400000)) (ffloor (fsub d2 f2))) (ffloor (fsub g f)))) = Ok (2400000 + n)%Z /\
    fin f /\ 0 <= toR f < 1 /\ IZR n + toR f = toR d2 - toR f2 + toR g /\
    toR f2 = toR d2 - IZR (Ztrunc (toR d2)) /\ toR g = RN (/ 2 + toR f2).
Proof.
  intros d2 F2 B2 f2 g f0 f.
  destruct half_val as [Fh Eh]. destruct zero_int as [Fz Ez]. destruct one_int as [Fo Eo].
  assert (P900: 5000000 <= bpow radix2 900).
  { apply Rle_trans with (bpow radix2 23); [change (bpow radix2 23) with 8388608; lra|apply bpow_le; lia]. }
  destruct (fmod1_R d2 F2 ltac:(lra)) as [Ff2 Ef2]. fold f2 in Ff2, Ef2.
  set (z := Ztrunc (toR d2)) in *.
  assert (Bf2: -1 < toR f2 < 1).
  { destruct (trunc_bounds (toR d2)) as [T1 T2]. fold z in T1, T2. rewrite Ef2.
    destruct (Rle_dec 0 (toR d2)); [specialize (T1 ltac:(lra))|specialize (T2 ltac:(lra))]; lra. }
  assert (Bz: -5000002 <= IZR z <= 5000002).
  { apply Rabs_le_inv in B2. lra. }
  assert (Bz': (-5000002 <= z <= 5000002)%Z) by (split; apply le_IZR; lra).
  destruct (fsub_int d2 f2 (IZR z) z F2 Ff2) as [Fs Es]; [rewrite Ef2; ring|reflexivity|lia|].
  destruct (floor_int _ _ Fs Es) as [Fs' Es'].
  destruct (of_int_R 2400000 ltac:(lia)) as [FJ EJ]. destruct (floor_int _ _ FJ EJ) as [FJ' EJ'].
  destruct (fadd_int _ _ _ _ FJ' Fs' EJ' Es' ltac:(lia)) as [F5 E5].
  destruct (fadd_R (lit 1 2) f2 1 Fh Ff2) as [Fg Eg]; [lia| |].
  { rewrite Eh. apply Rabs_le. change (bpow radix2 1) with 2. lra. }
  fold g in Fg, Eg. rewrite Eh in Eg.
  assert (Bg: -1 <= toR g <= 2).
  { rewrite Eg. split; [apply (RN_int_ge _ (-1)); [lia|lra]|apply (RN_int_le _ 2); [lia|lra]]. }
  assert (P900': Rabs (toR g) <= bpow radix2 900).
  { apply Rabs_le. lra. }
  destruct (fmod1_R g Fg P900') as [Ff0 Ef0]. fold f0 in Ff0, Ef0.
  destruct (Rlt_le_dec (toR g) 0) as [Gn|Gp].
  - (* negative: everything exact *)
    assert (N2: / 2 + toR f2 < 0) by (apply RN_neg; now rewrite <- Eg).
    destruct (b64_fx f2 (-1)) as [a Ha]; [|lia|].
    { rewrite Rabs_left by lra. change (bpow radix2 (-1)) with (/ 2). lra. }
    change (-1 - 52)%Z with (-53)%Z in Ha.
    assert (V53: bpow radix2 (-53) = / 9007199254740992) by reflexivity.
    assert (Xg: fx (-53) (4503599627370496 + a) (/ 2 + toR f2)).
    { unfold fx in *. rewrite Ha, plus_IZR, V53. lra. }
    assert (Ba: (-9007199254740992 < a < -4503599627370496)%Z).
    { unfold fx in Ha. rewrite V53 in Ha. split; apply lt_IZR; lra. }
    rewrite (RN_fx (-53) (4503599627370496 + a)) in Eg; [|lia|exact Xg|lia].
    assert (Tg: Ztrunc (toR g) = 0%Z).
    { rewrite Ztrunc_ceil by lra. apply Zceil_imp. change (IZR (0 - 1)) with (-1). rewrite Eg. lra. }
    rewrite Tg in Ef0.
    assert (Lt: flt f0 (of_int 0) = true) by (apply flt_R; [assumption|assumption|lra]).
    unfold f. rewrite Lt.
    assert (Xf0: fx (-53) (4503599627370496 + a) (toR f0)).
    { unfold fx in *. rewrite Ef0, Eg, <- Xg. ring. }
    assert (X1: fx (-53) 9007199254740992 (toR (of_int 1))).
    { unfold fx. rewrite Eo, V53. lra. }
    destruct (fadd_exact f0 (of_int 1) (-53) _ _ Ff0 Fo Xf0 X1) as (Ff & Ef & _); [lia|lia|].
    rewrite Ef0, Eg, Eo in Ef.
    destruct (fsub_int g (fadd f0 (of_int 1)) (-1) (-1) Fg Ff) as [Fd Ed]; [rewrite Ef, Eg; ring|reflexivity|lia|].
    destruct (floor_int _ _ Fd Ed) as [Fd' Ed'].
    destruct (fadd_int _ _ _ _ F5 Fd' E5 Ed' ltac:(lia)) as [F6 E6].
    exists (z - 1)%Z. rewrite (to_long_int _ _ F6 E6) by lia.
    split; [f_equal; lia|]. split; [exact Ff|]. rewrite minus_IZR.
    split; [rewrite Ef; lra|]. split; [rewrite Ef, Ef2, Eg, Ef2; lra|].
    split; [exact Ef2|]. rewrite Eg at 1. symmetry. apply (RN_fx (-53) (4503599627370496 + a)); [lia|exact Xg|lia].
  - assert (G2: toR g < 2).
    { destruct (Rlt_le_dec (/ 2 + toR f2) 1.5) as [L|L]; [|lra].
      rewrite Eg. apply Rle_lt_trans with (RN 1.5); [apply RN_le; lra|].
      rewrite (RN_fx (-1) 3); [lra|lia|unfold fx; change (bpow radix2 (-1)) with (/ 2); lra|lia]. }
    destruct (trunc_bounds (toR g)) as [Tg _]. specialize (Tg Gp).
    set (t := Ztrunc (toR g)) in *.
    assert (Bt: (-1 < t < 3)%Z) by (split; apply lt_IZR; lra).
    assert (Lt: flt f0 (of_int 0) = false) by (apply flt_false; [assumption|assumption|lra]).
    unfold f. rewrite Lt.
    destruct (fsub_int g f0 (IZR t) t Fg Ff0) as [Fd Ed]; [rewrite Ef0; ring|reflexivity|lia|].
    destruct (floor_int _ _ Fd Ed) as [Fd' Ed'].
    destruct (fadd_int _ _ _ _ F5 Fd' E5 Ed' ltac:(lia)) as [F6 E6].
    exists (z + t)%Z. rewrite (to_long_int _ _ F6 E6) by lia.
    split; [f_equal; lia|]. split; [exact Ff0|]. rewrite plus_IZR.
    split; [rewrite Ef0; lra|]. split; [rewrite Ef0, Ef2; lra|]. split; [exact Ef2|exact Eg].
Qed.

(** Advance by half a second. *)
Definition rounded (mjd : b64) : R := toR (fadd mjd HALF_S_IN_DAYS).

Lemma rounded_R : forall mjd, fin mjd -> Rabs (toR mjd) <= 4000000 ->
  fin (fadd mjd HALF_S_IN_DAYS) /\ Rabs (rounded mjd - (toR mjd + / 172800)) <= / 1000000000.
Proof.
  intros mjd F B. destruct half_s as [Fh Bh]. apply Rabs_le_inv in B.
  assert (B1: Rabs (toR mjd + toR HALF_S_IN_DAYS) <= 4000001) by (apply Rabs_le; lra).
  destruct (fadd_R mjd HALF_S_IN_DAYS 22 F Fh) as [F1 E1]; [lia|change (bpow radix2 22) with 4194304; lra|].
  split; [exact F1|]. unfold rounded. rewrite E1.
  pose proof (err_abs _ 22 _ ltac:(lia) B1 ltac:(change (bpow radix2 22) with 4194304; lra)) as H.
  change (bpow radix2 (22 - 54)) with (/ 4294967296) in H. apply Rabs_le. lra.
Qed.

Lemma split_ok : forall mjd, fin mjd -> -2097152 <= toR mjd <= 4000000 ->
  exists n f, mjd_split mjd = Ok (Some ((n + 2400001)%Z, f)) /\ fin f /\ 0 <= toR f < 1 /\
    Rabs (IZR n + toR f - rounded mjd) <= / 1000000000 /\
    (1 <= rounded mjd -> IZR n + toR f = rounded mjd).
Proof.
  intros mjd F B.
  assert (BA: Rabs (toR mjd) <= 4000000) by (apply Rabs_le; lra).
  destruct (rounded_R mjd F BA) as [FM BM]. apply Rabs_le_inv in BM.
  set (M := fadd mjd HALF_S_IN_DAYS) in *. unfold rounded in *. fold M in BM |- *.
  destruct lit_JD as [FJ XJ]. pose proof JD_OFF_val as EJ. destruct half_val as [Fh Eh].
  (* range test *)
  unfold mjd_split. fold M.
  destruct (fadd_R JD_OFF mjd 23 FJ F) as [Fdj Edj]; [lia| |].
  { rewrite EJ. apply Rabs_le. change (bpow radix2 23) with 8388608. lra. }
  assert (Bdj: 302000 <= toR (fadd JD_OFF mjd) <= 8000000).
  { rewrite Edj, EJ. split; [apply (RN_int_ge _ 302000); [lia|lra]|apply (RN_int_le _ 8000000); [lia|lra]]. }
  assert (Fmin: fin DJMIN /\ toR DJMIN = -68569.5).
  { destruct (lit_exact (-685695) 10 (-1) (-137139)) as [Fm Xm]; try lia.
    - change (bpow radix2 (-1)) with (/ 2). lra.
    - split; [exact Fm|]. unfold DJMIN. rewrite Xm. change (bpow radix2 (-1)) with (/ 2). lra. }
  destruct Fmin as [Fmin Emin].
  destruct (of_int_R 1000000000 ltac:(lia)) as [Fmax Emax]. fold DJMAX in Fmax, Emax.
  replace (flt (fadd JD_OFF mjd) DJMIN) with false
    by (symmetry; apply flt_false; [assumption|assumption|rewrite Emin; lra]).
  replace (flt DJMAX (fadd JD_OFF mjd)) with false
    by (symmetry; apply flt_false; [assumption|assumption|rewrite Emax; lra]).
  cbn [orb].
  destruct (fle mjd JD_OFF) eqn:LE.
  - (* d1 = DJ1 *)
    apply fle_R in LE; [|assumption|assumption]. rewrite EJ in LE.
    assert (HB: Rabs (toR M - / 2) <= 3000000) by (apply Rabs_le; lra).
    destruct (fsub_R M (lit 1 2) 22 FM Fh) as [Fd Ed]; [lia|rewrite Eh; change (bpow radix2 22) with 4194304; lra|].
    rewrite Eh in Ed.
    set (d2 := fsub M (lit 1 2)) in *.
    pose proof (err_abs _ 22 _ ltac:(lia) HB ltac:(change (bpow radix2 22) with 4194304; lra)) as Hd.
    rewrite <- Ed in Hd. change (bpow radix2 (22 - 54)) with (/ 4294967296) in Hd.
    apply Rabs_le_inv in HB.
    assert (HB2: Rabs (toR d2) <= 5000000) by (apply Rabs_le; lra).
    destruct (fraction_small d2 Fd HB2) as (n & Hn & Ff & Bf & Sum & Ef2 & Eg).
    rewrite fmod_JD, floor_JD. cbv zeta in *.
    rewrite Hn. cbn [bind].
    eexists n, _. split; [f_equal; f_equal; f_equal; lia|]. split; [exact Ff|]. split; [exact Bf|].
    set (f2 := fmod1 d2) in *.
    assert (Bf2: -1 < toR f2 < 1).
    { destruct (trunc_bounds (toR d2)) as [T1 T2]. rewrite Ef2.
      destruct (Rle_dec 0 (toR d2)); [specialize (T1 ltac:(lra))|specialize (T2 ltac:(lra))]; lra. }
    assert (HBg: Rabs (/ 2 + toR f2) <= 1.5) by (apply Rabs_le; lra).
    pose proof (err_abs _ 1 _ ltac:(lia) HBg ltac:(change (bpow radix2 1) with 2; lra)) as Hg.
    rewrite <- Eg in Hg. change (bpow radix2 (1 - 54)) with (/ 9007199254740992) in Hg.
    split.
    + rewrite Sum. apply Rabs_le. lra.
    + intro M1. rewrite Sum.
      (* both roundings are exact *)
      assert (Ex: exists e, (0 <= e <= 21)%Z /\ bpow radix2 e <= toR M < bpow radix2 (e + 1)).
      { exists (mag radix2 (toR M) - 1)%Z.
        destruct (mag radix2 (toR M)) as [e He]. cbn.
        specialize (He ltac:(lra)). rewrite Rabs_pos_eq in He by lra.
        replace (e - 1 + 1)%Z with e by lia.
        split; [|exact He]. split.
        - assert (0 < e)%Z; [|lia]. apply (lt_bpow radix2). change (bpow radix2 0) with 1. lra.
        - assert (e - 1 < 22)%Z; [|lia]. apply (lt_bpow radix2). change (bpow radix2 22) with 4194304. lra. }
      destruct Ex as (e & He & Me).
      destruct (b64_fx M e) as [a Ha]; [rewrite Rabs_pos_eq by lra; apply Me|lia|].
      assert (Xh: fx (e - 52) (2 ^ (51 - e)) (/ 2)).
      { unfold fx. change 2%Z with (radix_val radix2). rewrite IZR_Zpower by lia. rewrite <- bpow_plus.
        replace (51 - e + (e - 52))%Z with (-1)%Z by lia. reflexivity. }
      assert (Xd: fx (e - 52) (a - 2 ^ (51 - e)) (toR M - / 2)).
      { unfold fx in *. rewrite Ha, minus_IZR. rewrite Xh at 1. ring. }
      assert (Ba: (0 <= a - 2 ^ (51 - e) /\ a < 2 ^ 53)%Z).
      { split.
        - apply le_IZR. apply (Rmult_le_reg_r (bpow radix2 (e - 52))); [apply bpow_gt_0|].
          unfold fx in Xd. rewrite <- Xd. lra.
        - apply lt_IZR. apply (Rmult_lt_reg_r (bpow radix2 (e - 52))); [apply bpow_gt_0|].
          unfold fx in Ha. rewrite <- Ha. change (IZR (2 ^ 53)) with (bpow radix2 53). rewrite <- bpow_plus.
          replace (53 + (e - 52))%Z with (e + 1)%Z by lia. apply Me. }
      assert (Pp: (0 <= 2 ^ (51 - e))%Z) by (apply Z.pow_nonneg; lia).
      rewrite (RN_fx (e - 52) (a - 2 ^ (51 - e))) in Ed; [|lia|exact Xd|lia].
      (* f2 is a multiple of 2^-52 *)
      assert (Xd2: fx (-52) ((a - 2 ^ (51 - e)) * 2 ^ e) (toR d2)).
      { rewrite Ed. replace e with (e - 52 - -52)%Z at 2 by lia. apply fx_scale; [lia|exact Xd]. }
      assert (V52: bpow radix2 (-52) = / 4503599627370496) by reflexivity.
      set (A := ((a - 2 ^ (51 - e)) * 2 ^ e)%Z) in *. clearbody A.
      set (z := Ztrunc (toR d2)) in *.
      assert (Xf2: fx (-52) (2251799813685248 + (A - z * 4503599627370496)) (/ 2 + toR f2)).
      { unfold fx in *. rewrite Ef2, plus_IZR, minus_IZR, mult_IZR, Xd2, V52. lra. }
      rewrite (RN_fx (-52) (2251799813685248 + (A - z * 4503599627370496))) in Eg; [|lia|exact Xf2|].
      * rewrite Eg, Ed. ring.
      * apply Z.abs_le. unfold fx in Xf2. rewrite V52 in Xf2. split; apply le_IZR; change (IZR (2 ^ 53)) with 9007199254740992; change (IZR (- 2 ^ 53)) with (-9007199254740992); lra.
  - (* d1 = mjd *)
    apply fle_false in LE; [|assumption|assumption]. rewrite EJ in LE.
    rewrite floor_JD, fmod_2400000. cbv zeta.
    destruct zero_int as [Fz Ez].
    assert (P900: Rabs (toR M) <= bpow radix2 900).
    { apply Rle_trans with (bpow radix2 23); [apply Rabs_le; change (bpow radix2 23) with 8388608; lra|apply bpow_le; lia]. }
    destruct (fmod1_R M FM P900) as [F1 E1].
    destruct (trunc_bounds (toR M)) as [T1 _]. specialize (T1 ltac:(lra)).
    set (z := Ztrunc (toR M)) in *. set (f1 := fmod1 M) in *.
    assert (Bz: (2399999 <= z <= 4000003)%Z) by (split; apply le_IZR; lra).
    assert (Bf1: 0 <= toR f1 < 1) by lra.
    destruct (fadd_R f1 (of_int 0) 0 F1 Fz) as [Fg Eg]; [lia|rewrite Ez, Rplus_0_r, Rabs_pos_eq by lra; cbn; lra|].
    assert (G1: RN (toR f1) = toR f1) by (apply round_generic; [auto with typeclass_instances|apply generic_format_B2R]).
    rewrite Ez, Rplus_0_r, G1 in Eg. set (g := fadd f1 (of_int 0)) in *.
    assert (P900': Rabs (toR g) <= bpow radix2 900).
    { rewrite Eg, Rabs_pos_eq by lra. apply Rle_trans with (bpow radix2 0); [cbn; lra|apply bpow_le; lia]. }
    destruct (fmod1_R g Fg P900') as [Ff0 Ef0]. 
    assert (Tg: Ztrunc (toR g) = 0%Z) by (rewrite Ztrunc_floor by lra; apply Zfloor_imp; cbn; lra).
    rewrite Tg, Eg, Rminus_0_r in Ef0. set (f0 := fmod1 g) in *.
    replace (flt f0 (of_int 0)) with false by (symmetry; apply flt_false; [assumption|assumption|lra]).
    destruct (fsub_int M f1 (IZR z) z FM F1) as [Fs Es]; [rewrite E1; ring|reflexivity|lia|].
    destruct (floor_int _ _ Fs Es) as [Fs' Es'].
    destruct (of_int_R 2400000 ltac:(lia)) as [FK EK].
    destruct (fsub_int (of_int 2400000) (of_int 0) 2400000 2400000 FK Fz) as [Ft Et]; [rewrite EK, Ez; ring|reflexivity|lia|].
    destruct (floor_int _ _ Ft Et) as [Ft' Et'].
    destruct (fadd_int _ _ _ _ Fs' Ft' Es' Et' ltac:(lia)) as [F5 E5].
    destruct (fsub_int g f0 0 0 Fg Ff0) as [Fd Ed]; [rewrite Ef0, Eg; ring|reflexivity|lia|].
    destruct (floor_int _ _ Fd Ed) as [Fd' Ed'].
    destruct (fadd_int _ _ _ _ F5 Fd' E5 Ed' ltac:(lia)) as [F6 E6].
    rewrite (to_long_int _ _ F6 E6) by lia. cbn [bind].
    exists z, f0. split; [f_equal; f_equal; f_equal; lia|]. split; [exact Ff0|]. split; [lra|].
    split; [|intros _; lra]. replace (IZR z + toR f0 - toR M) with 0 by lra. rewrite Rabs_R0. lra.
Qed.
