(** Angles to vectors and back in double arithmetic; a library of the accuracy asked for. *)
From Coq Require Import ZArith List Bool Reals Lra Lia Psatz.
From Flocq Require Import Core IEEE754.BinarySingleNaN.
From Verif Require Import CLib FloatModel FloatLemmas GeoLemmas TleProofs3 PipeProofs5 CalendarProofs2 CalendarProofs3 CalendarProofs4.
From Verif Require Import HealpixModel HealpixSpec HealpixAngModel HealpixRealModel HealpixFloatModel HealpixFloatSpec HealpixAng64Model HealpixAng64Spec HealpixVecModel HealpixVecSpec HealpixProofs1 HealpixProofs2 HealpixProofs3 HealpixProofs4 HealpixProofs5 HealpixProofs6 HealpixProofs7 HealpixProofs8 HealpixProofs9 HealpixProofs10 HealpixProofs11 HealpixProofs12 HealpixProofs13 HealpixProofs14 HealpixProofs15 HealpixProofs16 HealpixProofs17 HealpixProofs18 HealpixProofs19 HealpixProofs20 HealpixProofs21 HealpixProofs22.
Import ListNotations.
Open Scope R_scope.


Lemma polar_near a b th e : 0 <= e <= 1 / 100 -> Rabs (a - cos th) <= e -> Rabs (b - sin th) <= e -> exists r d, 0 < r /\ a = r * cos (th + d) /\ b = r * sin (th + d) /\ Rabs d <= 21 / 10 * e.
Proof.
  intros He Ha Hb. apply Rabs_le_inv in Ha, Hb. set (e1 := a - cos th) in *. set (e2 := b - sin th) in *. assert (C := COS_bound th). assert (S := SIN_bound th).
  assert (K1 := small_prod e1 (cos th) _ 1 Ha ltac:(lra)). assert (K2 := small_prod e2 (sin th) _ 1 Hb ltac:(lra)). assert (K3 := small_prod e2 (cos th) _ 1 Hb ltac:(lra)). assert (K4 := small_prod e1 (sin th) _ 1 Ha ltac:(lra)).
  set (A := 1 + (e1 * cos th + e2 * sin th)). set (B := e2 * cos th - e1 * sin th). assert (A1 : 98 / 100 <= A) by (unfold A; lra). assert (B1 : Rabs B <= 2 * e) by (unfold B; apply Rabs_le; lra).
  set (d := atan (B / A)). assert (D1 := cos_atan (B / A)). assert (D2 := sin_atan (B / A)). fold d in D1, D2.
  set (h := sqrt (1 + (B / A)²)) in *. assert (HH : 0 < 1 + (B / A)²) by (generalize (Rle_0_sqr (B / A)); lra). assert (H0 : 0 < h) by (apply sqrt_lt_R0; exact HH).
  assert (C1 : A = A * h * cos d) by (rewrite D1; field; lra). assert (C2 : B = A * h * sin d) by (rewrite D2; field; lra).
  assert (TR := sin2_cos2 th). unfold Rsqr in TR. exists (A * h), d. split; [apply Rmult_lt_0_compat; lra|]. split; [|split].
  - rewrite cos_plus. replace (A * h * (cos th * cos d - sin th * sin d)) with (cos th * (A * h * cos d) - sin th * (A * h * sin d)) by ring. rewrite <- C1, <- C2. unfold A, B. replace (cos th * (1 + (e1 * cos th + e2 * sin th)) - sin th * (e2 * cos th - e1 * sin th)) with (cos th + e1 * (sin th * sin th + cos th * cos th)) by ring. rewrite TR. unfold e1. ring.
  - rewrite sin_plus. replace (A * h * (sin th * cos d + cos th * sin d)) with (sin th * (A * h * cos d) + cos th * (A * h * sin d)) by ring. rewrite <- C1, <- C2. unfold A, B. replace (sin th * (1 + (e1 * cos th + e2 * sin th)) + cos th * (e2 * cos th - e1 * sin th)) with (sin th + e2 * (sin th * sin th + cos th * cos th)) by ring. rewrite TR. unfold e2. ring.
  - eapply Rle_trans; [apply atan_le_abs|]. unfold Rdiv. rewrite Rabs_mult, (Rabs_pos_eq (/ A)) by (apply Rlt_le, Rinv_0_lt_compat; lra). assert (/ A <= 105 / 100) by (replace (105 / 100) with (/ (100 / 105)) by field; apply Rinv_le_contravar; lra). assert (0 < / A) by (apply Rinv_0_lt_compat; lra).
    assert (Rabs B * / A <= 2 * e * (105 / 100)) by (apply Rmult_le_compat; try apply Rabs_pos; lra). lra.
Qed.
Lemma axis_back L s phi e1 e2 x y : fin x -> fin y -> L = 1 -> toR x = L * (s * (cos phi + e1)) -> toR y = L * (s * (sin phi + e2)) -> Rabs e1 <= 102 / 10 ^ 14 -> Rabs e2 <= 102 / 10 ^ 14 -> 1 / 10 ^ 10 <= s <= 11 / 10 ->
  fin (fsqrt (axis_square x y)) /\ 0 < toR (fsqrt (axis_square x y)) /\ Rabs (toR (fsqrt (axis_square x y)) - s) <= 5 / 10 ^ 12.
Proof.
  intros Fx Fy -> Ex Ey H1 H2 Hs. assert (HL : bpow radix2 (-300) <= 1 <= bpow radix2 300) by (change 1 with (bpow radix2 0); split; apply bpow_le; lia).
  destruct (axis_ok 1 s phi e1 e2 x y Fx Fy HL Ex Ey H1 H2 Hs) as (p & F & E & P). rewrite !Rmult_1_l in E. assert (SS : 1 / 10 ^ 20 <= s * s) by (replace (1 / 10 ^ 20) with (1 / 10 ^ 10 * (1 / 10 ^ 10)) by field; apply Rmult_le_compat; lra).
  apply Rabs_le_inv in P. assert (P0 : 0 < p) by lra. destruct (fsqrt_R _ F ltac:(rewrite E; lra)) as [FR ER]. rewrite E in ER. split; [exact FR|]. rewrite ER. assert (R0 := sqrt_pos p). assert (RR := sqrt_sqrt p ltac:(lra)). set (r := sqrt p) in *.
  assert (D : Rabs (r - s) <= 411 / 10 ^ 14 * s).
  { apply Rmult_le_reg_r with s; [lra|]. apply Rle_trans with (Rabs (r - s) * (r + s)); [apply Rmult_le_compat_l; [apply Rabs_pos|lra]|]. rewrite <- (Rabs_pos_eq (r + s)) by lra. rewrite <- Rabs_mult. replace ((r - s) * (r + s)) with (r * r - s * s) by ring. rewrite RR. apply Rabs_le. lra. }
  apply Rabs_le_inv in D. assert (Q := RN_any r). rewrite (Rabs_pos_eq r) in Q by lra. assert (T : bpow radix2 (-1000) <= 1 / 10 ^ 16 * s). { apply Rle_trans with (bpow radix2 (-120)); [apply bpow_le; lia|]. rewrite bpow_neg. change (IZR (2 ^ 120)) with 1329227995784915872903807060280344576. lra. }
  unfold v52 in Q. apply Rabs_le_inv in Q. split; [lra|]. apply Rabs_le. lra.
Qed.
Lemma there_and_back fc fs ft theta phi : good_cos_turn fc -> good_sin_turn fs -> good_angle ft -> fin theta -> fin phi -> 0 <= toR theta <= PI -> 1 / 10 ^ 9 <= sin (toR theta) -> Rabs (toR phi) <= 7 ->
  let '(x, y, z) := ang2vec fc fs theta phi in let '(theta', phi') := vec2ang ft x y z in
  fin theta' /\ Rabs (toR theta' - toR theta) <= 2 / 10 ^ 11 /\ fin phi' /\ 0 <= toR phi' <= toR twopi /\ exists k : Z, Rabs (toR phi' - (toR phi + IZR k * (2 * PI))) <= 1 / 10 ^ 11.
Proof.
  intros GC GS GA Ft Fp Ht Hs Hp. destruct pi_bounds as [PL PU]. unfold ang2vec, vec2ang. destruct (GS theta Ft ltac:(apply Rabs_le; lra)) as [Fs Ds]. destruct (GC theta Ft ltac:(apply Rabs_le; lra)) as [Fc Dc]. set (s := fs theta) in *. set (z := fc theta) in *.
  apply Rabs_le_inv in Ds. assert (SB := SIN_bound (toR theta)). assert (Hs' : 1 / 10 ^ 10 <= toR s <= 11 / 10) by lra.
  destruct (made fc cos s phi GC COS_bound Fs Fp Hs' Hp) as (e1 & F1 & E1 & B1). destruct (made fs sin s phi GS SIN_bound Fs Fp Hs' Hp) as (e2 & F2 & E2 & B2).
  set (x := fmul s (fc phi)) in *. set (y := fmul s (fs phi)) in *. destruct (axis_back 1 (toR s) (toR phi) e1 e2 x y F1 F2 eq_refl E1 E2 B1 B2 Hs') as (FA & A0 & DA). apply Rabs_le_inv in DA.
  set (q := fsqrt (axis_square x y)) in *. assert (Dc' : Rabs (toR z - cos (toR theta)) <= 6 / 10 ^ 12) by lra.
  destruct (polar_near (toR z) (toR q) (toR theta) (6 / 10 ^ 12) ltac:(lra) Dc' ltac:(apply Rabs_le; lra)) as (r & d & R0 & Ez & Eq & Dd). apply Rabs_le_inv in Dd.
  destruct (GA q z r (toR theta + d) FA Fc R0 Eq Ez) as (Fth & Bth & Pth & k & K). specialize (Pth A0). apply Rabs_le_inv in K, Bth. split; [exact Fth|]. split.
  { assert (k = 0)%Z; [|subst k; apply Rabs_le; lra]. assert (-1 < k < 1)%Z; [|lia]. split; apply lt_IZR; [destruct (Rlt_dec (-1) (IZR k)) as [|W]; [assumption|exfalso; assert (IZR k * (2 * PI) <= -1 * (2 * PI)) by (apply Rmult_le_compat_r; lra); lra]|destruct (Rlt_dec (IZR k) 1) as [|W]; [assumption|exfalso; assert (1 * (2 * PI) <= IZR k * (2 * PI)) by (apply Rmult_le_compat_r; lra); lra]]. }
  assert (HL : bpow radix2 (-300) <= 1 <= bpow radix2 300) by (change 1 with (bpow radix2 0); split; apply bpow_le; lia).
  destruct (longitude_back 1 (toR s) (toR phi) e1 e2 x y F1 F2 HL E1 E2 B1 B2 Hs' ft GA ltac:(lra)) as (Ff & k2 & Hk2 & Dk2). set (g := ft y x) in *. assert (BG : -4 <= toR g <= 4).
  { destruct (polar_near (cos (toR phi) + e1) (sin (toR phi) + e2) (toR phi) (102 / 10 ^ 14) ltac:(lra)) as (r3 & d3 & R3 & Ex3 & Ey3 & _); [replace (cos (toR phi) + e1 - cos (toR phi)) with e1 by ring; exact B1|replace (sin (toR phi) + e2 - sin (toR phi)) with e2 by ring; exact B2|].
    destruct (GA y x (toR s * r3) (toR phi + d3) F2 F1) as (_ & B4 & _); [apply Rmult_lt_0_compat; lra|rewrite E2, Ey3; ring|rewrite E1, Ex3; ring|]. apply Rabs_le_inv in B4. exact B4. }
  destruct zero_int as [F0 E0]. destruct twopi_near as [FT NT]. apply Rabs_le_inv in NT, Dk2. destruct (flt g (of_int 0)) eqn:C.
  - apply flt_R in C; [|exact Ff|exact F0]. rewrite E0 in C. destruct (fadd_R g twopi 3 Ff FT ltac:(lia)) as [FX EX]; [change (bpow radix2 3) with 8; apply Rabs_le; lra|]. split; [exact FX|]. rewrite EX.
    assert (LE : RN (toR g + toR twopi) <= toR twopi). { assert (G1 : RN (toR twopi) = toR twopi) by (apply round_generic; [auto with typeclass_instances|apply generic_format_B2R]). rewrite <- G1 at 2. apply RN_le. lra. } assert (GE : 0 <= RN (toR g + toR twopi)) by (rewrite <- RN_zero; apply RN_le; lra). split; [lra|]. exists (k2 + 1)%Z. rewrite plus_IZR.
    assert (E := RN_err (toR g + toR twopi) 3 ltac:(lia)). change (bpow radix2 3) with 8 in E. specialize (E ltac:(apply Rabs_le; lra)). change (3 - 54)%Z with (-51)%Z in E. rewrite bp51 in E. apply Rabs_le_inv in E. apply Rabs_le. lra.
  - assert (C' : ~ toR g < 0) by (intro W; rewrite <- E0 in W; apply (proj2 (flt_R _ _ Ff F0)) in W; congruence). split; [exact Ff|]. split; [lra|]. exists k2. apply Rabs_le. lra.
Qed.

(** A library of this accuracy exists. *)
Lemma same_direction a b : cos a = cos b -> sin a = sin b -> exists k : Z, a = b + IZR k * (2 * PI).
Proof.
  intros C S. assert (E : cos (a - b) = 1) by (rewrite cos_minus, C, S; generalize (sin2_cos2 b); unfold Rsqr; lra). set (h := (a - b) / 2). assert (E2 : cos (2 * h) = 1) by (unfold h; replace (2 * ((a - b) / 2)) with (a - b) by field; exact E).
  rewrite cos_2a_sin in E2. assert (Z : sin h = 0) by nra. destruct (sin_eq_0_0 h Z) as (k & K). exists k. unfold h in K. lra.
Qed.
Lemma good_vectors : exists fc fs ft, good_cos_turn fc /\ good_sin_turn fs /\ good_angle ft.
Proof.
  exists (fun x => dyadic (Zfloor (cos (toR x) * 1125899906842624)) (-50)), (fun x => dyadic (Zfloor (sin (toR x) * 1125899906842624)) (-50)).
  set (ang := fun y x : R => let a := acos (x / sqrt (y * y + x * x)) in if Rle_dec 0 y then a else - a). exists (fun y x => dyadic (Zfloor (ang (toR y) (toR x) * 1125899906842624)) (-50)).
  split; [intros x F H; apply cut_near; generalize (COS_bound (toR x)); lra|]. split; [intros x F H; apply cut_near; generalize (SIN_bound (toR x)); lra|].
  intros y x r t Fy Fx Hr Ey Ex. destruct pi_bounds as [PL PU]. assert (Q : sqrt (toR y * toR y + toR x * toR x) = r).
  { rewrite Ey, Ex. replace (r * sin t * (r * sin t) + r * cos t * (r * cos t)) with (r * r * ((sin t)² + (cos t)²)) by (unfold Rsqr; ring). rewrite sin2_cos2, Rmult_1_r, sqrt_square by lra. reflexivity. }
  assert (CT : toR x / r = cos t) by (rewrite Ex; field; lra). set (v := ang (toR y) (toR x)).
  assert (V : - PI <= v <= PI /\ (0 <= toR y -> 0 <= v) /\ cos v = cos t /\ sin v = sin t).
  { assert (AB := acos_bound (cos t)). assert (CA := cos_acos (cos t) (COS_bound t)). assert (SA := sin_acos (cos t) (COS_bound t)). assert (S2 : sqrt (1 - (cos t)²) = Rabs (sin t)). { replace (1 - (cos t)²) with ((sin t)²) by (generalize (sin2_cos2 t); lra). apply sqrt_Rsqr_abs. } rewrite S2 in SA.
    unfold v, ang. cbv zeta. rewrite Q, CT. destruct (Rle_dec 0 (toR y)) as [Y|Y].
    - split; [lra|]. split; [intros; lra|]. split; [exact CA|]. rewrite SA. apply Rabs_pos_eq. rewrite Ey in Y. destruct (Rle_lt_dec 0 (sin t)) as [|W]; [assumption|exfalso]. assert (r * sin t < r * 0) by (apply Rmult_lt_compat_l; lra). lra.
    - split; [lra|]. split; [intros; lra|]. rewrite cos_neg, sin_neg, SA. split; [exact CA|]. assert (W : sin t < 0). { rewrite Ey in Y. destruct (Rlt_le_dec (sin t) 0) as [|W]; [assumption|exfalso]. apply Y. apply Rmult_le_pos; lra. } rewrite Rabs_left by exact W. ring. }
  destruct V as (VB & VP & VC & VS). destruct (cut_near v ltac:(lra)) as [FF NN]. split; [exact FF|]. destruct (same_direction v t VC VS) as (k & K). split; [|split].
  - apply Rabs_le_inv in NN. apply Rabs_le. lra.
  - intros Y. specialize (VP ltac:(lra)). set (m := Zfloor (v * 1125899906842624)) in *. assert (U := Zfloor_ub (v * 1125899906842624)). fold m in U. assert (L := Zfloor_lb (v * 1125899906842624)). fold m in L. assert (M : (0 <= m)%Z). { assert (-1 < m)%Z; [apply lt_IZR; lra|lia]. }
    assert (B : (Z.abs m <= 2 ^ 53)%Z). { assert (m <= 4503599627370496)%Z by (apply le_IZR; lra). lia. }
    destruct (dyadic_R m (-50) ltac:(lia) B) as [_ E]. rewrite E. apply Rmult_le_pos; [apply IZR_le; exact M|apply bpow_ge_0].
  - exists k. rewrite <- K. exact NN.
Qed.

(** The length without scaling. *)
Lemma length_unscaled : exists x y z x' y' z' : b64, fin x /\ fin y /\ fin z /\ (0 < toR z)%R /\ fin x' /\ fin y' /\ fin z' /\ (0 < toR z')%R /\ toR x' = 0%R /\ toR y' = 0%R
  /\ forall ft, ft y x = of_int 0 -> ft y' x' = of_int 0 ->
     vec2pix_ring ft 4 x y z = UB Overflow /\ vec2pix_nest ft 4 x y z = UB Overflow /\ vec2pix_ring64 ft 4 x y z = UB Overflow /\ vec2pix_nest64 ft 4 x y z = UB Overflow
     /\ vec2pix_ring ft 4 x' y' z' = Ok 88%Z /\ vec2pix_ring64 ft 4 x' y' z' = Ok 88%Z /\ vec2pix_ring ft 4 x' y' (of_int 1) = Ok 0%Z /\ vec2pix_ring64 ft 4 x' y' (of_int 1) = Ok 0%Z.
Proof.
  exists (of_int 0), (of_int 0), (dyadic 1 (-600)), (of_int 0), (of_int 0), (dyadic 1 600). destruct zero_int as [F0 E0].
  assert (FS : fin (dyadic 1 (-600))) by (vm_compute; reflexivity). assert (FB : fin (dyadic 1 600)) by (vm_compute; reflexivity).
  assert (PS : flt (of_int 0) (dyadic 1 (-600)) = true) by (vm_compute; reflexivity). assert (PB : flt (of_int 0) (dyadic 1 600) = true) by (vm_compute; reflexivity).
  apply (flt_R _ _ F0 FS) in PS. apply (flt_R _ _ F0 FB) in PB. rewrite E0 in PS, PB. do 2 (split; [exact F0|]). split; [exact FS|]. split; [exact PS|]. do 2 (split; [exact F0|]). split; [exact FB|]. split; [exact PB|]. do 2 (split; [exact E0|]).
  intros ft E _. unfold vec2pix_ring, vec2pix_nest, vec2pix_ring64, vec2pix_nest64. rewrite E. repeat split; vm_compute; reflexivity.
Qed.
