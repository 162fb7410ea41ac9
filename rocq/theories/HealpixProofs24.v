(** Every direction has a pixel number of the ring scheme in range, except for nside 2. *)
From Coq Require Import ZArith List Bool Reals Lra Lia Psatz.
From Flocq Require Import Core IEEE754.BinarySingleNaN.
From Verif Require Import CLib FloatModel FloatLemmas GeoLemmas TleProofs3 PipeProofs5 CalendarProofs2 CalendarProofs3 CalendarProofs4.
From Verif Require Import HealpixModel HealpixSpec HealpixAngModel HealpixRealModel HealpixFloatModel HealpixFloatSpec HealpixAng64Model HealpixAng64Spec HealpixVecModel HealpixVecSpec HealpixProofs1 HealpixProofs2 HealpixProofs3 HealpixProofs4 HealpixProofs5 HealpixProofs6 HealpixProofs7 HealpixProofs8 HealpixProofs9 HealpixProofs10 HealpixProofs11 HealpixProofs12 HealpixProofs13 HealpixProofs14 HealpixProofs15 HealpixProofs16 HealpixProofs17 HealpixProofs18 HealpixProofs19 HealpixProofs20 HealpixProofs21 HealpixProofs22 HealpixProofs23.
Import ListNotations.
Open Scope R_scope.

Lemma imodulo_range v m : (0 < m)%Z -> (0 <= imodulo v m < m)%Z.
Proof. intros H. unfold imodulo. assert (B := Z.rem_bound_abs v m ltac:(lia)). destruct (Z.leb_spec 0 (Z.rem v m)); lia. Qed.
Lemma trunc_low x : -1 < x -> (0 <= Ztrunc x)%Z /\ x - 1 < IZR (Ztrunc x) /\ (IZR (Ztrunc x) <= x \/ Ztrunc x = 0%Z).
Proof.
  intros H. destruct (trunc_bounds x) as [A B]. destruct (Rle_lt_dec 0 x) as [P|P].
  - specialize (A P). assert (Z : (0 <= Ztrunc x)%Z) by (assert (-1 < Ztrunc x)%Z; [apply lt_IZR; lra|lia]). split; [exact Z|]. split; [lra|left; lra].
  - specialize (B (Rlt_le _ _ P)). assert (Z : Ztrunc x = 0%Z) by (assert (-1 < Ztrunc x < 1)%Z; [split; apply lt_IZR; lra|lia]). rewrite Z. split; [lia|]. split; [lra|now right].
Qed.
Lemma to_int_small x M : fin x -> -1 < toR x <= M -> M <= 2000000000 -> to_int x = Ok (Ztrunc (toR x)).
Proof. intros F H L. apply to_int_R; [exact F|]. destruct (trunc_low (toR x) (proj1 H)) as (Z & _ & [U|U]); [|lia]. split; [lia|]. apply le_IZR. lra. Qed.
Lemma to_long_small x M : fin x -> -1 < toR x <= M -> M <= 1000000000000000000 -> to_long x = Ok (Ztrunc (toR x)).
Proof. intros F H L. apply to_long_R; [exact F|]. unfold long_max. destruct (trunc_low (toR x) (proj1 H)) as (Z & _ & [U|U]); [|lia]. split; [lia|]. apply le_IZR. lra. Qed.
Lemma bp24 : bpow radix2 (-24) = / 16777216. Proof. now rewrite bpow_neg. Qed.

(** The belt. *)
Section Belt.
Context (n : Z) (z phi : b64) (Hn : (1 <= n <= 536870912)%Z) (Fz : fin z) (Fp : fin phi) (C : fle (Babs z) twothird = true).
Let tt := fmul (fmodulo phi twopi) inv_halfpi.
Let temp1 := fmul (of_int n) (fadd (lit 1 2) tt).
Let temp2 := fmul (fmul (of_int n) z) (lit 3 4).
Let N := IZR n.
Lemma N_range : 1 <= N <= 536870912. Proof. unfold N. split; apply IZR_le; lia. Qed.
Lemma belt_height_le : Rabs (toR z) <= toR twothird.
Proof. assert (FA : fin (Babs z)) by (unfold fin; rewrite is_finite_Babs; exact Fz). apply fle_R in C; [|exact FA|apply twothird_R]. rewrite B2R_Babs in C. exact C. Qed.
Lemma lines_near : near (fsub temp1 temp2) (N * (1 / 2 + toR tt) - N * toR z * (3 / 4)) (1 / 10 ^ 5) /\ near (fadd temp1 temp2) (N * (1 / 2 + toR tt) + N * toR z * (3 / 4)) (1 / 10 ^ 5)
  /\ 0 <= toR tt <= 4 /\ Rabs (toR z) <= 2 / 3.
Proof.
  destruct (turn_R phi Fp) as (FT & BT & _). fold tt in FT, BT. assert (B := belt_height_le). rewrite (proj2 twothird_R) in B. assert (ZB : Rabs (toR z) <= 2 / 3) by lra. assert (NR := N_range).
  assert (HT : 0 <= toR tt <= 4) by lra. assert (NT := near_exact tt FT). assert (NZ := near_exact z Fz).
  assert (NU := near_add _ _ _ _ _ _ 3 half_near NT ltac:(lia)). rewrite bp3 in NU. specialize (NU ltac:(rewrite !Rabs_pos_eq; lra)). change (3 - 54)%Z with (-51)%Z in NU. rewrite bp51 in NU.
  assert (NN := near_int n ltac:(lia)). fold N in NN.
  assert (T1 := near_mul _ _ _ _ _ _ 536870912 5 32 NN NU ltac:(lia)). rewrite bp32 in T1. specialize (T1 ltac:(rewrite Rabs_pos_eq; lra) ltac:(rewrite Rabs_pos_eq; lra) ltac:(lra)). change (32 - 54)%Z with (-22)%Z in T1. rewrite bp22 in T1. fold temp1 in T1.
  assert (NM := near_mul _ _ _ _ _ _ 536870912 1 30 NN NZ ltac:(lia)). change (bpow radix2 30) with 1073741824 in NM. specialize (NM ltac:(rewrite Rabs_pos_eq; lra) ltac:(lra) ltac:(lra)). change (30 - 54)%Z with (-24)%Z in NM. rewrite bp24 in NM.
  assert (N34 : near (lit 3 4) (3 / 4) 0) by (destruct lit34 as [F E]; split; [exact F|rewrite E, Rminus_eq_0, Rabs_R0; lra]).
  assert (MB : Rabs (N * toR z) <= 536870912) by (rewrite Rabs_mult, (Rabs_pos_eq N) by lra; assert (N * Rabs (toR z) <= 536870912 * 1) by (apply Rmult_le_compat; try apply Rabs_pos; lra); lra).
  assert (T2 := near_mul _ _ _ _ _ _ 536870912 (3 / 4) 30 NM N34 ltac:(lia)). change (bpow radix2 30) with 1073741824 in T2. specialize (T2 MB ltac:(rewrite Rabs_pos_eq; lra) ltac:(lra)). change (30 - 54)%Z with (-24)%Z in T2. rewrite bp24 in T2. fold temp2 in T2.
  assert (X1 : Rabs (N * (1 / 2 + toR tt)) <= 2684354560) by (rewrite Rabs_pos_eq by (apply Rmult_le_pos; lra); assert (N * (1 / 2 + toR tt) <= 536870912 * (9 / 2)) by (apply Rmult_le_compat; lra); lra).
  assert (X2 : Rabs (N * toR z * (3 / 4)) <= 536870912) by (rewrite Rabs_mult, (Rabs_pos_eq (3 / 4)) by lra; lra).
  assert (A := near_sub _ _ _ _ _ _ 32 T1 T2 ltac:(lia)). rewrite bp32 in A. specialize (A ltac:(lra)). change (32 - 54)%Z with (-22)%Z in A. rewrite bp22 in A.
  assert (D := near_add _ _ _ _ _ _ 32 T1 T2 ltac:(lia)). rewrite bp32 in D. specialize (D ltac:(lra)). change (32 - 54)%Z with (-22)%Z in D. rewrite bp22 in D.
  split; [eapply near_weak; [exact A|lra]|]. split; [eapply near_weak; [exact D|lra]|]. split; [exact HT|exact ZB].
Qed.
Lemma lines_ok : let jp := Ztrunc (toR (fsub temp1 temp2)) in let jm := Ztrunc (toR (fadd temp1 temp2)) in
  fin (fsub temp1 temp2) /\ fin (fadd temp1 temp2) /\ -1 < toR (fsub temp1 temp2) <= 6 * N /\ -1 < toR (fadd temp1 temp2) <= 6 * N /\ (0 <= jp)%Z /\ (0 <= jm)%Z /\ (Z.abs (jp - jm) <= n + 1)%Z.
Proof.
  intros jp jm. destruct lines_near as ([FA NA] & [FB NB] & HT & ZB). assert (NR := N_range). apply Rabs_le_inv in NA, NB. set (a := toR (fsub temp1 temp2)) in *. set (b := toR (fadd temp1 temp2)) in *.
  assert (Y : - (N / 2) <= N * toR z * (3 / 4) <= N / 2) by (apply Rabs_le_inv; rewrite !Rabs_mult, (Rabs_pos_eq N), (Rabs_pos_eq (3 / 4)) by lra; assert (N * Rabs (toR z) <= N * (2 / 3)) by (apply Rmult_le_compat_l; lra); lra).
  assert (XB : N / 2 <= N * (1 / 2 + toR tt) <= 9 / 2 * N) by (split; [assert (N * (1 / 2) <= N * (1 / 2 + toR tt)) by (apply Rmult_le_compat_l; lra); lra|assert (N * (1 / 2 + toR tt) <= N * (9 / 2)) by (apply Rmult_le_compat_l; lra); lra]).
  set (X := N * (1 / 2 + toR tt)) in *. set (V := N * toR z * (3 / 4)) in *.
  assert (A1 : -1 < a <= 6 * N) by lra. assert (B1 : -1 < b <= 6 * N) by lra. destruct (trunc_low a (proj1 A1)) as (ZA & LA & UA). destruct (trunc_low b (proj1 B1)) as (ZB' & LB & UB). fold jp in ZA, LA, UA. fold jm in ZB', LB, UB.
  split; [exact FA|]. split; [exact FB|]. split; [exact A1|]. split; [exact B1|]. split; [exact ZA|]. split; [exact ZB'|].
  assert (P1 : (jp - jm < n + 2)%Z). { destruct UA as [UA|UA]; [|lia]. apply lt_IZR. rewrite minus_IZR, plus_IZR. fold N. lra. }
  assert (P2 : (jm - jp < n + 2)%Z). { destruct UB as [UB|UB]; [|lia]. apply lt_IZR. rewrite minus_IZR, plus_IZR. fold N. lra. }
  lia.
Qed.
Lemma number_ok ir ip : (3 <= n)%Z -> (0 <= ir <= 2 * n + 2)%Z -> (0 <= ip < 4 * n)%Z -> valid_pixel n (n * (n - 1) * 2 + (ir - 1) * 4 * n + ip).
Proof. intros H3 H1 H2. unfold valid_pixel. assert (0 <= ir * n <= (2 * n + 2) * n)%Z by (split; [apply Z.mul_nonneg_nonneg; lia|apply Z.mul_le_mono_nonneg_r; lia]). assert (3 * n <= n * n)%Z by (apply Z.mul_le_mono_nonneg_r; lia). split; nia. Qed.
End Belt.

(** nside 1: the last binary place decides. *)
Lemma half_step u t : 1 / 2 <= toR u <= 9 / 2 -> 0 <= t <= 1 / 2 -> (Ztrunc (RN (toR u + t)) - Ztrunc (RN (toR u - t)) <= 1)%Z.
Proof.
  intros HU HT. set (x := toR u) in *. assert (A0 : 0 <= RN (x - t)) by (apply (RN_int_ge _ 0); [lia|lra]). assert (B0 : 0 <= RN (x + t)) by (apply (RN_int_ge _ 0); [lia|lra]).
  assert (B5 : RN (x + t) <= 5) by (apply (RN_int_le _ 5); [lia|lra]). destruct (trunc_bounds (RN (x - t))) as [TA _]. specialize (TA A0). destruct (trunc_bounds (RN (x + t))) as [TB _]. specialize (TB B0).
  set (m := Ztrunc (RN (x - t))) in *. set (q := Ztrunc (RN (x + t))) in *. destruct (Z.le_gt_cases (q - m) 1) as [|W]; [assumption|exfalso].
  assert (M0 : (0 <= m)%Z) by (assert (-1 < m)%Z; [apply lt_IZR; lra|lia]). assert (Q5 : (q <= 5)%Z) by (apply le_IZR; lra). assert (QN : IZR (m + 2) <= IZR q) by (apply IZR_le; lia). rewrite plus_IZR in QN.
  assert (L1 : x - t < IZR m + 1). { destruct (Rlt_le_dec (x - t) (IZR m + 1)) as [|G]; [assumption|exfalso]. assert (IZR (m + 1) <= RN (x - t)) by (apply RN_int_ge; [lia|rewrite plus_IZR; lra]). rewrite plus_IZR in *. lra. }
  assert (XL : x < IZR m + 3 / 2) by lra.
  assert (K : forall e c : Z, (0 <= e <= 2)%Z -> IZR c = (IZR m + 3 / 2) * bpow radix2 (52 - e) -> bpow radix2 e <= x \/ x <= IZR (c - 1) * bpow radix2 (e - 52) -> (IZR (c - 1) + bpow radix2 (51 - e)) * bpow radix2 (e - 52) < IZR m + 2 -> (Z.abs (c - 1 + 2 ^ (51 - e)) <= 2 ^ 53)%Z -> RN (x + t) < IZR m + 2).
  { intros e c He Ec Hx Lt Ab. assert (PB := bpow_gt_0 radix2 (e - 52)). assert (UP : x <= IZR (c - 1) * bpow radix2 (e - 52)).
    { destruct Hx as [Hx|Hx]; [|exact Hx]. destruct (b64_fx u e) as [a A]; [fold x; rewrite Rabs_pos_eq; lra|lia|]. unfold fx in A. fold x in A. assert (AC : IZR a < IZR c).
      { apply Rmult_lt_reg_r with (bpow radix2 (e - 52)); [exact PB|]. rewrite Ec, <- A, Rmult_assoc, <- bpow_plus. replace (52 - e + (e - 52))%Z with 0%Z by lia. change (bpow radix2 0) with 1. lra. }
      apply lt_IZR in AC. rewrite A. apply Rmult_le_compat_r; [lra|]. apply IZR_le. lia. }
    assert (H2 : bpow radix2 (51 - e) * bpow radix2 (e - 52) = 1 / 2) by (rewrite <- bpow_plus; replace (51 - e + (e - 52))%Z with (-1)%Z by lia; change (bpow radix2 (-1)) with (/ 2); lra).
    apply Rle_lt_trans with ((IZR (c - 1) + bpow radix2 (51 - e)) * bpow radix2 (e - 52)); [|exact Lt]. apply (RN_ub (e - 52) (c - 1 + 2 ^ (51 - e))); [lia| |exact Ab|rewrite Rmult_plus_distr_r, H2; lra].
    unfold fx. rewrite plus_IZR. f_equal. f_equal. rewrite power_R by lia. reflexivity. }
  assert (MC : (m = 0 \/ m = 1 \/ m = 2 \/ m = 3)%Z) by lia. assert (E : RN (x + t) < IZR m + 2); [|lra].
  destruct MC as [E|[E|[E|E]]]; rewrite E in *.
  - apply (K 0%Z 6755399441055744%Z); [lia|change (52 - 0)%Z with 52%Z; change (bpow radix2 52) with 4503599627370496; lra| |change (51 - 0)%Z with 51%Z; change (0 - 52)%Z with (-52)%Z; rewrite bpow_neg; change (bpow radix2 51) with 2251799813685248; change (IZR (2 ^ 52)) with 4503599627370496; change (6755399441055744 - 1)%Z with 6755399441055743%Z; lra|lia].
    change (bpow radix2 0) with 1. destruct (Rle_lt_dec 1 x); [left; lra|right]. change (0 - 52)%Z with (-52)%Z. rewrite bpow_neg. change (IZR (2 ^ 52)) with 4503599627370496. change (6755399441055744 - 1)%Z with 6755399441055743%Z. lra.
  - apply (K 1%Z 5629499534213120%Z); [lia|change (52 - 1)%Z with 51%Z; change (bpow radix2 51) with 2251799813685248; lra| |change (51 - 1)%Z with 50%Z; change (1 - 52)%Z with (-51)%Z; rewrite bp51; change (bpow radix2 50) with 1125899906842624; change (5629499534213120 - 1)%Z with 5629499534213119%Z; lra|lia].
    change (bpow radix2 1) with 2. destruct (Rle_lt_dec 2 x); [left; lra|right]. change (1 - 52)%Z with (-51)%Z. rewrite bp51. change (5629499534213120 - 1)%Z with 5629499534213119%Z. lra.
  - apply (K 1%Z 7881299347898368%Z); [lia|change (52 - 1)%Z with 51%Z; change (bpow radix2 51) with 2251799813685248; lra| |change (51 - 1)%Z with 50%Z; change (1 - 52)%Z with (-51)%Z; rewrite bp51; change (bpow radix2 50) with 1125899906842624; change (7881299347898368 - 1)%Z with 7881299347898367%Z; lra|lia].
    change (bpow radix2 1) with 2. destruct (Rle_lt_dec 2 x); [left; lra|right]. change (1 - 52)%Z with (-51)%Z. rewrite bp51. change (7881299347898368 - 1)%Z with 7881299347898367%Z. lra.
  - apply (K 2%Z 5066549580791808%Z); [lia|change (52 - 2)%Z with 50%Z; change (bpow radix2 50) with 1125899906842624; lra| |change (51 - 2)%Z with 49%Z; change (2 - 52)%Z with (-50)%Z; rewrite bp50; change (bpow radix2 49) with 562949953421312; change (5066549580791808 - 1)%Z with 5066549580791807%Z; lra|lia].
    change (bpow radix2 2) with 4. destruct (Rle_lt_dec 4 x); [left; lra|right]. change (2 - 52)%Z with (-50)%Z. rewrite bp50. change (5066549580791808 - 1)%Z with 5066549580791807%Z. lra.
Qed.
Lemma RN_self (x : b64) : RN (toR x) = toR x. Proof. apply round_generic; [auto with typeclass_instances|apply generic_format_B2R]. Qed.
Lemma one_times x : fin x -> Rabs (toR x) <= 8 -> fin (fmul (of_int 1) x) /\ toR (fmul (of_int 1) x) = toR x.
Proof.
  intros F B. destruct (of_int_R 1 ltac:(lia)) as [F1 E1]. destruct (fmul_R (of_int 1) x 3 F1 F ltac:(lia)) as [G E]; [rewrite E1, bp3, Rmult_1_l; exact B|]. split; [exact G|]. rewrite E, E1, Rmult_1_l. apply RN_self.
Qed.
Lemma one_lines z phi : fin z -> fin phi -> fle (Babs z) twothird = true ->
  let tt := fmul (fmodulo phi twopi) inv_halfpi in let temp1 := fmul (of_int 1) (fadd (lit 1 2) tt) in let temp2 := fmul (fmul (of_int 1) z) (lit 3 4) in
  (Z.abs (Ztrunc (toR (fsub temp1 temp2)) - Ztrunc (toR (fadd temp1 temp2))) <= 1)%Z.
Proof.
  intros Fz Fp C tt temp1 temp2. assert (BZ := belt_height_le z Fz C). assert (E23 := proj2 twothird_R). destruct (turn_R phi Fp) as (FT & BT & _). fold tt in FT, BT. destruct half_R' as [FH EH].
  destruct (fadd_R (lit 1 2) tt 3 FH FT ltac:(lia)) as [FU EU]; [rewrite EH, bp3; apply Rabs_le; lra|]. set (u := fadd (lit 1 2) tt) in *. assert (UB : 1 / 2 <= toR u <= 9 / 2).
  { rewrite EU, EH. assert (H2 : RN (1 / 2) = 1 / 2) by (apply (RN_fx (-1) 1); [lia|unfold fx; change (bpow radix2 (-1)) with (/ 2); lra|lia]). assert (H9 : RN (9 / 2) = 9 / 2) by (apply (RN_fx (-1) 9); [lia|unfold fx; change (bpow radix2 (-1)) with (/ 2); lra|lia]). split; [rewrite <- H2 at 1|rewrite <- H9]; apply RN_le; lra. }
  destruct (one_times u FU ltac:(apply Rabs_le; lra)) as [F1 E1]. fold temp1 in F1, E1. assert (ZB := Rabs_le_inv _ _ BZ). destruct (one_times z Fz ltac:(apply Rabs_le; lra)) as [F2 E2]. destruct lit34 as [F34 E34].
  destruct (fmul_R (fmul (of_int 1) z) (lit 3 4) 3 F2 F34 ltac:(lia)) as [F3 E3]; [rewrite E2, E34, bp3; apply Rabs_le; lra|]. fold temp2 in F3, E3. rewrite E2, E34 in E3.
  assert (H2 : RN (1 / 2) = 1 / 2) by (apply (RN_fx (-1) 1); [lia|unfold fx; change (bpow radix2 (-1)) with (/ 2); lra|lia]). assert (H2' : RN (- (1 / 2)) = - (1 / 2)) by (apply (RN_fx (-1) (-1)); [lia|unfold fx; change (bpow radix2 (-1)) with (/ 2); lra|lia]).
  assert (TB : - (1 / 2) <= toR temp2 <= 1 / 2) by (rewrite E3; split; [rewrite <- H2'|rewrite <- H2]; apply RN_le; lra).
  destruct (fsub_R temp1 temp2 3 F1 F3 ltac:(lia)) as [_ EA]; [rewrite E1, bp3; apply Rabs_le; lra|]. destruct (fadd_R temp1 temp2 3 F1 F3 ltac:(lia)) as [_ EB]; [rewrite E1, bp3; apply Rabs_le; lra|]. rewrite EA, EB, E1.
  destruct (Rle_lt_dec 0 (toR temp2)) as [P|P].
  - assert (S := half_step u (toR temp2) UB ltac:(lra)). assert (LE : RN (toR u - toR temp2) <= RN (toR u + toR temp2)) by (apply RN_le; lra). apply Ztrunc_le in LE. lia.
  - assert (S := half_step u (- toR temp2) UB ltac:(lra)). replace (toR u + - toR temp2) with (toR u - toR temp2) in S by ring. replace (toR u - - toR temp2) with (toR u + toR temp2) in S by ring. assert (LE : RN (toR u + toR temp2) <= RN (toR u - toR temp2)) by (apply RN_le; lra). apply Ztrunc_le in LE. lia.
Qed.
Lemma belt_number n z phi : (1 <= n <= 536870912)%Z -> n <> 2%Z -> fin z -> fin phi -> fle (Babs z) twothird = true ->
  let tt := fmul (fmodulo phi twopi) inv_halfpi in let temp1 := fmul (of_int n) (fadd (lit 1 2) tt) in let temp2 := fmul (fmul (of_int n) z) (lit 3 4) in
  let jp := Ztrunc (toR (fsub temp1 temp2)) in let jm := Ztrunc (toR (fadd temp1 temp2)) in
  let ir := (n + 1 + jp - jm)%Z in forall v, valid_pixel n (n * (n - 1) * 2 + (ir - 1) * 4 * n + imodulo v (4 * n)).
Proof.
  intros Hn N2 Fz Fp C tt temp1 temp2 jp jm ir v. assert (L := lines_ok n z phi Hn Fz Fp C). cbv zeta in L. fold tt temp1 temp2 jp jm in L. destruct L as (_ & _ & _ & _ & _ & _ & D). assert (I := imodulo_range v (4 * n) ltac:(lia)).
  destruct (Z.eq_dec n 1) as [E|N1].
  - subst n. assert (D1 := one_lines z phi Fz Fp C). cbv zeta in D1. fold tt temp1 temp2 jp jm in D1. unfold valid_pixel, ir. lia.
  - apply number_ok; [lia|lia|unfold ir; lia|exact I].
Qed.

(** The caps. *)
Lemma cap_sum n tt tmp : (1 <= n <= 536870912)%Z -> fin tt -> 0 <= toR tt < 4 -> fin tmp -> 0 <= toR tmp <= IZR n + 1 / 100 ->
  let q := Ztrunc (toR tt) in let tp := fsub tt (of_int q) in let a := fmul tp tmp in let b := fmul (fsub (of_int 1) tp) tmp in
  to_int tt = Ok q /\ fin a /\ fin b /\ -1 < toR a <= 2 * IZR n /\ -1 < toR b <= 2 * IZR n /\ (0 <= Ztrunc (toR a))%Z /\ (0 <= Ztrunc (toR b))%Z /\ (Ztrunc (toR a) + Ztrunc (toR b) <= n)%Z.
Proof.
  intros Hn FT BT FM BM q tp a b. destruct (of_int_R 1) as [F1 E1]; [lia|]. destruct (trunc_to_int tt 3 FT) as (q' & Eq & Bq & Tq); [lia|lra|lra|]. fold q in Tq. rewrite Tq in Eq, Bq. clear q' Tq. split; [exact Eq|]. assert (NB : 1 <= IZR n <= 536870912) by (split; apply IZR_le; lia).
  destruct (trunc_bounds (toR tt)) as [TB _]. specialize (TB (proj1 BT)). fold q in TB. destruct (of_int_R q) as [FQ EQ]; [lia|].
  destruct (fsub_R tt (of_int q) 3 FT FQ) as [FP EP]; [lia|rewrite EQ, bp3; apply Rabs_le; lra|]. fold tp in FP, EP. rewrite EQ in EP.
  assert (P1: 0 <= toR tp <= 1) by (rewrite EP; split; [apply (RN_int_ge _ 0)|apply (RN_int_le _ 1)]; [lia|lra|lia|lra]).
  destruct (fsub_R (of_int 1) tp 1 F1 FP) as [FW EW]; [lia|rewrite E1; change (bpow radix2 1) with 2; apply Rabs_le; lra|]. set (tm := fsub (of_int 1) tp) in *. rewrite E1 in EW.
  assert (M1: 0 <= toR tm <= 1) by (rewrite EW; split; [apply (RN_int_ge _ 0)|apply (RN_int_le _ 1)]; [lia|lra|lia|lra]).
  assert (WE : toR tm <= 1 - toR tp + / 9007199254740992). { rewrite EW. assert (X := RN_err (1 - toR tp) 1 ltac:(lia)). change (bpow radix2 1) with 2 in X. specialize (X ltac:(apply Rabs_le; lra)). change (1 - 54)%Z with (-53)%Z in X. rewrite bp53 in X. apply Rabs_le_inv in X. lra. }
  assert (K : forall w, fin w -> 0 <= toR w <= 1 -> fin (fmul w tmp) /\ 0 <= toR (fmul w tmp) <= toR w * toR tmp + / 16777216).
  { intros w Fw Bw. assert (PR : 0 <= toR w * toR tmp) by (apply Rmult_le_pos; lra). assert (PU : toR w * toR tmp <= 1 * toR tmp) by (apply Rmult_le_compat_r; lra). destruct (fmul_R w tmp 30 Fw FM ltac:(lia)) as [F E]; [change (bpow radix2 30) with 1073741824; rewrite Rabs_pos_eq; lra|]. split; [exact F|]. rewrite E. split; [apply (RN_int_ge _ 0); [lia|lra]|].
    assert (X := RN_err (toR w * toR tmp) 30 ltac:(lia)). change (bpow radix2 30) with 1073741824 in X. specialize (X ltac:(rewrite Rabs_pos_eq; lra)). change (30 - 54)%Z with (-24)%Z in X. rewrite bp24 in X. apply Rabs_le_inv in X. lra. }
  destruct (K tp FP P1) as [FA BA]. destruct (K tm FW M1) as [FB BB]. fold a in FA, BA. fold b in FB, BB. assert (PA : toR tp * toR tmp <= 1 * toR tmp) by (apply Rmult_le_compat_r; lra). assert (PB : toR tm * toR tmp <= 1 * toR tmp) by (apply Rmult_le_compat_r; lra).
  split; [exact FA|]. split; [exact FB|]. split; [lra|]. split; [lra|]. destruct (trunc_low (toR a) ltac:(lra)) as (ZA & _ & UA). destruct (trunc_low (toR b) ltac:(lra)) as (ZB & _ & UB). split; [exact ZA|]. split; [exact ZB|].
  assert (TA : IZR (Ztrunc (toR a)) <= toR a) by (destruct UA as [UA|UA]; [exact UA|rewrite UA; lra]). assert (TBB : IZR (Ztrunc (toR b)) <= toR b) by (destruct UB as [UB|UB]; [exact UB|rewrite UB; lra]).
  assert (S : toR tp * toR tmp + toR tm * toR tmp <= (1 + / 9007199254740992) * toR tmp) by (rewrite <- Rmult_plus_distr_r; apply Rmult_le_compat_r; lra).
  assert (W : (Ztrunc (toR a) + Ztrunc (toR b) < n + 1)%Z) by (apply lt_IZR; rewrite !plus_IZR; lra). lia.
Qed.
Lemma cap_number n ir v (north : bool) : (1 <= n)%Z -> (1 <= ir <= n + 1)%Z -> valid_pixel n (if north then 2 * ir * (ir - 1) + imodulo v (4 * ir) else 12 * n * n - 2 * ir * (ir + 1) + imodulo v (4 * ir))%Z.
Proof.
  intros Hn Hi. assert (I := imodulo_range v (4 * ir) ltac:(lia)). set (k := imodulo v (4 * ir)) in *. clearbody k. assert (A : (ir * ir <= (n + 1) * (n + 1))%Z) by (apply Z.mul_le_mono_nonneg; lia). assert (B : (n <= n * n)%Z) by nia. assert (D : (ir <= ir * ir)%Z) by nia. unfold valid_pixel. destruct north; split; nia.
Qed.
Lemma root_ok z : fin z -> Rabs (toR z) <= 1 -> fle (Babs z) twothird = false -> let r := fsqrt (fmul (of_int 3) (fsub (of_int 1) (Babs z))) in fin r /\ 0 <= toR r <= 1 + 1 / 10 ^ 13.
Proof.
  intros Fz Z1 C r. destruct twothird_R as [F23 E23]. assert (FA: fin (Babs z)) by (unfold fin; rewrite is_finite_Babs; exact Fz). apply fle_false in C; [|assumption..]. rewrite B2R_Babs, E23 in C. set (za := Rabs (toR z)) in *.
  destruct (of_int_R 1) as [F1 E1]; [lia|]. destruct (of_int_R 3) as [F3 E3]; [lia|].
  destruct (fsub_R (of_int 1) (Babs z) 1 F1 FA) as [FD ED]; [lia|rewrite E1, B2R_Babs; fold za; change (bpow radix2 1) with 2; apply Rabs_le; lra|]. set (d := fsub (of_int 1) (Babs z)) in *. rewrite E1, B2R_Babs in ED. fold za in ED.
  assert (X := RN_err (1 - za) 1 ltac:(lia)). change (bpow radix2 1) with 2 in X. specialize (X ltac:(apply Rabs_le; lra)). change (1 - 54)%Z with (-53)%Z in X. rewrite bp53, <- ED in X. apply Rabs_le_inv in X.
  assert (D0 : 0 <= toR d) by (rewrite ED; apply (RN_int_ge _ 0); [lia|lra]).
  destruct (fmul_R (of_int 3) d 1 F3 FD) as [F3D E3D]; [lia|rewrite E3; change (bpow radix2 1) with 2; apply Rabs_le; lra|]. set (g := fmul (of_int 3) d) in *. rewrite E3 in E3D.
  assert (Y := RN_err (3 * toR d) 1 ltac:(lia)). change (bpow radix2 1) with 2 in Y. specialize (Y ltac:(apply Rabs_le; lra)). change (1 - 54)%Z with (-53)%Z in Y. rewrite bp53, <- E3D in Y. apply Rabs_le_inv in Y.
  assert (G0 : 0 <= toR g) by (rewrite E3D; apply (RN_int_ge _ 0); [lia|lra]). destruct (fsqrt_R g F3D G0) as [FR ER]. fold r in FR, ER. split; [exact FR|]. assert (S0 := sqrt_pos (toR g)).
  assert (S1 : sqrt (toR g) <= 1 + 1 / 10 ^ 14) by (apply sqrt_le_of; lra). rewrite ER. split; [apply (RN_int_ge _ 0); [lia|exact S0]|].
  assert (W := RN_err (sqrt (toR g)) 1 ltac:(lia)). change (bpow radix2 1) with 2 in W. specialize (W ltac:(rewrite Rabs_pos_eq; lra)). change (1 - 54)%Z with (-53)%Z in W. rewrite bp53 in W. apply Rabs_le_inv in W. lra.
Qed.
Lemma rings_ok n r : (1 <= n <= 536870912)%Z -> fin r -> 0 <= toR r <= 1 + 1 / 10 ^ 13 -> fin (fmul (of_int n) r) /\ 0 <= toR (fmul (of_int n) r) <= IZR n + 1 / 1000.
Proof.
  intros Hn F B. destruct (of_int_R n ltac:(lia)) as [FN EN]. assert (NB : 1 <= IZR n <= 536870912) by (split; apply IZR_le; lia). assert (P0 : 0 <= IZR n * toR r) by (apply Rmult_le_pos; lra). assert (P1 : IZR n * toR r <= IZR n * (1 + 1 / 10 ^ 13)) by (apply Rmult_le_compat_l; lra).
  destruct (fmul_R (of_int n) r 30 FN F ltac:(lia)) as [G E]; [rewrite EN; change (bpow radix2 30) with 1073741824; rewrite Rabs_pos_eq; lra|]. split; [exact G|]. rewrite E, EN. split; [apply (RN_int_ge _ 0); [lia|lra]|].
  assert (X := RN_err (IZR n * toR r) 30 ltac:(lia)). change (bpow radix2 30) with 1073741824 in X. specialize (X ltac:(rewrite Rabs_pos_eq; lra)). change (30 - 54)%Z with (-24)%Z in X. rewrite bp24 in X. apply Rabs_le_inv in X. lra.
Qed.
Lemma turn_times tt ir : fin tt -> 0 <= toR tt < 4 -> (1 <= ir <= 536870913)%Z -> fin (fmul tt (of_int ir)) /\ -1 < toR (fmul tt (of_int ir)) <= 5 * IZR ir.
Proof.
  intros F B Hi. destruct (of_int_R ir ltac:(lia)) as [FI EI]. assert (IB : 1 <= IZR ir <= 536870913) by (split; apply IZR_le; lia). assert (P0 : 0 <= toR tt * IZR ir) by (apply Rmult_le_pos; lra). assert (P1 : toR tt * IZR ir <= 4 * IZR ir) by (apply Rmult_le_compat_r; lra).
  destruct (fmul_R tt (of_int ir) 32 F FI ltac:(lia)) as [G E]; [rewrite EI, bp32, Rabs_pos_eq; lra|]. split; [exact G|]. rewrite E, EI. assert (X := RN_err (toR tt * IZR ir) 32 ltac:(lia)). rewrite bp32 in X. specialize (X ltac:(rewrite Rabs_pos_eq; lra)). change (32 - 54)%Z with (-22)%Z in X. rewrite bp22 in X. apply Rabs_le_inv in X. lra.
Qed.

Lemma ring_valid n z phi : (1 <= n)%Z -> (12 * n * n < 2147483648)%Z -> n <> 2%Z -> fin z -> fin phi -> Rabs (toR z) <= 1 -> exists p, ang2pix_ring_z_phi n z phi = Ok p /\ valid_pixel n p.
Proof.
  intros H1 H2 N2 Fz Fp Z1. assert (Hn := small_side n H1 H2). assert (Hn' : (1 <= n <= 536870912)%Z) by lia. assert (NB : 1 <= IZR n <= 13377) by (split; apply IZR_le; lia). unfold ang2pix_ring_z_phi. destruct (fle (Babs z) twothird) eqn:C.
  - assert (L := lines_ok n z phi Hn' Fz Fp C). cbv zeta in L. destruct L as (FA & FB & BA & BB & _). rewrite (to_int_small _ _ FA BA), (to_int_small _ _ FB BB) by lra. cbn [bind]. eexists. split; [reflexivity|]. exact (belt_number n z phi Hn' N2 Fz Fp C _).
  - destruct (turn_R phi Fp) as (FT & BT & _). set (tt := fmul (fmodulo phi twopi) inv_halfpi) in *. destruct (root_ok z Fz Z1 C) as [FR BR]. destruct (rings_ok n _ Hn' FR BR) as [FM BM]. set (tmp := fmul (of_int n) _) in *.
    assert (S := cap_sum n tt tmp Hn' FT ltac:(lra) FM ltac:(lra)). cbv zeta in S. destruct S as (-> & FA & FB & BA & BB & ZA & ZB & SU). cbn [bind]. rewrite (to_int_small _ _ FA BA) by lra. cbn [bind]. rewrite (to_int_small _ _ FB BB) by lra. cbn [bind].
    set (ir := (Ztrunc _ + Ztrunc _ + 1)%Z). assert (HI : (1 <= ir <= n + 1)%Z) by (unfold ir; lia). destruct (turn_times tt ir FT ltac:(lra) ltac:(lia)) as [FI BI]. assert (IB : IZR ir <= 13378) by (apply IZR_le; lia). rewrite (to_int_small _ _ FI BI) by lra. cbn [bind]. eexists. split; [reflexivity|]. apply cap_number; [lia|exact HI].
Qed.
Lemma ring_valid64 n z s phi : (1 <= n <= 2 ^ 29)%Z -> n <> 2%Z -> fin z -> fin phi -> Rabs (toR z) <= 1 -> s = of_int (-5) \/ (fin s /\ 0 <= toR s <= 1 / 5) -> exists p, ang2pix_ring_z_phi64 n z s phi = Ok p /\ valid_pixel n p.
Proof.
  intros Hn N2 Fz Fp Z1 HS. change (2 ^ 29)%Z with 536870912%Z in Hn. assert (NB : 1 <= IZR n <= 536870912) by (split; apply IZR_le; lia). unfold ang2pix_ring_z_phi64. destruct (fle (Babs z) twothird) eqn:C.
  - assert (L := lines_ok n z phi Hn Fz Fp C). cbv zeta in L. destruct L as (FA & FB & BA & BB & _). rewrite (to_long_small _ _ FA BA), (to_long_small _ _ FB BB) by lra. cbn [bind]. eexists. split; [reflexivity|]. exact (belt_number n z phi Hn N2 Fz Fp C _).
  - destruct (turn_R phi Fp) as (FT & BT & _). set (tt := fmul (fmodulo phi twopi) inv_halfpi) in *.
    assert (TM : fin (cap_rings64 (of_int n) z s) /\ 0 <= toR (cap_rings64 (of_int n) z s) <= IZR n + 1 / 1000).
    { unfold cap_rings64. destruct HS as [-> |[FS BS]].
      - replace (flt (of_int (-2)) (of_int (-5))) with false by (vm_compute; reflexivity). destruct (root_ok z Fz Z1 C) as [FR BR]. exact (rings_ok n _ Hn FR BR).
      - destruct (near_int (-2) ltac:(lia)) as [F2 D2]. apply Rabs_le_inv in D2. replace (flt (of_int (-2)) s) with true by (symmetry; apply flt_R; [exact F2|exact FS|lra]).
        destruct twothird_R as [F23 E23]. assert (FA: fin (Babs z)) by (unfold fin; rewrite is_finite_Babs; exact Fz). assert (C' := C). apply fle_false in C'; [|assumption..]. rewrite B2R_Babs, E23 in C'. set (za := Rabs (toR z)) in *.
        assert (NA := near_exact _ FA). rewrite B2R_Babs in NA. fold za in NA. assert (N1 := near_add _ _ _ _ _ _ 1 (near_int 1 ltac:(lia)) NA ltac:(lia)). change (bpow radix2 1) with 2 in N1. specialize (N1 ltac:(rewrite !Rabs_pos_eq; lra)). change (1 - 54)%Z with (-53)%Z in N1. rewrite bp53 in N1.
        assert (N3 := near_div _ 3 _ _ 1 N1 ltac:(lia) ltac:(lia)). change (bpow radix2 1) with 2 in N3. specialize (N3 ltac:(rewrite Rabs_pos_eq; lra)). change (1 - 54)%Z with (-53)%Z in N3. rewrite bp53 in N3. destruct N3 as [F3 D3]. apply Rabs_le_inv in D3. set (g := fdiv (fadd (of_int 1) (Babs z)) (of_int 3)) in *.
        destruct (fsqrt_R g F3 ltac:(lra)) as [FR ER]. assert (R1 : 1 / 2 <= toR (fsqrt g)). { rewrite ER. assert (H2 : RN (1 / 2) = 1 / 2) by (apply (RN_fx (-1) 1); [lia|unfold fx; change (bpow radix2 (-1)) with (/ 2); lra|lia]). rewrite <- H2. apply RN_le. assert (Q := sqrt_sqrt (toR g) ltac:(lra)). assert (Q0 := sqrt_pos (toR g)). set (w := sqrt (toR g)) in *. destruct (Rle_lt_dec (1 / 2) w) as [|W]; [assumption|exfalso]. assert (w * w < 1 / 2 * (1 / 2)) by (apply Rmult_le_0_lt_compat; lra). lra. }
        destruct (of_int_R n ltac:(lia)) as [FN EN]. assert (P0 : 0 <= IZR n * toR s) by (apply Rmult_le_pos; lra). assert (P1 : IZR n * toR s <= IZR n * (1 / 5)) by (apply Rmult_le_compat_l; lra).
        destruct (fmul_R (of_int n) s 30 FN FS ltac:(lia)) as [G E]; [rewrite EN; change (bpow radix2 30) with 1073741824; rewrite Rabs_pos_eq; lra|]. rewrite EN in E. assert (X := RN_err (IZR n * toR s) 30 ltac:(lia)). change (bpow radix2 30) with 1073741824 in X. specialize (X ltac:(rewrite Rabs_pos_eq; lra)). change (30 - 54)%Z with (-24)%Z in X. rewrite bp24, <- E in X. apply Rabs_le_inv in X.
        assert (M0 : 0 <= toR (fmul (of_int n) s)) by (rewrite E; apply (RN_int_ge _ 0); [lia|lra]). set (a := fmul (of_int n) s) in *. set (w := toR (fsqrt g)) in *.
        assert (Q0 : 0 <= toR a / w) by (apply Rmult_le_pos; [lra|apply Rlt_le, Rinv_0_lt_compat; lra]). assert (Q1 : toR a / w <= 2 * toR a). { unfold Rdiv. assert (I : / w <= 2) by (replace 2 with (/ (1 / 2)) by field; apply Rinv_le_contravar; lra). assert (toR a * / w <= toR a * 2) by (apply Rmult_le_compat_l; lra). lra. }
        destruct (fdiv_R a (fsqrt g) 30 G ltac:(fold w; lra) ltac:(lia)) as [FQ EQ]; [fold w; change (bpow radix2 30) with 1073741824; rewrite Rabs_pos_eq; lra|]. fold w in EQ. split; [exact FQ|]. rewrite EQ. split; [apply (RN_int_ge _ 0); [lia|exact Q0]|].
        assert (Y := RN_err (toR a / w) 30 ltac:(lia)). change (bpow radix2 30) with 1073741824 in Y. specialize (Y ltac:(rewrite Rabs_pos_eq; lra)). change (30 - 54)%Z with (-24)%Z in Y. rewrite bp24 in Y. apply Rabs_le_inv in Y. lra. }
    destruct TM as [FM BM]. set (tmp := cap_rings64 (of_int n) z s) in *. clearbody tmp.
    assert (S := cap_sum n tt tmp Hn FT ltac:(lra) FM ltac:(lra)). cbv zeta in S. destruct S as (-> & FA & FB & BA & BB & ZA & ZB & SU). cbn [bind]. rewrite (to_long_small _ _ FA BA) by lra. cbn [bind]. rewrite (to_long_small _ _ FB BB) by lra. cbn [bind].
    set (ir := (Ztrunc _ + Ztrunc _ + 1)%Z). assert (HI : (1 <= ir <= n + 1)%Z) by (unfold ir; lia). destruct (turn_times tt ir FT ltac:(lra) ltac:(lia)) as [FI BI]. assert (IB : IZR ir <= 536870913) by (apply IZR_le; lia). rewrite (to_long_small _ _ FI BI) by lra. cbn [bind]. eexists. split; [reflexivity|]. apply cap_number; [lia|exact HI].
Qed.

(** nside 2. *)
Lemma ring_two z phi : fin z -> fin phi -> Rabs (toR z) <= 1 -> exists p, ang2pix_ring_z_phi 2 z phi = Ok p /\ (-4 <= p < 52)%Z.
Proof.
  intros Fz Fp Z1. assert (Hn' : (1 <= 2 <= 536870912)%Z) by lia. unfold ang2pix_ring_z_phi. destruct (fle (Babs z) twothird) eqn:C.
  - assert (L := lines_ok 2 z phi Hn' Fz Fp C). cbv zeta in L. destruct L as (FA & FB & BA & BB & _ & _ & D). rewrite (to_int_small _ _ FA BA), (to_int_small _ _ FB BB) by lra. cbn [bind]. eexists. split; [reflexivity|]. match goal with |- context [imodulo ?v _] => assert (I := imodulo_range v (4 * 2) ltac:(lia)); set (k := imodulo v (4 * 2)) in *; clearbody k end. lia.
  - destruct (turn_R phi Fp) as (FT & BT & _). set (tt := fmul (fmodulo phi twopi) inv_halfpi) in *. destruct (root_ok z Fz Z1 C) as [FR BR]. destruct (rings_ok 2 _ Hn' FR BR) as [FM BM]. set (tmp := fmul (of_int 2) _) in *.
    assert (S := cap_sum 2 tt tmp Hn' FT ltac:(lra) FM ltac:(lra)). cbv zeta in S. destruct S as (-> & FA & FB & BA & BB & ZA & ZB & SU). cbn [bind]. rewrite (to_int_small _ _ FA BA) by lra. cbn [bind]. rewrite (to_int_small _ _ FB BB) by lra. cbn [bind].
    set (ir := (Ztrunc _ + Ztrunc _ + 1)%Z). assert (HI : (1 <= ir <= 2 + 1)%Z) by (unfold ir; lia). destruct (turn_times tt ir FT ltac:(lra) ltac:(lia)) as [FI BI]. assert (IB : IZR ir <= 3) by (apply IZR_le; lia). rewrite (to_int_small _ _ FI BI) by lra. cbn [bind]. eexists. split; [reflexivity|]. assert (V := cap_number 2 ir (Ztrunc (toR (fmul tt (of_int ir)))) (flt (of_int 0) z) ltac:(lia) HI). unfold valid_pixel in V. lia.
Qed.
Lemma ring_public (fc : b64 -> b64) n theta phi : (forall x, fin x -> 0 <= toR x <= toR hp_pi -> fin (fc x) /\ Rabs (toR (fc x)) <= 1) -> (1 <= n)%Z -> (12 * n * n < 2147483648)%Z -> n <> 2%Z ->
  fin theta -> 0 <= toR theta <= toR hp_pi -> fin phi -> exists p, ang2pix_ring fc n theta phi = Ok (Some p) /\ valid_pixel n p.
Proof.
  intros G H1 H2 N2 FT BT FP. destruct (G theta FT BT) as [FC BC]. destruct (ring_valid n (fc theta) phi H1 H2 N2 FC FP BC) as (p & E & V). exists p. split; [|exact V]. unfold ang2pix_ring. destruct (of_int_R 0 ltac:(lia)) as [F0 E0].
  rewrite (proj2 (fle_R (of_int 0) theta F0 FT)) by (rewrite E0; lra). rewrite (proj2 (fle_R theta hp_pi FT eq_refl)) by lra. cbn [andb]. rewrite E. reflexivity.
Qed.
Lemma minus_three : exists z phi, fin z /\ fin phi /\ Rabs (toR z) <= 1 /\ ang2pix_ring_z_phi 2 z phi = Ok (-3)%Z /\ ang2pix_ring_z_phi64 2 z (of_int (-5)) phi = Ok (-3)%Z /\ ~ valid_pixel 2 (-3).
Proof. exists twothird, (dyadic 0x1921fb54442d16 (-53)). split; [reflexivity|]. split; [vm_compute; reflexivity|]. split; [destruct twothird_R as [_ E]; rewrite E; apply Rabs_le; lra|]. split; [vm_compute; reflexivity|]. split; [vm_compute; reflexivity|]. unfold valid_pixel. lia. Qed.
Lemma fifty_one : exists z phi, fin z /\ fin phi /\ Rabs (toR z) <= 1 /\ ang2pix_ring_z_phi 2 z phi = Ok 51%Z /\ ang2pix_ring_z_phi64 2 z (of_int (-5)) phi = Ok 51%Z /\ ~ valid_pixel 2 51.
Proof. exists (Bopp twothird), (dyadic 0x15fdbbe9bba774 (-50)). split; [reflexivity|]. split; [vm_compute; reflexivity|]. split; [rewrite B2R_Bopp; destruct twothird_R as [_ E]; rewrite E; apply Rabs_le; lra|]. split; [vm_compute; reflexivity|]. split; [vm_compute; reflexivity|]. unfold valid_pixel. lia. Qed.
Lemma far_away : exists z phi p i j, fin z /\ fin phi /\ 0 <= toR z <= 1 /\ 0 <= toR phi <= 1 /\ ang2pix_ring_z_phi 4 z phi = Ok p /\ ang2pix_ring_z_phi64 4 z (of_int (-5)) phi = Ok p /\ ring_place 4 p i j /\ 3 < ring_longitude_of 4 i j - toR phi < 4.
Proof.
  exists twothird, (dyadic 0x1921fb54442d14 (-54)), 9%Z, 2%Z, 6%Z. split; [reflexivity|]. split; [vm_compute; reflexivity|]. split; [destruct twothird_R as [_ E]; rewrite E; lra|].
  assert (E : toR (dyadic 0x1921fb54442d14 (-54)) = 7074237752028436 * / 18014398509481984) by (vm_compute; lra). rewrite E. split; [lra|]. split; [vm_compute; reflexivity|]. split; [vm_compute; reflexivity|]. split; [repeat split; unfold ring_length; cbn; lia|].
  unfold ring_longitude_of, on_meridian, ring_length. cbn. assert (P := pi_bounds). lra.
Qed.
