(** Directions near a pixel centre, in double arithmetic: the floors of the code. *)
From Coq Require Import ZArith List Bool Reals Lra Lia Psatz.
From Flocq Require Import Core IEEE754.BinarySingleNaN.
From Verif Require Import CLib FloatModel FloatLemmas CalendarProofs2 CalendarProofs3 CalendarProofs4.
From Verif Require Import HealpixModel HealpixSpec HealpixAngModel HealpixRealModel HealpixFloatModel HealpixProofs1 HealpixProofs3 HealpixProofs4 HealpixProofs7 HealpixProofs8 HealpixProofs9.
Import ListNotations.
Open Scope R_scope.

(** A double close to a real. *)
Definition near (x : b64) (r e : R) : Prop := fin x /\ Rabs (toR x - r) <= e.
Lemma near_weak x r e e' : near x r e -> e <= e' -> near x r e'. Proof. intros [F H] L. split; [exact F|lra]. Qed.
Lemma near_int z : (Z.abs z <= 2 ^ 53)%Z -> near (of_int z) (IZR z) 0.
Proof. intros H. destruct (of_int_R z H) as [F E]. split; [exact F|]. rewrite E, Rminus_eq_0, Rabs_R0. lra. Qed.
Lemma near_exact x : fin x -> near x (toR x) 0. Proof. intros F. split; [exact F|]. rewrite Rminus_eq_0, Rabs_R0. lra. Qed.
Lemma near_add x y r s e f k : near x r e -> near y s f -> (-1000 <= k < 1024)%Z -> Rabs r + Rabs s + e + f <= bpow radix2 k ->
  near (fadd x y) (r + s) (e + f + bpow radix2 (k - 54)).
Proof.
  intros [Fx Hx] [Fy Hy] K B. assert (A : Rabs (toR x + toR y) <= bpow radix2 k).
  { apply Rabs_le_inv in Hx. apply Rabs_le_inv in Hy. generalize (Rle_abs r) (Rle_abs (- r)) (Rle_abs s) (Rle_abs (- s)). rewrite !Rabs_Ropp. intros. apply Rabs_le. lra. }
  destruct (fadd_R x y k Fx Fy ltac:(lia) A) as [F E]. split; [exact F|]. rewrite E. generalize (RN_err _ k ltac:(lia) A). intros D.
  apply Rabs_le_inv in Hx. apply Rabs_le_inv in Hy. apply Rabs_le_inv in D. apply Rabs_le. lra.
Qed.
Lemma near_sub x y r s e f k : near x r e -> near y s f -> (-1000 <= k < 1024)%Z -> Rabs r + Rabs s + e + f <= bpow radix2 k ->
  near (fsub x y) (r - s) (e + f + bpow radix2 (k - 54)).
Proof.
  intros [Fx Hx] [Fy Hy] K B. assert (A : Rabs (toR x - toR y) <= bpow radix2 k).
  { apply Rabs_le_inv in Hx. apply Rabs_le_inv in Hy. generalize (Rle_abs r) (Rle_abs (- r)) (Rle_abs s) (Rle_abs (- s)). rewrite !Rabs_Ropp. intros. apply Rabs_le. lra. }
  destruct (fsub_R x y k Fx Fy ltac:(lia) A) as [F E]. split; [exact F|]. rewrite E. generalize (RN_err _ k ltac:(lia) A). intros D.
  apply Rabs_le_inv in Hx. apply Rabs_le_inv in Hy. apply Rabs_le_inv in D. apply Rabs_le. lra.
Qed.
Lemma near_mul x y r s e f a b k : near x r e -> near y s f -> (-1000 <= k < 1024)%Z -> Rabs r <= a -> Rabs s <= b -> (a + e) * (b + f) <= bpow radix2 k ->
  near (fmul x y) (r * s) (e * b + f * a + e * f + bpow radix2 (k - 54)).
Proof.
  intros [Fx Hx] [Fy Hy] K Ha Hb B. set (dx := toR x - r) in *. set (dy := toR y - s) in *.
  assert (X : toR x = r + dx) by (unfold dx; ring). assert (Y : toR y = s + dy) by (unfold dy; ring).
  assert (E0 : 0 <= e) by (generalize (Rabs_pos dx); lra). assert (F0 : 0 <= f) by (generalize (Rabs_pos dy); lra).
  assert (A0 : 0 <= a) by (generalize (Rabs_pos r); lra). assert (B0 : 0 <= b) by (generalize (Rabs_pos s); lra).
  assert (A : Rabs (toR x * toR y) <= bpow radix2 k).
  { rewrite X, Y, Rabs_mult. eapply Rle_trans; [|exact B]. apply Rmult_le_compat; try apply Rabs_pos; (eapply Rle_trans; [apply Rabs_triang|lra]). }
  destruct (fmul_R x y k Fx Fy ltac:(lia) A) as [F E]. split; [exact F|]. rewrite E. generalize (RN_err _ k ltac:(lia) A). intros D.
  replace (RN (toR x * toR y) - r * s) with ((RN (toR x * toR y) - toR x * toR y) + (dx * s + (dy * r + dx * dy))) by (rewrite X, Y; ring).
  assert (P1 : Rabs (dx * s) <= e * b) by (rewrite Rabs_mult; apply Rmult_le_compat; try apply Rabs_pos; assumption).
  assert (P2 : Rabs (dy * r) <= f * a) by (rewrite Rabs_mult; apply Rmult_le_compat; try apply Rabs_pos; assumption).
  assert (P3 : Rabs (dx * dy) <= e * f) by (rewrite Rabs_mult; apply Rmult_le_compat; try apply Rabs_pos; assumption).
  eapply Rle_trans; [apply Rabs_triang|]. assert (Q : Rabs (dx * s + (dy * r + dx * dy)) <= e * b + (f * a + e * f)) by (eapply Rle_trans; [apply Rabs_triang|]; eapply Rle_trans; [apply Rplus_le_compat_l, Rabs_triang|]; lra).
  lra.
Qed.
Lemma near_trunc x a e : near x (IZR a + 1 / 2) e -> e < 1 / 2 -> (0 <= a)%Z -> Ztrunc (toR x) = a.
Proof. intros [_ H] L A. apply Rabs_le_inv in H. apply trunc_range; [exact A|]. rewrite plus_IZR. lra. Qed.
Lemma near_to_int x a e : near x (IZR a + 1 / 2) e -> e < 1 / 2 -> (0 <= a < 2147483648)%Z -> to_int x = Ok a.
Proof. intros N L A. rewrite <- (near_trunc x a e N L) by lia. apply to_int_R; [apply N|]. rewrite (near_trunc x a e N L) by lia. lia. Qed.
Lemma near_to_long x a e : near x (IZR a + 1 / 2) e -> e < 1 / 2 -> (0 <= a < 4611686018427387904)%Z -> to_long x = Ok a.
Proof. intros N L A. rewrite <- (near_trunc x a e N L) by lia. apply to_long_R; [apply N|]. rewrite (near_trunc x a e N L) by lia. unfold long_max. lia. Qed.

Lemma bp32 : bpow radix2 32 = 4294967296. Proof. now rewrite bpow_pos. Qed.
Lemma bp22 : bpow radix2 (-22) = / 4194304. Proof. now rewrite bpow_neg. Qed.
Lemma bp51 : bpow radix2 (-51) = / 2251799813685248. Proof. now rewrite bpow_neg. Qed.
Lemma bp3 : bpow radix2 3 = 8. Proof. now rewrite bpow_pos. Qed.

(** The belt: [t] is the turn of the centre, possibly one full turn more. *)
Section Belt.
Context (n i j : Z) (Hn : (1 <= n <= 2 ^ 29)%Z) (Hi : (n <= i <= 3 * n)%Z) (Hj : (1 <= j <= 4 * n)%Z).
Let N := IZR n.
Lemma N_range : 1 <= N <= 536870912. Proof. unfold N. split; apply IZR_le; lia. Qed.
Context (tt z : b64) (t : R) (Ht : 0 <= t <= 4) (Nt : near tt t (/ (16 * N))) (Nz : near z (zc n i) (/ (16 * N))).
Lemma inv_small : / (16 * N) <= 1 / 16 /\ N * / (16 * N) = 1 / 16 /\ 0 < / (16 * N).
Proof. generalize N_range. intros. repeat split; [|field; lra|apply Rinv_0_lt_compat; lra]. apply Rmult_le_reg_l with (16 * N); [lra|]. rewrite Rinv_r by lra. lra. Qed.
Lemma temp1_near : near (fmul (of_int n) (fadd (lit 1 2) tt)) (N * (1 / 2 + t)) (1 / 16 + 3 / 4194304).
Proof.
  destruct half_val as [FH EH]. assert (NH : near (lit 1 2) (1 / 2) 0) by (split; [exact FH|rewrite EH; replace (/ 2 - 1 / 2) with 0 by lra; rewrite Rabs_R0; lra]).
  destruct inv_small as (I1 & I2 & I3). generalize N_range bp3 bp51 bp32 bp22. intros NR B3 B51 B32 B22.
  assert (A := near_add _ _ _ _ _ _ 3 NH Nt ltac:(lia)). rewrite B3 in A. change (3 - 54)%Z with (-51)%Z in A. rewrite B51 in A.
  specialize (A ltac:(rewrite !Rabs_pos_eq by lra; lra)).
  assert (M := near_mul _ _ _ _ _ _ N (9 / 2) 32 (near_int n ltac:(lia)) A ltac:(lia)). rewrite B32 in M. change (32 - 54)%Z with (-22)%Z in M. rewrite B22 in M. fold N in M.
  specialize (M ltac:(rewrite Rabs_pos_eq; lra) ltac:(rewrite Rabs_pos_eq; lra)).
  eapply near_weak; [apply M; nra|]. nra.
Qed.
Lemma z_abs : Rabs (zc n i) <= 2 / 3. Proof. apply zc_belt; lia. Qed.
Lemma temp2_near : near (fmul (of_int n) (fmul z (lit 3 4))) (N * (zc n i * (3 / 4))) (1 / 16 + 3 / 4194304).
Proof.
  destruct lit34 as [F34 E34]. assert (NH : near (lit 3 4) (3 / 4) 0) by (split; [exact F34|rewrite E34, Rminus_eq_0, Rabs_R0; lra]).
  destruct inv_small as (I1 & I2 & I3). generalize N_range bp3 bp51 bp32 bp22 z_abs. intros NR B3 B51 B32 B22 ZA.
  assert (A := near_mul _ _ _ _ _ _ (2 / 3) (3 / 4) 3 Nz NH ltac:(lia) ZA ltac:(rewrite Rabs_pos_eq; lra)). rewrite B3 in A. change (3 - 54)%Z with (-51)%Z in A. rewrite B51 in A.
  specialize (A ltac:(lra)).
  assert (Q : Rabs (zc n i * (3 / 4)) <= 1 / 2) by (rewrite Rabs_mult, (Rabs_pos_eq (3 / 4)) by lra; lra).
  assert (M := near_mul _ _ _ _ _ _ N (1 / 2) 32 (near_int n ltac:(lia)) A ltac:(lia)). rewrite B32 in M. change (32 - 54)%Z with (-22)%Z in M. rewrite B22 in M. fold N in M.
  specialize (M ltac:(rewrite Rabs_pos_eq; lra) Q).
  eapply near_weak; [apply M; nra|]. nra.
Qed.
Lemma temp2_near' : near (fmul (fmul (of_int n) z) (lit 3 4)) (N * (zc n i * (3 / 4))) (1 / 16 + 3 / 4194304).
Proof.
  destruct lit34 as [F34 E34]. assert (NH : near (lit 3 4) (3 / 4) 0) by (split; [exact F34|rewrite E34, Rminus_eq_0, Rabs_R0; lra]).
  destruct inv_small as (I1 & I2 & I3). generalize N_range bp3 bp51 bp32 bp22 z_abs. intros NR B3 B51 B32 B22 ZA.
  assert (A := near_mul _ _ _ _ _ _ N (2 / 3) 32 (near_int n ltac:(lia)) Nz ltac:(lia)). rewrite B32 in A. change (32 - 54)%Z with (-22)%Z in A. rewrite B22 in A. fold N in A.
  specialize (A ltac:(rewrite Rabs_pos_eq; lra) ZA ltac:(nra)).
  assert (Q : Rabs (N * zc n i) <= N * (2 / 3)) by (rewrite Rabs_mult, (Rabs_pos_eq N) by lra; nra).
  assert (M := near_mul _ _ _ _ _ _ (N * (2 / 3)) (3 / 4) 32 A NH ltac:(lia)). rewrite B32 in M. change (32 - 54)%Z with (-22)%Z in M. rewrite B22 in M.
  specialize (M Q ltac:(rewrite Rabs_pos_eq; lra)). replace (N * (zc n i * (3 / 4))) with (N * zc n i * (3 / 4)) by ring.
  eapply near_weak; [apply M; nra|]. nra.
Qed.
Context (w : bool) (Hw : t = tc n i j + (if w then 4 else 0)).
Let ks := ((i - n) mod 2)%Z.
Let up := if w then (4 * n)%Z else 0%Z.
Lemma lines_near (b : b64) : near b (N * (zc n i * (3 / 4))) (1 / 16 + 3 / 4194304) ->
  let a := fmul (of_int n) (fadd (lit 1 2) tt) in
  near (fsub a b) (IZR (j + (i - n - ks) / 2 - 1 + up) + 1 / 2) (1 / 4) /\ near (fadd a b) (IZR (j + n - 1 - (i - n + ks) / 2 + up) + 1 / 2) (1 / 4).
Proof.
  intros NB a. assert (NA := temp1_near). fold a in NA. generalize N_range bp32 bp22 z_abs. intros NR B32 B22 ZA.
  assert (QA : Rabs (N * (1 / 2 + t)) <= N * (9 / 2)) by (rewrite Rabs_mult, !Rabs_pos_eq by lra; nra).
  assert (QB : Rabs (N * (zc n i * (3 / 4))) <= N * (1 / 2)) by (rewrite !Rabs_mult, (Rabs_pos_eq N), (Rabs_pos_eq (3 / 4)) by lra; nra).
  assert (KS : (0 <= ks <= 1)%Z) by (unfold ks; generalize (Z.mod_pos_bound (i - n) 2 ltac:(lia)); lia).
  assert (P1 : (2 * ((i - n - ks) / 2) = i - n - ks)%Z) by (unfold ks; Z.to_euclidean_division_equations; lia).
  assert (P2 : (2 * ((i - n + ks) / 2) = i - n + ks)%Z) by (unfold ks; Z.to_euclidean_division_equations; lia).
  set (h1 := ((i - n - ks) / 2)%Z) in *. set (h2 := ((i - n + ks) / 2)%Z) in *. apply (f_equal IZR) in P1, P2. rewrite mult_IZR, !minus_IZR in P1. rewrite mult_IZR, plus_IZR, minus_IZR in P2.
  assert (TC : N * tc n i j = IZR j - (IZR ks + 1) / 2).
  { unfold tc. rewrite (proj2 (Z.ltb_ge i n)), (proj2 (Z.leb_le i (3 * n))) by lia. fold ks N. field. lra. }
  assert (ZC : N * (zc n i * (3 / 4)) = N - IZR i / 2).
  { unfold zc. rewrite (proj2 (Z.ltb_ge i n)), (proj2 (Z.leb_le i (3 * n))) by lia. rewrite minus_IZR, mult_IZR. fold N. field. lra. }
  assert (UP : IZR up = N * (if w then 4 else 0)) by (unfold up; destruct w; [rewrite mult_IZR; fold N|]; ring).
  split.
  - eapply near_weak; [|instantiate (1 := 1 / 16 + 3 / 4194304 + (1 / 16 + 3 / 4194304) + / 4194304); lra].
    replace (IZR (j + h1 - 1 + up) + 1 / 2) with (N * (1 / 2 + t) - N * (zc n i * (3 / 4))).
    + rewrite <- B22. change (-22)%Z with (32 - 54)%Z. apply near_sub; [exact NA|exact NB|lia|]. rewrite B32. nra.
    + rewrite ZC, Hw, plus_IZR, minus_IZR, plus_IZR, UP. fold N in P1. nra.
  - eapply near_weak; [|instantiate (1 := 1 / 16 + 3 / 4194304 + (1 / 16 + 3 / 4194304) + / 4194304); lra].
    replace (IZR (j + n - 1 - h2 + up) + 1 / 2) with (N * (1 / 2 + t) + N * (zc n i * (3 / 4))).
    + rewrite <- B22. change (-22)%Z with (32 - 54)%Z. apply near_add; [exact NA|exact NB|lia|]. rewrite B32. nra.
    + rewrite ZC, Hw, plus_IZR, !minus_IZR, plus_IZR, UP. fold N. fold N in P2. nra.
Qed.
End Belt.

(** The caps: ring [m] from the pole. *)
Section Cap.
Context (n m j c : Z) (Hn : (1 <= n <= 2 ^ 29)%Z) (Hm : (1 <= m <= n)%Z) (Hc : (0 <= c <= 3)%Z) (Hj : (c * m <= j - 1 < (c + 1) * m)%Z).
Let N := IZR n.
Let M := IZR m.
Context (tt tmp : b64) (Nt : near tt ((IZR j - 1 / 2) / M) (/ (16 * N))) (Nm : near tmp M (1 / 8)).
Lemma M_range : 1 <= M <= N /\ N <= 536870912. Proof. unfold M, N. repeat split; apply IZR_le; lia. Qed.
Lemma inv_small' : / (16 * N) <= 1 / 16 /\ N * / (16 * N) = 1 / 16 /\ 0 < / (16 * N).
Proof. generalize M_range. intros. repeat split; [|field; lra|apply Rinv_0_lt_compat; lra]. apply Rmult_le_reg_l with (16 * N); [lra|]. rewrite Rinv_r by lra. lra. Qed.
Lemma part_range : (IZR j - 1 / 2) / M - IZR c = (IZR (j - 1 - c * m) + 1 / 2) / M /\ 0 <= IZR (j - 1 - c * m) <= M - 1 /\ / (2 * N) <= (IZR (j - 1 - c * m) + 1 / 2) / M <= 1 - / (2 * N).
Proof.
  destruct M_range as [MR NR]. assert (A : 0 <= IZR (j - 1 - c * m) <= M - 1). { unfold M. split; [apply (IZR_le 0); lia|]. rewrite <- minus_IZR. apply IZR_le. lia. }
  assert (IM : / (2 * N) * M <= 1 / 2). { apply Rmult_le_reg_l with (2 * N); [lra|]. rewrite <- Rmult_assoc, Rinv_r by lra. lra. }
  split; [rewrite !minus_IZR, mult_IZR; fold M; field; lra|]. split; [exact A|]. split.
  - apply Rmult_le_reg_r with M; [lra|]. unfold Rdiv. rewrite Rmult_assoc, Rinv_l by lra. lra.
  - apply Rmult_le_reg_r with M; [lra|]. unfold Rdiv. rewrite Rmult_assoc, Rinv_l by lra. lra.
Qed.
Lemma quadrant : fin tt /\ Ztrunc (toR tt) = c.
Proof.
  destruct Nt as [F H]. split; [exact F|]. destruct part_range as (P1 & _ & P2). destruct inv_small' as (I1 & I2 & I3). apply Rabs_le_inv in H. destruct M_range as [MR NR].
  assert (D : / (2 * N) = 8 * / (16 * N)) by (field; lra). apply trunc_range; [lia|]. rewrite plus_IZR. lra.
Qed.
Lemma tp_near : near (fsub tt (of_int c)) ((IZR (j - 1 - c * m) + 1 / 2) / M) (/ (16 * N) + / 2251799813685248)
  /\ near (fsub (of_int 1) (fsub tt (of_int c))) (1 - (IZR (j - 1 - c * m) + 1 / 2) / M) (/ (16 * N) + 2 / 2251799813685248).
Proof.
  destruct part_range as (P1 & P0 & P2). destruct inv_small' as (I1 & I2 & I3). destruct M_range as [MR NR]. generalize bp3 bp51. intros B3 B51.
  assert (C3 : 0 <= IZR c <= 3) by (split; apply IZR_le; lia).
  assert (D : / (2 * N) = 8 * / (16 * N)) by (field; lra).
  assert (X : near (fsub tt (of_int c)) ((IZR (j - 1 - c * m) + 1 / 2) / M) (/ (16 * N) + / 2251799813685248)).
  { rewrite <- P1. eapply near_weak; [|instantiate (1 := / (16 * N) + 0 + / 2251799813685248); lra]. rewrite <- B51. change (-51)%Z with (3 - 54)%Z. apply near_sub; [exact Nt|apply near_int; lia|lia|].
    rewrite B3, !Rabs_pos_eq by lra. lra. }
  split; [exact X|]. eapply near_weak; [|instantiate (1 := 0 + (/ (16 * N) + / 2251799813685248) + / 2251799813685248); lra]. rewrite <- B51 at 2. change (-51)%Z with (3 - 54)%Z. apply near_sub; [apply near_int; lia|exact X|lia|].
  rewrite B3, !Rabs_pos_eq by lra. lra.
Qed.
Lemma edges_near : near (fmul (fsub tt (of_int c)) tmp) (IZR (j - 1 - c * m) + 1 / 2) (1 / 4)
  /\ near (fmul (fsub (of_int 1) (fsub tt (of_int c))) tmp) (IZR (m - j + c * m) + 1 / 2) (1 / 4).
Proof.
  destruct part_range as (P1 & P0 & P2). destruct inv_small' as (I1 & I2 & I3). destruct M_range as [MR NR]. generalize bp32 bp22. intros B32 B22. destruct tp_near as [T1 T2].
  assert (D : / (2 * N) = 8 * / (16 * N)) by (field; lra).
  assert (MI : M * / (16 * N) <= 1 / 16) by nra.
  set (u := (IZR (j - 1 - c * m) + 1 / 2) / M) in *. assert (UM : u * M = IZR (j - 1 - c * m) + 1 / 2) by (unfold u; field; lra).
  split.
  - rewrite <- UM. assert (X := near_mul _ _ _ _ _ _ 1 M 32 T1 Nm ltac:(lia)). rewrite B32 in X. change (32 - 54)%Z with (-22)%Z in X. rewrite B22 in X.
    specialize (X ltac:(rewrite Rabs_pos_eq; lra) ltac:(rewrite Rabs_pos_eq; lra) ltac:(nra)). eapply near_weak; [exact X|]. nra.
  - replace (IZR (m - j + c * m) + 1 / 2) with ((1 - u) * M) by (rewrite plus_IZR, minus_IZR, mult_IZR; rewrite !minus_IZR, mult_IZR in UM; fold M; fold M in UM; lra).
    assert (X := near_mul _ _ _ _ _ _ 1 M 32 T2 Nm ltac:(lia)). rewrite B32 in X. change (32 - 54)%Z with (-22)%Z in X. rewrite B22 in X.
    specialize (X ltac:(rewrite Rabs_pos_eq; lra) ltac:(rewrite Rabs_pos_eq; lra) ltac:(nra)). eapply near_weak; [exact X|]. nra.
Qed.
Lemma place_near : near (fmul tt (of_int m)) (IZR (j - 1) + 1 / 2) (1 / 4).
Proof.
  destruct part_range as (P1 & P0 & P2). destruct inv_small' as (I1 & I2 & I3). destruct M_range as [MR NR]. generalize bp32 bp22. intros B32 B22.
  assert (MI : M * / (16 * N) <= 1 / 16) by nra. assert (D : / (2 * N) = 8 * / (16 * N)) by (field; lra). assert (C3 : 0 <= IZR c <= 3) by (split; apply IZR_le; lia).
  replace (IZR (j - 1) + 1 / 2) with ((IZR j - 1 / 2) / M * M) by (rewrite minus_IZR; field; lra).
  assert (X := near_mul _ _ _ _ _ _ 4 M 32 Nt (near_int m ltac:(lia)) ltac:(lia)). rewrite B32 in X. change (32 - 54)%Z with (-22)%Z in X. rewrite B22 in X.
  specialize (X ltac:(rewrite Rabs_pos_eq; lra) ltac:(rewrite Rabs_pos_eq; fold M; lra) ltac:(nra)). eapply near_weak; [exact X|]. nra.
Qed.
End Cap.
