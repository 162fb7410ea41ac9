(** Directions close to pixel centres give the pixels: 64-bit pixel numbers. *)
From Coq Require Import ZArith List Bool Reals Lra Lia Psatz.
From Flocq Require Import Core IEEE754.BinarySingleNaN Relative.
From Verif Require Import CLib FloatModel FloatLemmas GeoLemmas CalendarProofs2 CalendarProofs3 CalendarProofs4.
From Verif Require Import HealpixModel HealpixSpec HealpixAngModel HealpixRealModel HealpixFloatModel HealpixAng64Model HealpixProofs1 HealpixProofs3 HealpixProofs4 HealpixProofs5 HealpixProofs6 HealpixProofs7 HealpixProofs8 HealpixProofs9 HealpixProofs10 HealpixProofs11 HealpixProofs12 HealpixProofs13 HealpixProofs15 HealpixProofs16.
Import ListNotations.
Open Scope R_scope.

(** The distance from the pole in rings. *)
Lemma sqrt_gap g r e : 0 <= g -> 0 < r -> Rabs (g - r * r) <= e -> Rabs (sqrt g - r) <= e / r.
Proof.
  intros G P H. assert (S0 := sqrt_pos g). assert (SS := sqrt_sqrt g G). set (x := sqrt g) in *. rewrite <- SS in H.
  replace (x * x - r * r) with ((x - r) * (x + r)) in H by ring. rewrite Rabs_mult, (Rabs_pos_eq (x + r)) in H by lra. apply Rmult_le_reg_r with r; [lra|]. replace (e / r * r) with e by (field; lra). assert (0 <= Rabs (x - r)) by apply Rabs_pos. nra.
Qed.
Lemma rings_near n m z s sg : (1 <= n <= 2 ^ 29)%Z -> (1 <= m <= n)%Z -> (sg = 1 \/ sg = -1) -> let z0 := sg * (1 - IZR m * IZR m / (3 * (IZR n * IZR n))) in
  near z z0 (3 / 10 ^ 12) -> sine_ok z0 s (3 / 10 ^ 12) -> near (cap_rings64 (of_int n) z s) (IZR m) (1 / 8).
Proof.
  intros Hn Hm Hs z0 Nz Ns. assert (NB : 1 <= IZR n <= 536870912) by (split; apply IZR_le; lia). assert (MB : 1 <= IZR m <= IZR n) by (split; apply IZR_le; lia).
  destruct (cap_gap n m Hm) as [G _]. cbv zeta in G. set (N := IZR n) in *. set (M := IZR m) in *. set (q := M * M / (3 * (N * N))) in *.
  assert (Q0 : 0 < q) by (eapply Rlt_le_trans; [|apply G]; apply Rinv_0_lt_compat; nra).
  assert (ZA : Rabs z0 = 1 - q) by (unfold z0; destruct Hs as [-> | ->]; [rewrite Rmult_1_l, Rabs_pos_eq; lra|rewrite Rabs_left; lra]).
  assert (A := abs_near _ _ _ Nz). rewrite ZA in A.
  assert (RQ : M / N * (M / N) = 3 * q) by (unfold q; field; lra). set (r := M / N) in *. assert (R1 : 0 < r <= 1) by (unfold r; split; [apply Rdiv_lt_0_compat; lra|apply Rmult_le_reg_r with N; [lra|]; unfold Rdiv; rewrite Rmult_assoc, Rinv_l by lra; lra]).
  assert (RM : N * r = M) by (unfold r; field; lra).
  destruct Ns as [[Es Zs]|[Fs Ns]].
  - unfold cap_rings64. replace (flt (of_int (-2)) s) with false by (rewrite Es; vm_compute; reflexivity). rewrite ZA in Zs.
    assert (B := near_sub _ _ _ _ _ _ 3 (near_int 1 ltac:(lia)) A ltac:(lia)). rewrite bp3 in B. change (3 - 54)%Z with (-51)%Z in B. rewrite bp51 in B. specialize (B ltac:(rewrite !Rabs_pos_eq; lra)).
    replace (1 - (1 - q)) with q in B by ring.
    assert (C := near_mul _ _ _ _ _ _ 3 (1 / 3) 3 (near_int 3 ltac:(lia)) B ltac:(lia)). rewrite bp3 in C. change (3 - 54)%Z with (-51)%Z in C. rewrite bp51 in C.
    specialize (C ltac:(rewrite Rabs_pos_eq; lra) ltac:(rewrite Rabs_pos_eq; lra) ltac:(lra)). change (IZR 3) with 3 in C. rewrite <- RQ in C.
    set (g := fmul (of_int 3) (fsub (of_int 1) (Babs z))) in *. clearbody g. destruct C as [FG NG].
    assert (GP : 0 <= toR g) by (apply Rabs_le_inv in NG; lra). destruct (fsqrt_R g FG GP) as [FR ER].
    assert (R16 : 16 / 100 <= r) by nra.
    assert (D := sqrt_gap _ _ (1 / 10 ^ 11) GP (proj1 R1) ltac:(lra)). assert (D1 : 1 / 10 ^ 11 / r <= 7 / 10 ^ 11). { apply Rmult_le_reg_r with r; [lra|]. unfold Rdiv at 1. rewrite Rmult_assoc, Rinv_l by lra. lra. }
    assert (NR : near (fsqrt g) r (8 / 10 ^ 11)).
    { split; [exact FR|]. rewrite ER. assert (S1 : Rabs (sqrt (toR g)) <= bpow radix2 1) by (rewrite bpow_pos; change (IZR (2 ^ 1)) with 2; apply Rabs_le_inv in D; apply Rabs_le; lra).
      assert (X := RN_err _ 1 ltac:(lia) S1). change (1 - 54)%Z with (-53)%Z in X. rewrite bp53 in X. apply Rabs_le_inv in X. apply Rabs_le_inv in D. apply Rabs_le. lra. }
    assert (X := near_mul _ _ _ _ _ _ N 2 32 (near_int n ltac:(lia)) NR ltac:(lia)). rewrite bp32 in X. change (32 - 54)%Z with (-22)%Z in X. rewrite bp22 in X. fold N in X.
    specialize (X ltac:(rewrite Rabs_pos_eq; lra) ltac:(rewrite Rabs_pos_eq; lra) ltac:(nra)). rewrite RM in X. eapply near_weak; [exact X|]. nra.
  - replace (1 - z0 * z0) with (q * (2 - q)) in Ns by (unfold z0; destruct Hs as [-> | ->]; ring). set (s0 := sqrt (q * (2 - q))) in *. assert (S0 : 0 <= s0 <= 1) by (unfold s0; split; [apply sqrt_pos|rewrite <- sqrt_1; apply sqrt_le_1; nra]).
    unfold cap_rings64. destruct (of_int_R (-2) ltac:(lia)) as [F2 E2]. replace (flt (of_int (-2)) s) with true by (symmetry; apply (flt_R _ _ F2 Fs); rewrite E2; apply Rabs_le_inv in Ns; lra).
    assert (SS : s0 * s0 = q * (2 - q)) by (apply sqrt_sqrt; nra).
    assert (B := near_add _ _ _ _ _ _ 3 (near_int 1 ltac:(lia)) A ltac:(lia)). rewrite bp3 in B. change (3 - 54)%Z with (-51)%Z in B. rewrite bp51 in B. specialize (B ltac:(rewrite !Rabs_pos_eq; lra)).
    replace (1 + (1 - q)) with (2 - q) in B by ring.
    assert (C := near_div _ 3 _ _ 3 B ltac:(lia) ltac:(lia)). rewrite bp3 in C. change (3 - 54)%Z with (-51)%Z in C. rewrite bp51 in C. specialize (C ltac:(rewrite Rabs_pos_eq; lra)). change (IZR 3) with 3 in C.
    set (g := fdiv (fadd (of_int 1) (Babs z)) (of_int 3)) in *. clearbody g. destruct C as [FG NG].
    assert (GP : 0 <= toR g) by (apply Rabs_le_inv in NG; lra). destruct (fsqrt_R g FG GP) as [FR ER].
    set (d0 := sqrt ((2 - q) / 3)). assert (DD : d0 * d0 = (2 - q) / 3) by (apply sqrt_sqrt; lra). assert (D0 : 0 <= d0) by apply sqrt_pos. assert (D8 : 7 / 10 <= d0 <= 9 / 10) by nra.
    assert (D := sqrt_gap _ d0 (5 / 10 ^ 12) GP ltac:(lra) ltac:(rewrite DD; lra)). assert (D1 : 5 / 10 ^ 12 / d0 <= 8 / 10 ^ 12). { apply Rmult_le_reg_r with d0; [lra|]. unfold Rdiv at 1. rewrite Rmult_assoc, Rinv_l by lra. lra. }
    assert (NR : near (fsqrt g) d0 (9 / 10 ^ 12)).
    { split; [exact FR|]. rewrite ER. assert (S1 : Rabs (sqrt (toR g)) <= bpow radix2 1) by (rewrite bpow_pos; change (IZR (2 ^ 1)) with 2; apply Rabs_le_inv in D; apply Rabs_le; lra).
      assert (X := RN_err _ 1 ltac:(lia) S1). change (1 - 54)%Z with (-53)%Z in X. rewrite bp53 in X. apply Rabs_le_inv in X. apply Rabs_le_inv in D. apply Rabs_le. lra. }
    assert (X := near_mul _ _ _ _ _ _ N 1 32 (near_int n ltac:(lia)) (conj Fs Ns) ltac:(lia)). rewrite bp32 in X. change (32 - 54)%Z with (-22)%Z in X. rewrite bp22 in X. fold N in X.
    specialize (X ltac:(rewrite Rabs_pos_eq; lra) ltac:(rewrite Rabs_pos_eq; lra) ltac:(nra)).
    assert (S1 : s0 = r * d0). { apply Rsqr_inj; [lra|nra|]. unfold Rsqr. rewrite SS. replace (r * d0 * (r * d0)) with (r * r * (d0 * d0)) by ring. rewrite RQ, DD. field. }
    set (x := fmul (of_int n) s) in *. set (d := fsqrt g) in *. clearbody x d. destruct X as [FX NX]. destruct NR as [FD ND]. rewrite S1, <- Rmult_assoc, RM in NX. apply Rabs_le_inv in ND.
    assert (NX' : Rabs (toR x - M * d0) <= 1 / 100) by (eapply Rle_trans; [exact NX|]; nra). apply Rabs_le_inv in NX'.
    assert (DP : 6 / 10 <= toR d <= 1) by lra. assert (Q : Rabs (toR x / toR d - M) <= 1 / 10).
    { replace (toR x / toR d - M) with ((toR x - M * toR d) * / toR d) by (field; lra). assert (K1 : - (2 / 100) <= toR x - M * toR d <= 2 / 100) by nra.
      rewrite Rabs_mult, (Rabs_pos_eq (/ toR d)) by (apply Rlt_le, Rinv_0_lt_compat; lra). assert (K2 : / toR d <= 2) by (replace 2 with (/ (1 / 2)) by field; apply Rinv_le_contravar; lra). assert (K3 : 0 < / toR d) by (apply Rinv_0_lt_compat; lra). assert (K4 : Rabs (toR x - M * toR d) <= 2 / 100) by (apply Rabs_le; lra). assert (0 <= Rabs (toR x - M * toR d)) by apply Rabs_pos. nra. }
    apply Rabs_le_inv in Q. destruct (fdiv_R x d 30 FX ltac:(lra) ltac:(lia)) as [F E]; [rewrite bpow_pos; change (IZR (2 ^ 30)) with 1073741824; apply Rabs_le; lra|].
    split; [exact F|]. rewrite E. assert (Y := RN_err (toR x / toR d) 30 ltac:(lia) ltac:(rewrite bpow_pos; change (IZR (2 ^ 30)) with 1073741824; apply Rabs_le; lra)).
    change (30 - 54)%Z with (-24)%Z in Y. rewrite bpow_neg in Y. change (IZR (2 ^ 24)) with 16777216 in Y. apply Rabs_le_inv in Y. apply Rabs_le. lra.
Qed.

(** The turn. *)
Lemma inv_halfpi_tight : near inv_halfpi (2 / PI) (1 / 10 ^ 12).
Proof.
  destruct inv_halfpi_R as [F E]. split; [exact F|]. rewrite E, bp53. assert (T := pi_tight). assert (K : 2 / PI * PI = 2) by (field; lra). set (v := 2 / PI) in *. apply Rabs_le. nra.
Qed.
Lemma turn_near64 u t n : (1 <= n <= 2 ^ 29)%Z -> near u (t * (PI / 2)) (6 / 10 ^ 11) -> 0 <= t <= 4 -> near (fmul u inv_halfpi) t (/ (16 * IZR n)).
Proof.
  intros Hn Nu Ht. destruct pi_bounds as [L U]. assert (NB : 1 <= IZR n <= 536870912) by (split; apply IZR_le; lia).
  assert (X := near_mul _ _ _ _ _ _ 7 (2 / 3) 3 Nu inv_halfpi_tight ltac:(lia)). rewrite bp3 in X. change (3 - 54)%Z with (-51)%Z in X. rewrite bp51 in X.
  assert (K : 2 / PI * PI = 2) by (field; lra). assert (K2 : 2 / PI <= 2 / 3) by (set (v := 2 / PI) in *; nra). assert (K3 : 0 < 2 / PI) by (apply Rdiv_lt_0_compat; lra).
  specialize (X ltac:(rewrite Rabs_pos_eq; nra) ltac:(rewrite Rabs_pos_eq; lra) ltac:(lra)). replace (t * (PI / 2) * (2 / PI)) with t in X by (field; lra).
  eapply near_weak; [exact X|]. apply Rle_trans with (1 / 10 ^ 10); [lra|]. apply Rmult_le_reg_r with (16 * IZR n); [lra|]. rewrite Rinv_l by lra. lra.
Qed.
Lemma tc_zero64 n i j : (1 <= n <= 2 ^ 29)%Z -> on_ring n i j -> tc n i j < 1 / 10 ^ 10 -> (n <= i <= 3 * n)%Z /\ j = 1%Z /\ ((i - n) mod 2 = 1)%Z /\ tc n i j = 0.
Proof.
  intros Hn [Hi Hj] H. assert (NB : 1 <= IZR n <= 536870912) by (split; apply IZR_le; lia). unfold tc in *. unfold rlen in Hj.
  assert (G : forall m x, (1 <= m <= n)%Z -> 1 / 2 <= x -> x / IZR m < 1 / 10 ^ 10 -> False).
  { intros m x Hm Hx L. assert (1 <= IZR m <= 536870912) by (split; apply IZR_le; lia). apply (Rmult_lt_compat_r (IZR m)) in L; [|lra]. unfold Rdiv in L. rewrite Rmult_assoc, Rinv_l in L by lra. lra. }
  assert (J1 : 1 <= IZR j) by (apply IZR_le; lia).
  destruct (Z.ltb_spec i n); [exfalso; apply (G i (IZR j - 1 / 2)); [lia|lra|exact H]|]. destruct (Z.leb_spec i (3 * n)); [|exfalso; apply (G (4 * n - i)%Z (IZR j - 1 / 2)); [lia|lra|exact H]].
  assert (M : ((i - n) mod 2 = 0 \/ (i - n) mod 2 = 1)%Z) by (generalize (Z.mod_pos_bound (i - n) 2 ltac:(lia)); lia). destruct M as [M|M]; rewrite M in *; [exfalso; apply (G n (IZR j - (0 + 1) / 2)); [lia|lra|exact H]|].
  destruct (Z.eq_dec j 1) as [->|J]; [repeat split; [lia|lia|]; field; lra|]. exfalso. assert (2 <= IZR j) by (apply IZR_le; lia). apply (G n (IZR j - (1 + 1) / 2)); [lia|lra|exact H].
Qed.
Lemma wrap_small v : (0 <= v < 2 ^ 31)%Z -> wrap_int v = v.
Proof. intros H. unfold wrap_int. rewrite Z.mod_small; lia. Qed.

(** A direction close to position [j] of ring [i]. *)
Definition close64 (n i j : Z) (z s phi : b64) : Prop := fin z /\ fin phi /\ Rabs (toR z - zc n i) <= 3 / 10 ^ 12 /\ sine_ok (zc n i) s (3 / 10 ^ 12)
  /\ exists w : bool, Rabs (toR (fmodulo phi twopi) - (phic n i j + if w then 2 * PI else 0)) <= 6 / 10 ^ 11.
Section Close64.
Context (n i j : Z) (z s phi : b64) (Hn : (1 <= n <= 2 ^ 29)%Z) (R : on_ring n i j) (H : close64 n i j z s phi).
Let tt := fmul (fmodulo phi twopi) inv_halfpi.
Lemma z_near64 e : 3 / 10 ^ 12 <= e -> near z (zc n i) e. Proof. destruct H as (F & _ & K & _ & _). intros L. split; [exact F|lra]. Qed.
Lemma tt_near64 : exists w : bool, near tt (tc n i j + if w then 4 else 0) (/ (16 * IZR n)) /\ 0 <= tc n i j + (if w then 4 else 0) <= 4
  /\ (w = true -> (n <= i <= 3 * n)%Z /\ j = 1%Z /\ ((i - n) mod 2 = 1)%Z).
Proof.
  destruct H as (_ & F & _ & _ & w & K). destruct (fmodulo_R phi F) as [FU BU]. destruct pi_bounds as [L U]. assert (T := tc_range n i j ltac:(lia) R).
  assert (TW : toR twopi < 63 / 10 /\ toR twopi <= 2 * PI + 1 / 10 ^ 12) by (destruct twopi_R as [_ ->]; rewrite bp50; assert (PT := pi_tight); lra).
  assert (W : w = true -> (n <= i <= 3 * n)%Z /\ j = 1%Z /\ ((i - n) mod 2 = 1)%Z /\ tc n i j = 0).
  { intros ->. apply tc_zero64; [exact Hn|exact R|]. apply Rabs_le_inv in K. unfold phic in K. nra. }
  exists w. assert (B : 0 <= tc n i j + (if w then 4 else 0) <= 4) by (destruct w; [destruct (W eq_refl) as (_ & _ & _ & ->); lra|lra]).
  split; [|split; [exact B|intros E; destruct (W E) as (? & ? & ? & ?); tauto]].
  apply turn_near64; [exact Hn| |exact B]. split; [exact FU|]. replace ((tc n i j + (if w then 4 else 0)) * (PI / 2)) with (phic n i j + if w then 2 * PI else 0); [exact K|]. unfold phic. destruct w; field.
Qed.
Lemma branch_belt64 : fle (Babs z) twothird = true -> (n <= i <= 3 * n)%Z.
Proof.
  intros C. assert (NB : 1 <= IZR n <= 536870912) by (split; apply IZR_le; lia). destruct twothird_R as [F23 E23]. destruct (abs_near _ _ _ (z_near64 _ (Rle_refl _))) as [FA NA].
  apply fle_R in C; [|assumption..]. rewrite E23 in C. destruct R as [Ri _]. apply Rabs_le_inv in NA.
  assert (I3 : / 1610612736 <= / (3 * IZR n)) by (apply Rinv_le_contravar; lra).
  destruct (Z.lt_ge_cases i n) as [A|A]; [|destruct (Z.le_gt_cases i (3 * n)) as [B|B]; [lia|]]; exfalso.
  - destruct (cap_gap n i ltac:(lia)) as [G1 G2]. specialize (G2 A). rewrite (zc_north n i) in NA by lia. cbv zeta in G2. rewrite Rabs_pos_eq in NA; lra.
  - destruct (cap_gap n (4 * n - i) ltac:(lia)) as [G1 G2]. specialize (G2 ltac:(lia)). rewrite (zc_south n i) in NA by lia. cbv zeta in G2. rewrite Rabs_left in NA; lra.
Qed.
Lemma branch_cap64 : fle (Babs z) twothird = false -> ((1 <= i <= n)%Z /\ 0 < toR z) \/ ((3 * n <= i < 4 * n)%Z /\ toR z < 0).
Proof.
  intros C. assert (NB : 1 <= IZR n <= 536870912) by (split; apply IZR_le; lia). destruct twothird_R as [F23 E23]. destruct (abs_near _ _ _ (z_near64 _ (Rle_refl _))) as [FA NA]. destruct (z_near64 _ (Rle_refl _)) as [Fz Nz].
  apply fle_false in C; [|assumption..]. rewrite E23 in C. destruct R as [Ri _]. apply Rabs_le_inv in NA. apply Rabs_le_inv in Nz.
  assert (I3 : / 1610612736 <= / (3 * IZR n)) by (apply Rinv_le_contravar; lra).
  destruct (Z.le_gt_cases i n) as [A|A]; [left|destruct (Z.lt_ge_cases i (3 * n)) as [B|B]; [exfalso|right]].
  - destruct (cap_gap n i ltac:(lia)) as [G1 _]. rewrite (zc_north n i) in Nz by lia. split; [lia|lra].
  - generalize (zc_mid n i ltac:(lia) ltac:(lia)). lra.
  - destruct (cap_gap n (4 * n - i) ltac:(lia)) as [G1 _]. rewrite (zc_south n i) in Nz by lia. split; [lia|lra].
Qed.
(** The cap, seen from its pole. *)
Lemma cap_floors64 m : (1 <= m <= n)%Z -> (m = i /\ (i <= n)%Z) \/ (m = 4 * n - i /\ 3 * n <= i)%Z -> fle (Babs z) twothird = false -> exists c, (0 <= c <= 3)%Z /\ (c * m <= j - 1 < (c + 1) * m)%Z
  /\ to_int tt = Ok c /\ let tp := fsub tt (of_int c) in let tmp := cap_rings64 (of_int n) z s in
     to_long (fmul tp tmp) = Ok (j - 1 - c * m)%Z /\ to_long (fmul (fsub (of_int 1) tp) tmp) = Ok (m - j + c * m)%Z /\ to_long (fmul tt (of_int m)) = Ok (j - 1)%Z.
Proof.
  intros Hm Hi C. destruct R as [Ri Rj]. unfold rlen in Rj.
  assert (RL : (1 <= j <= 4 * m)%Z). { destruct (Z.ltb_spec i n); [destruct Hi; lia|]. destruct (Z.leb_spec i (3 * n)); destruct Hi; lia. }
  assert (T : tc n i j = (IZR j - 1 / 2) / IZR m).
  { unfold tc. destruct (Z.ltb_spec i n); [destruct Hi as [[-> _]|]; [reflexivity|lia]|]. destruct (Z.leb_spec i (3 * n)); [|destruct Hi as [|[-> _]]; [lia|reflexivity]].
    assert (m = n) by lia. subst m. replace ((i - n) mod 2)%Z with 0%Z; [f_equal; lra|]. destruct Hi as [[? ?]|[? ?]]; [replace (i - n)%Z with 0%Z by lia; reflexivity|replace (i - n)%Z with (n * 2)%Z by lia; symmetry; apply Z.mod_mul; lia]. }
  destruct tt_near64 as (w & NT & BT & W). assert (w = false).
  { destruct w; [exfalso|reflexivity]. destruct (W eq_refl) as (W1 & W2 & W3). assert (E : (i = n \/ i = 3 * n)%Z) by lia. destruct E as [-> | ->]; [rewrite Z.sub_diag in W3; discriminate W3|]. replace (3 * n - n)%Z with (n * 2)%Z in W3 by lia. rewrite Z.mod_mul in W3 by lia. discriminate W3. }
  subst w. rewrite Rplus_0_r, T in NT. destruct (quarter (j - 1) m) as (c & Hc & B); [lia|lia|]. exists c. assert (C3 : (0 <= c <= 3)%Z) by lia.
  assert (NM : near (cap_rings64 (of_int n) z s) (IZR m) (1 / 8)).
  { assert (Nz : near z (zc n i) (3 / 10 ^ 12)) by (apply z_near64; lra). assert (Ns : sine_ok (zc n i) s (3 / 10 ^ 12)) by apply H. destruct Hi as [[E I]|[E I]].
    - assert (Z1 : zc n i = 1 * (1 - IZR m * IZR m / (3 * (IZR n * IZR n)))) by (rewrite Rmult_1_l, E, <- zc_north by lia; reflexivity). rewrite Z1 in Nz, Ns. apply (rings_near n m z s 1 Hn Hm ltac:(tauto) Nz Ns).
    - assert (Z1 : zc n i = -1 * (1 - IZR m * IZR m / (3 * (IZR n * IZR n)))) by (rewrite E, zc_south by lia; ring). rewrite Z1 in Nz, Ns. apply (rings_near n m z s (-1) Hn Hm ltac:(tauto) Nz Ns). }
  destruct (quadrant n m j c ltac:(lia) Hm C3 B tt NT) as [FT QT]. destruct (edges_near n m j c ltac:(lia) Hm C3 B tt _ NT NM) as [E1 E2]. assert (E3 := place_near n m j c ltac:(lia) Hm C3 B tt NT).
  split; [exact C3|]. split; [lia|]. split; [rewrite <- QT; apply to_int_R; [exact FT|rewrite QT; lia]|]. cbv zeta.
  split; [apply (near_to_long _ _ _ E1); [lra|nia]|]. split; [apply (near_to_long _ _ _ E2); [lra|nia]|]. apply (near_to_long _ _ _ E3); [lra|nia].
Qed.
End Close64.

Lemma near_nest64 a x y f i j z s phi : (0 <= a <= 29)%Z -> on_grid (2 ^ a) x y f -> enc (2 ^ a) x y f = (i, j) -> close64 (2 ^ a) i j z s phi -> ang2xyf64 (2 ^ a) z s phi = Ok (x, y, f).
Proof.
  intros Ha G E H. assert (P : (1 <= 2 ^ a <= 536870912)%Z) by (split; [assert (0 < 2 ^ a)%Z by (apply Z.pow_pos_nonneg; lia); lia|change 536870912%Z with (2 ^ 29)%Z; apply Z.pow_le_mono_r; lia]).
  assert (LM : forall p, Z.land p (2 ^ a - 1) = (p mod 2 ^ a)%Z) by (intro; apply land_mod; lia).
  set (n := (2 ^ a)%Z) in *. clearbody n. assert (FACTS := enc_ok n x y f ltac:(lia) G). unfold ring_facts in FACTS. rewrite E in FACTS. destruct FACTS as (R & _ & _).
  assert (Hn : (1 <= n <= 2 ^ 29)%Z) by lia. unfold ang2xyf64. destruct (fle (Babs z) twothird) eqn:C.
  - assert (I := branch_belt64 n i j z s phi Hn R H C). destruct (tt_near64 n i j z s phi Hn R H) as (w & NT & BT & W).
    assert (RJ : (1 <= j <= 4 * n)%Z) by (destruct R as [_ Rj]; unfold rlen in Rj; rewrite (proj2 (Z.ltb_ge i n)), (proj2 (Z.leb_le i (3 * n))) in Rj by lia; exact Rj).
    assert (NZ : near z (zc n i) (/ (16 * IZR n))). { apply (z_near64 n i j z s phi H). assert (1 <= IZR n <= 536870912) by (split; apply IZR_le; lia). apply Rmult_le_reg_r with (16 * IZR n); [lra|]. rewrite Rinv_l by lra. lra. }
    destruct (lines_near n i j ltac:(lia) ltac:(lia) _ _ BT NT w eq_refl _ (temp2_near n i ltac:(lia) ltac:(lia) z NZ)) as [L1 L2].
    destruct (grid_belt n x y f i j w ltac:(lia) G E I ltac:(intros K; destruct (W K) as (_ & ? & ?); tauto)) as (GB & JP & JM). cbv zeta in GB, JP, JM.
    assert (D1 : ((i - n - (i - n) mod 2) / 2 <= i)%Z) by (apply Z.div_le_upper_bound; [lia|]; generalize (Z.mod_pos_bound (i - n) 2 ltac:(lia)); lia).
    assert (D2 : (0 <= (i - n + (i - n) mod 2) / 2)%Z) by (apply Z.div_pos; [generalize (Z.mod_pos_bound (i - n) 2 ltac:(lia)); lia|lia]).
    rewrite (near_to_long _ _ _ L1); [|lra|split; [exact JP|destruct w; lia]]. cbn [bind].
    rewrite (near_to_long _ _ _ L2); [|lra|split; [exact JM|destruct w; lia]]. cbn [bind].
    rewrite !LM. rewrite GB. reflexivity.
  - destruct (branch_cap64 n i j z s phi Hn R H C) as [[I S]|[I S]].
    + destruct (cap_floors64 n i j z s phi Hn R H i ltac:(lia) ltac:(lia) C) as (c & C3 & B & T & E1 & E2 & _). cbv zeta in E1, E2. rewrite T. cbn [bind]. rewrite (proj2 (Z.leb_gt 4 c)) by lia. rewrite E1. cbn [bind]. rewrite E2. cbn [bind]. rewrite !wrap_small by nia.
      rewrite (proj2 (Z.leb_gt n (j - 1 - c * i))), (proj2 (Z.leb_gt n (i - j + c * i))) by lia.
      assert (Z0 : fle (of_int 0) z = true) by (apply fle_R; [apply zero_int|apply H|rewrite (proj2 zero_int); lra]). rewrite Z0. f_equal. apply (grid_north n x y f i j c); try assumption; lia.
    + set (k := (4 * n - i)%Z). destruct (cap_floors64 n i j z s phi Hn R H k ltac:(lia) ltac:(lia) C) as (c & C3 & B & T & E1 & E2 & _). cbv zeta in E1, E2. rewrite T. cbn [bind]. rewrite (proj2 (Z.leb_gt 4 c)) by lia. rewrite E1. cbn [bind]. rewrite E2. cbn [bind]. rewrite !wrap_small by nia.
      rewrite (proj2 (Z.leb_gt n (j - 1 - c * k))), (proj2 (Z.leb_gt n (k - j + c * k))) by nia.
      assert (Z0 : fle (of_int 0) z = false) by (apply fle_false; [apply zero_int|apply H|rewrite (proj2 zero_int); lra]). rewrite Z0. f_equal. apply (grid_south n x y f i j c); try assumption; lia.
Qed.

Lemma near_ring64 n i j z s phi : (1 <= n <= 2 ^ 29)%Z -> on_ring n i j -> close64 n i j z s phi -> ang2pix_ring_z_phi64 n z s phi = Ok (start n i + j - 1)%Z.
Proof.
  intros Hn R H. unfold ang2pix_ring_z_phi64. assert (SC := start_cases n i ltac:(lia) (proj1 R)). destruct (fle (Babs z) twothird) eqn:C.
  - assert (I := branch_belt64 n i j z s phi Hn R H C). destruct (tt_near64 n i j z s phi Hn R H) as (w & NT & BT & W).
    assert (RJ : (1 <= j <= 4 * n)%Z) by (destruct R as [_ Rj]; unfold rlen in Rj; rewrite (proj2 (Z.ltb_ge i n)), (proj2 (Z.leb_le i (3 * n))) in Rj by lia; exact Rj).
    assert (NZ : near z (zc n i) (/ (16 * IZR n))). { apply (z_near64 n i j z s phi H). assert (1 <= IZR n <= 536870912) by (split; apply IZR_le; lia). apply Rmult_le_reg_r with (16 * IZR n); [lra|]. rewrite Rinv_l by lra. lra. }
    destruct (lines_near n i j ltac:(lia) ltac:(lia) _ _ BT NT w eq_refl _ (temp2_near' n i ltac:(lia) ltac:(lia) z NZ)) as [L1 L2].
    set (ks := ((i - n) mod 2)%Z) in *. assert (KS: (0 <= ks <= 1)%Z) by (unfold ks; generalize (Z.mod_pos_bound (i - n) 2 ltac:(lia)); lia).
    assert (P1: (2 * ((i - n - ks) / 2) = i - n - ks)%Z) by (unfold ks; Z.to_euclidean_division_equations; lia).
    assert (P2: (2 * ((i - n + ks) / 2) = i - n + ks)%Z) by (unfold ks; Z.to_euclidean_division_equations; lia).
    set (h1 := ((i - n - ks) / 2)%Z) in *. set (h2 := ((i - n + ks) / 2)%Z) in *.
    rewrite (near_to_long _ _ _ L1); [|lra|split; destruct w; lia]. cbn [bind].
    rewrite (near_to_long _ _ _ L2); [|lra|split; destruct w; lia]. cbn [bind]. set (up := if w then (4 * n)%Z else 0%Z) in *.
    replace (n + 1 + (j + h1 - 1 + up) - (j + n - 1 - h2 + up))%Z with (i - n + 1)%Z by lia.
    rewrite land1. assert (K1 : (1 - (i - n + 1) mod 2)%Z = ks) by (unfold ks; Z.to_euclidean_division_equations; lia). rewrite K1.
    replace (j + h1 - 1 + up + (j + n - 1 - h2 + up) - n + ks + 1)%Z with (2 * (j + up) - 1)%Z by lia.
    assert (U : (0 <= up)%Z) by (unfold up; destruct w; lia). rewrite Z.quot_div_nonneg by lia. replace ((2 * (j + up) - 1) / 2)%Z with (j + up - 1)%Z by (Z.to_euclidean_division_equations; lia).
    assert (IM : imodulo (j + up - 1) (4 * n) = (j - 1)%Z).
    { unfold imodulo. rewrite Z.rem_mod_nonneg by lia. replace ((j + up - 1) mod (4 * n))%Z with (j - 1)%Z; [now rewrite (proj2 (Z.leb_le 0 (j - 1))) by lia|]. unfold up. destruct w; [replace (j + 4 * n - 1)%Z with (j - 1 + 1 * (4 * n))%Z by lia; rewrite Z.mod_add by lia|rewrite Z.add_0_r]; symmetry; apply Z.mod_small; lia. }
    rewrite IM. f_equal. destruct SC as [(A & -> & _)|[(A & -> & _)|(A & -> & _)]]; [lia| |lia]. lia.
  - destruct (branch_cap64 n i j z s phi Hn R H C) as [[I S]|[I S]].
    + destruct (cap_floors64 n i j z s phi Hn R H i ltac:(lia) ltac:(lia) C) as (c & C3 & B & T & E1 & E2 & E3). cbv zeta in E1, E2. rewrite T. cbn [bind]. rewrite E1. cbn [bind]. rewrite E2. cbn [bind].
      replace (j - 1 - c * i + (i - j + c * i) + 1)%Z with i by lia. rewrite E3. cbn [bind]. rewrite imod_small by nia.
      assert (Z0 : flt (of_int 0) z = true) by (apply flt_R; [apply zero_int|apply H|rewrite (proj2 zero_int); lra]). rewrite Z0. f_equal. destruct SC as [(A & -> & _)|[(A & -> & _)|(A & -> & _)]]; [lia| |lia]. replace i with n by lia. lia.
    + set (k := (4 * n - i)%Z). destruct (cap_floors64 n i j z s phi Hn R H k ltac:(lia) ltac:(lia) C) as (c & C3 & B & T & E1 & E2 & E3). cbv zeta in E1, E2. rewrite T. cbn [bind]. rewrite E1. cbn [bind]. rewrite E2. cbn [bind].
      replace (j - 1 - c * k + (k - j + c * k) + 1)%Z with k by lia. rewrite E3. cbn [bind]. rewrite imod_small by nia.
      assert (Z0 : flt (of_int 0) z = false) by (apply flt_false; [apply zero_int|apply H|rewrite (proj2 zero_int); lra]). rewrite Z0. f_equal. destruct SC as [(A & -> & _)|[(A & -> & _)|(A & -> & _)]]; [lia| |unfold k; lia]. unfold k. replace i with (3 * n)%Z by lia. lia.
Qed.
