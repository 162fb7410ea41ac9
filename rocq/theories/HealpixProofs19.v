(** The public functions: round trips between pixels and directions in double arithmetic, with 64-bit pixel numbers. *)
From Coq Require Import ZArith List Bool Reals Lra Lia Psatz.
From Flocq Require Import Core IEEE754.BinarySingleNaN.
From Verif Require Import CLib FloatModel FloatLemmas GeoLemmas TleProofs3 PipeProofs5 CalendarProofs2 CalendarProofs3 CalendarProofs4.
From Verif Require Import HealpixModel HealpixSpec HealpixAngModel HealpixRealModel HealpixFloatModel HealpixFloatSpec HealpixAng64Model HealpixAng64Spec HealpixProofs1 HealpixProofs2 HealpixProofs3 HealpixProofs4 HealpixProofs5 HealpixProofs6 HealpixProofs7 HealpixProofs8 HealpixProofs9 HealpixProofs10 HealpixProofs11 HealpixProofs12 HealpixProofs13 HealpixProofs14 HealpixProofs15 HealpixProofs16 HealpixProofs17 HealpixProofs18.
Import ListNotations.
Open Scope R_scope.

(** The functions a program calls. *)
Lemma sin_diff x y : Rabs (sin x - sin y) <= Rabs (x - y).
Proof. rewrite <- !cos_shift. eapply Rle_trans; [apply cos_diff|]. replace (PI / 2 - x - (PI / 2 - y)) with (- (x - y)) by ring. rewrite Rabs_Ropp. lra. Qed.
Lemma zc_inside64 n i : (1 <= n <= 2 ^ 29)%Z -> (1 <= i < 4 * n)%Z -> Rabs (zc n i) <= 1 - 1 / 10 ^ 18.
Proof.
  intros Hn Hi. assert (NB : 1 <= IZR n <= 536870912) by (split; apply IZR_le; lia). assert (N2 : 1 <= IZR n * IZR n <= 288230376151711744) by nra.
  assert (I3 : / 864691128455135232 <= / (3 * (IZR n * IZR n))) by (apply Rinv_le_contravar; lra).
  destruct (Z.le_gt_cases i n) as [A|A]; [|destruct (Z.lt_ge_cases i (3 * n)) as [B|B]].
  - rewrite zc_north by lia. destruct (cap_gap n i ltac:(lia)) as [G _]. cbv zeta in G. apply Rabs_le. lra.
  - eapply Rle_trans; [apply zc_belt; lia|lra].
  - rewrite zc_south by lia. destruct (cap_gap n (4 * n - i) ltac:(lia)) as [G _]. cbv zeta in G. apply Rabs_le. lra.
Qed.
Lemma theta_ok fc fs th z0 : good_cos fc -> good_sin fs -> fin th -> 0 <= toR th <= toR hp_pi -> Rabs (cos (toR th) - z0) <= 15 / 10 ^ 13 -> Rabs (sin (toR th) - sqrt (1 - z0 * z0)) <= 19 / 10 ^ 13 ->
  (fle (of_int 0) th && fle th hp_pi = true)%bool /\ near (fc th) z0 (3 / 10 ^ 12) /\ sine_ok z0 (sine64 fs (fc th) th) (3 / 10 ^ 12).
Proof.
  intros HC HS F B C S. destruct hp_pi_near as [Fpi Npi]. apply Rabs_le_inv in Npi. destruct pi_bounds as [PL PU]. split.
  - apply andb_true_intro. split; [apply fle_R; [apply zero_int|exact F|rewrite (proj2 zero_int); lra]|apply fle_R; [exact F|exact Fpi|lra]].
  - destruct (HC th F ltac:(lra)) as [Fc Dc]. destruct (HS th F ltac:(lra)) as [Fs Ds]. apply Rabs_le_inv in Dc, Ds, C, S. assert (N : near (fc th) z0 (3 / 10 ^ 12)) by (split; [exact Fc|apply Rabs_le; lra]). split; [exact N|].
    unfold sine64. destruct (flt (lit 99 100) (Babs (fc th))) eqn:Q.
    + right. split; [exact Fs|apply Rabs_le; lra].
    + left. split; [reflexivity|]. destruct (lit99 99 ltac:(lia)) as [FL NL]. destruct (abs_near _ _ _ N) as [Fa Na]. apply (flt_false _ _ FL Fa) in Q. apply Rabs_le_inv in NL, Na. unfold v52 in NL. lra.
Qed.
Lemma sqrt_close z z0 e : Rabs (z - z0) <= e -> e <= 1 / 10 ^ 13 -> Rabs z0 <= 991 / 1000 -> Rabs (sqrt (1 - z * z) - sqrt (1 - z0 * z0)) <= 16 * e.
Proof.
  intros H L B. assert (0 <= e) by (eapply Rle_trans; [apply Rabs_pos|exact H]). apply Rabs_le_inv in H, B. assert (P : 0 <= 1 - z * z) by nra. assert (P0 : 0 <= 1 - z0 * z0) by nra.
  assert (Q := sqrt_sqrt _ P0). assert (Q0 := sqrt_pos (1 - z0 * z0)). set (r := sqrt (1 - z0 * z0)) in *. assert (R13 : 13 / 100 <= r) by nra.
  eapply Rle_trans; [apply (sqrt_gap _ r (2 * e) P ltac:(lra)); rewrite Q; apply Rabs_le; nra|]. apply Rmult_le_reg_r with r; [lra|]. unfold Rdiv. rewrite Rmult_assoc, Rinv_l by lra. nra.
Qed.
Lemma small_prod a b e c : - e <= a <= e -> - c <= b <= c -> - (e * c) <= a * b <= e * c.
Proof. intros A B. assert (H : Rabs (a * b) <= e * c); [|apply Rabs_le_inv in H; exact H]. rewrite Rabs_mult. apply Rmult_le_compat; try apply Rabs_pos; apply Rabs_le; assumption. Qed.
Lemma through_theta64 fc fs fa ft z s z0 : good_cos fc -> good_sin fs -> good_acos fa -> good_atan2 ft -> near z z0 (10 * v52) -> sine_ok z0 s (17 * v52) -> Rabs z0 <= 1 - 1 / 10 ^ 18 ->
  let th := colatitude64 fa ft z s in (fle (of_int 0) th && fle th hp_pi = true)%bool /\ near (fc th) z0 (3 / 10 ^ 12) /\ sine_ok z0 (sine64 fs (fc th) th) (3 / 10 ^ 12).
Proof.
  intros HC HS HA HT [F H] S B th. destruct hp_pi_near as [Fpi Npi]. apply Rabs_le_inv in Npi. destruct pi_bounds as [PL PU]. unfold v52 in H. destruct S as [[-> Z]|[Fs Ns]].
  - assert (TH : th = fa z) by (unfold th, colatitude64; replace (flt (of_int (-5)) (of_int (-2))) with true by (vm_compute; reflexivity); reflexivity). rewrite TH. clear TH th.
    assert (H' := H). assert (Z' := Z). apply Rabs_le_inv in H, Z. destruct (HA z F ltac:(lra)) as [Fa Da]. assert (I := acos_inside (toR z) ltac:(lra)). assert (CA := cos_acos (toR z) ltac:(lra)).
    assert (SA := sin_acos (toR z) ltac:(lra)). assert (SC := sqrt_close (toR z) z0 _ H' ltac:(lra) Z'). rewrite Rsqr_pow2 in SA. replace (toR z ^ 2) with (toR z * toR z) in SA by ring. rewrite <- SA in SC.
    assert (D1 := cos_diff (toR (fa z)) (acos (toR z))). assert (D2 := sin_diff (toR (fa z)) (acos (toR z))). rewrite CA in D1. apply (fun A => Rle_trans _ _ _ A Da) in D1. apply (fun A => Rle_trans _ _ _ A Da) in D2. apply Rabs_le_inv in Da, D1, D2, SC.
    apply theta_ok; try assumption; try (apply Rabs_le); lra.
  - assert (P0 : 0 <= 1 - z0 * z0) by (apply Rabs_le_inv in B; nra). assert (Q := sqrt_sqrt _ P0). assert (Q0 := sqrt_pos (1 - z0 * z0)). set (s0 := sqrt (1 - z0 * z0)) in *. unfold v52 in Ns. apply Rabs_le_inv in H, Ns, B.
    assert (S9 : 1 / 10 ^ 9 <= s0). { assert (K : 1 / 10 ^ 18 <= s0 * s0). { rewrite Q. replace (z0 * z0) with (Rabs z0 * Rabs z0) by (rewrite <- Rabs_mult; apply Rabs_pos_eq; apply Rle_0_sqr). assert (Rabs z0 <= 1 - 1 / 10 ^ 18) by (apply Rabs_le; exact B). assert (0 <= Rabs z0) by apply Rabs_pos. assert (Rabs z0 * Rabs z0 <= Rabs z0 * 1) by (apply Rmult_le_compat_l; lra). lra. } destruct (Rle_lt_dec (1 / 10 ^ 9) s0) as [|W]; [assumption|exfalso]. assert (s0 * s0 <= s0 * (1 / 10 ^ 9)) by (apply Rmult_le_compat_l; lra). lra. }
    destruct (of_int_R (-2) ltac:(lia)) as [F2 E2]. assert (TH : th = ft s z) by (unfold th, colatitude64; replace (flt s (of_int (-2))) with false by (symmetry; apply flt_false; [exact Fs|exact F2|rewrite E2; lra]); reflexivity). rewrite TH. clear TH th. set (th := ft s z).
    remember (toR s) as y eqn:EY. remember (toR z) as x eqn:EX. remember s0 as s1 eqn:ES. unfold s0 in ES. clear s0. rename s1 into s0. assert (YB : 9 / 10 ^ 10 <= y) by lra. assert (S1 : s0 <= 1) by (destruct (Rle_lt_dec s0 1) as [|W]; [assumption|exfalso; nra]). 
    set (r := sqrt (x * x + y * y)). assert (RR : r * r = x * x + y * y) by (apply sqrt_sqrt; nra). assert (R0 : 0 <= r) by apply sqrt_pos.
    assert (RB : Rabs (r - 1) <= 1 / 10 ^ 13). { replace (r - 1) with (sqrt (x * x + y * y) - 1) by reflexivity. eapply Rle_trans; [apply (sqrt_gap _ 1 (1 / 10 ^ 13)); [nra|lra|]|lra]. replace (x * x + y * y - 1 * 1) with ((x - z0) * (x + z0) + (y - s0) * (y + s0)) by lra. assert (K1 := small_prod (x - z0) (x + z0) _ 3 H ltac:(lra)). assert (K2 := small_prod (y - s0) (y + s0) _ 3 Ns ltac:(lra)). apply Rabs_le. lra. } apply Rabs_le_inv in RB.
    assert (XR : -1 <= x / r <= 1). { assert (V : x / r * r = x) by (field; lra). set (v := x / r) in *. assert (v * v * (r * r) <= 1 * (r * r)) by (replace (v * v * (r * r)) with (x * x) by (rewrite <- V; ring); rewrite RR; generalize (Rle_0_sqr y); unfold Rsqr; lra). assert (v * v <= 1) by (apply Rmult_le_reg_r with (r * r); [apply Rmult_lt_0_compat; lra|lra]). clearbody v. nra. }
    set (t := acos (x / r)). assert (CT : cos t = x / r) by (apply cos_acos; exact XR). assert (TB : 0 <= t <= PI) by apply acos_bound.
    assert (ST : sin t = y / r). { unfold t. rewrite sin_acos by exact XR. apply sqrt_lem_1; [|apply Rlt_le, Rdiv_lt_0_compat; lra|]; [generalize (neg_pos_Rsqr_le (x / r) 1 ltac:(lra) ltac:(lra)); unfold Rsqr; lra|]. rewrite Rsqr_pow2. replace (y / r * (y / r)) with (y * y / (r * r)) by (field; lra). replace ((x / r) ^ 2) with (x * x / (r * r)) by (field; lra). replace (y * y) with (r * r - x * x) by lra. field. lra. }
    destruct (HT s z r t Fs F ltac:(lra) TB) as [Ft Dt]; [rewrite <- EY, ST; field; lra|rewrite <- EX, CT; field; lra|]. change (ft s z) with th in Ft, Dt.
    assert (IR : Rabs (/ r - 1) <= 2 / 10 ^ 13). { replace (/ r - 1) with ((1 - r) * / r) by (field; lra). assert (0 < / r <= 2) by (split; [apply Rinv_0_lt_compat; lra|replace 2 with (/ (1 / 2)) by field; apply Rinv_le_contravar; lra]). assert (K := small_prod (1 - r) (/ r) (1 / 10 ^ 13) 2 ltac:(lra) ltac:(lra)). apply Rabs_le. lra. } apply Rabs_le_inv in IR.
    assert (YS : 8 / 10 ^ 10 <= sin t). { rewrite ST. unfold Rdiv at 2. assert (9 / 10 ^ 10 * (9 / 10) <= y * / r) by (apply Rmult_le_compat; lra). lra. }
    assert (T0 : sin t <= t) by (destruct (Req_dec t 0) as [-> |]; [rewrite sin_0; lra|apply Rlt_le, sin_lt_x; lra]).
    assert (T1 : sin t <= PI - t) by (rewrite <- sin_PI_x; destruct (Req_dec (PI - t) 0) as [-> |]; [rewrite sin_0; lra|apply Rlt_le, sin_lt_x; lra]).
    assert (D1 := cos_diff (toR th) t). assert (D2 := sin_diff (toR th) t). apply (fun A => Rle_trans _ _ _ A Dt) in D1. apply (fun A => Rle_trans _ _ _ A Dt) in D2. apply Rabs_le_inv in Dt, D1, D2.
    assert (CZ : - (3 / 10 ^ 13) <= cos t - z0 <= 3 / 10 ^ 13) by (rewrite CT; replace (x / r - z0) with ((x - z0) * / r + z0 * (/ r - 1)) by (field; lra); assert (K1 := small_prod (x - z0) (/ r) _ 2 H ltac:(lra)); assert (K2 := small_prod z0 (/ r - 1) 1 (2 / 10 ^ 13) ltac:(lra) ltac:(lra)); lra). assert (SZ : - (3 / 10 ^ 13) <= sin t - s0 <= 3 / 10 ^ 13) by (rewrite ST; replace (y / r - s0) with ((y - s0) * / r + s0 * (/ r - 1)) by (field; lra); assert (K1 := small_prod (y - s0) (/ r) _ 2 Ns ltac:(lra)); assert (K2 := small_prod s0 (/ r - 1) 1 (2 / 10 ^ 13) ltac:(lra) ltac:(lra)); lra).
    apply theta_ok; try assumption; try (apply Rabs_le); try (rewrite <- ES); lra.
Qed.
Lemma public_ring64 fc fs fa ft n p : good_cos fc -> good_sin fs -> good_acos fa -> good_atan2 ft -> (1 <= n <= 2 ^ 29)%Z -> valid_pixel n p ->
  exists theta phi, pix2ang_ring64 fa ft n p = Ok (theta, phi) /\ ang2pix_ring64 fc fs n theta phi = Ok (Some p).
Proof.
  intros HC HS HA HT Hn V. destruct (ring_cover n p ltac:(lia) V) as (i & j & R & E). destruct (centre_ring64 n i j Hn R) as (z & s & phi & C & [Nz Ns] & Np). rewrite <- E in C.
  unfold pix2ang_ring64. rewrite C. cbn [bind]. eexists. eexists. split; [reflexivity|]. destruct (through_theta64 fc fs fa ft z s _ HC HS HA HT Nz Ns (zc_inside64 n i Hn (proj1 R))) as (T & N & S). cbv zeta in T, N, S.
  unfold ang2pix_ring64. rewrite T. rewrite (near_ring64 n i j _ _ phi Hn R); [cbn [bind]; now rewrite E|]. apply close_of64; [exact Hn|exact R|]. now apply near_close64.
Qed.
Lemma public_nest64 fc fs fa ft n p : good_cos fc -> good_sin fs -> good_acos fa -> good_atan2 ft -> power_of_two_upto 29 n -> valid_pixel n p ->
  exists theta phi, pix2ang_nest64 fa ft n p = Ok (theta, phi) /\ ang2pix_nest64 fc fs n theta phi = Ok (Some p).
Proof.
  intros HC HS HA HT H V. destruct (nest_ring_nest64 n p H V) as (q & Q & _). destruct (nest_view n p q H V Q) as (x & y & f & i & j & D & G & EN & EE & R & E & Hn). destruct (centre_nest64 n x y f i j p Hn G EE D) as (z & s & phi & C & [Nz Ns] & Np).
  unfold pix2ang_nest64. rewrite C. cbn [bind]. eexists. eexists. split; [reflexivity|]. destruct (through_theta64 fc fs fa ft z s _ HC HS HA HT Nz Ns (zc_inside64 n i Hn (proj1 R))) as (T & N & S). cbv zeta in T, N, S.
  unfold ang2pix_nest64. rewrite T. assert (C' : close64 n i j (fc (colatitude64 fa ft z s)) (sine64 fs (fc (colatitude64 fa ft z s)) (colatitude64 fa ft z s)) phi) by (apply close_of64; [exact Hn|exact R|now apply near_close64]).
  unfold ang2pix_nest_z_phi64. destruct H as (a & Ha & ->). rewrite (near_nest64 a x y f i j _ _ phi Ha G EE C'). cbn [bind]. now rewrite EN.
Qed.
Lemma good_library64 : exists fc fs fa ft, good_cos fc /\ good_sin fs /\ good_acos fa /\ good_atan2 ft.
Proof.
  destruct good_library as (fc & fa & HC & HA). exists fc, (fun x => dyadic (Zfloor (sin (toR x) * 1125899906842624)) (-50)), fa.
  exists (fun y x => dyadic (Zfloor (acos (toR x / sqrt (toR y * toR y + toR x * toR x)) * 1125899906842624)) (-50)).
  split; [exact HC|]. split; [intros x F H; apply cut_near; generalize (SIN_bound (toR x)); lra|]. split; [exact HA|].
  intros y x r t Fy Fx Hr Ht Ey Ex. rewrite Ey, Ex. replace (r * sin t * (r * sin t) + r * cos t * (r * cos t)) with (r * r * ((sin t)² + (cos t)²)) by (unfold Rsqr; ring). rewrite sin2_cos2, Rmult_1_r, sqrt_square by lra.
  replace (r * cos t / r) with (cos t) by (field; lra). rewrite acos_cos by exact Ht. apply cut_near. generalize pi_bounds. lra.
Qed.
