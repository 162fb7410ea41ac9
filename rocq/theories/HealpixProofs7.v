(** Conversions between the orderings; resolution and pixel count. *)
From Coq Require Import ZArith List Bool Reals Lra Lia.
From Flocq Require Import Core IEEE754.BinarySingleNaN.
From Verif Require Import CLib FloatModel FloatLemmas CalendarProofs3 CalendarProofs4.
From Verif Require Import HealpixModel HealpixSpec HealpixProofs1 HealpixProofs2 HealpixProofs3 HealpixProofs6.
Import ListNotations.
Open Scope Z_scope.

Lemma power_land : forall n, 1 <= n -> Z.land n (n - 1) = 0 <-> exists a, 0 <= a /\ n = 2 ^ a.
Proof.
  intros n Hn. split.
  - intro H. exists (Z.log2 n). split; [apply Z.log2_nonneg|].
    destruct (Z.log2_spec n ltac:(lia)) as [L U]. destruct (Z.eq_dec n (2 ^ Z.log2 n)) as [E|N]; [exact E|exfalso].
    assert (B1: Z.testbit n (Z.log2 n) = true) by (apply Z.bit_log2; lia).
    assert (LG: Z.log2 (n - 1) = Z.log2 n). { apply Z.log2_unique; [apply Z.log2_nonneg|]. lia. }
    assert (P: 0 < 2 ^ Z.log2 n) by (apply Z.pow_pos_nonneg; [lia|apply Z.log2_nonneg]).
    assert (B2: Z.testbit (n - 1) (Z.log2 n) = true) by (rewrite <- LG at 1; apply Z.bit_log2; lia).
    assert (B3: Z.testbit (Z.land n (n - 1)) (Z.log2 n) = true) by (rewrite Z.land_spec, B1, B2; reflexivity).
    rewrite H, Z.bits_0 in B3. discriminate.
  - intros (a & Ha & ->). replace (2 ^ a - 1) with (Z.ones a) by (rewrite Z.ones_equiv; lia). rewrite Z.land_ones by lia.
    apply Z.mod_same. apply Z.pow_nonzero; lia.
Qed.

Lemma size_32 : forall n, power_of_two_upto 13 n -> 1 <= n /\ 12 * n * n < 2147483648.
Proof.
  intros n (a & Ha & ->). assert (0 < 2 ^ a) by (apply Z.pow_pos_nonneg; lia).
  assert (2 ^ a <= 2 ^ 13) by (apply Z.pow_le_mono_r; lia). change (2 ^ 13) with 8192 in *. nia.
Qed.
Lemma size_64 : forall n, power_of_two_upto 29 n -> 1 <= n <= 2 ^ 29.
Proof.
  intros n (a & Ha & ->). assert (0 < 2 ^ a) by (apply Z.pow_pos_nonneg; lia).
  assert (2 ^ a <= 2 ^ 29) by (apply Z.pow_le_mono_r; lia). lia.
Qed.
Lemma guard_passes : forall k n, power_of_two_upto k n -> negb (Z.land n (n - 1) =? 0) = false.
Proof.
  intros k n (a & Ha & ->). assert (0 < 2 ^ a) by (apply Z.pow_pos_nonneg; lia).
  rewrite (proj2 (power_land (2 ^ a) ltac:(lia))); [reflexivity|]. exists a. lia.
Qed.

Lemma nest_ring_nest : forall n p, power_of_two_upto 13 n -> valid_pixel n p ->
  exists q, nest2ring n p = Ok q /\ valid_pixel n q /\ ring2nest n q = Ok p.
Proof.
  intros n p H V. unfold nest2ring, ring2nest. rewrite (guard_passes _ _ H). destruct (size_32 n H) as [S1 S2].
  destruct (nest_decode n p H V) as (x & y & f & -> & G & E). cbn [bind].
  destruct (ring_encode n x y f S1 G) as (q & Q & VQ & _). exists q. rewrite Q. split; [reflexivity|]. split; [exact VQ|].
  rewrite (ring_roundtrip n x y f S1 S2 G q Q). exact E.
Qed.
Lemma ring_nest_ring : forall n q, power_of_two_upto 13 n -> valid_pixel n q ->
  exists p, ring2nest n q = Ok p /\ valid_pixel n p /\ nest2ring n p = Ok q.
Proof.
  intros n q H V. unfold nest2ring, ring2nest. rewrite (guard_passes _ _ H). destruct (size_32 n H) as [S1 S2].
  destruct (ring_decode n q S1 S2 V) as (x & y & f & -> & G & E). cbn [bind].
  destruct (nest_encode n x y f H G) as (i & Q & _ & VQ & D). eexists. rewrite Q. split; [reflexivity|]. split; [exact VQ|].
  rewrite D. exact E.
Qed.
Lemma not_power : forall n p, 1 <= n -> (forall a, 0 <= a -> n <> 2 ^ a) -> 
  nest2ring n p = Ok (-1) /\ ring2nest n p = Ok (-1) /\ nest2ring64 n p = Ok (-1) /\ ring2nest64 n p = Ok (-1).
Proof.
  intros n p Hn H. unfold nest2ring, ring2nest, nest2ring64, ring2nest64.
  destruct (Z.eqb_spec (Z.land n (n - 1)) 0) as [E|N]; [exfalso|cbn; tauto].
  apply power_land in E; [|exact Hn]. destruct E as (a & Ha & E). exact (H a Ha E).
Qed.

Lemma nest_ring_nest64 : forall n p, power_of_two_upto 29 n -> valid_pixel n p ->
  exists q, nest2ring64 n p = Ok q /\ valid_pixel n q /\ ring2nest64 n q = Ok p.
Proof.
  intros n p H V. unfold nest2ring64, ring2nest64. rewrite (guard_passes _ _ H). pose proof (size_64 n H) as S.
  destruct (nest_decode64 n p H V) as (x & y & f & -> & G & E). cbn [bind].
  destruct (ring_encode n x y f ltac:(lia) G) as (q & Q & VQ & _). exists q. rewrite xyf2ring_same, Q. split; [reflexivity|]. split; [exact VQ|].
  rewrite (ring_roundtrip64 n x y f S G q Q). exact E.
Qed.
Lemma ring_nest_ring64 : forall n q, power_of_two_upto 29 n -> valid_pixel n q ->
  exists p, ring2nest64 n q = Ok p /\ valid_pixel n p /\ nest2ring64 n p = Ok q.
Proof.
  intros n q H V. unfold nest2ring64, ring2nest64. rewrite (guard_passes _ _ H). pose proof (size_64 n H) as S.
  destruct (ring_decode64 n q S V) as (x & y & f & -> & G & E). cbn [bind].
  destruct (nest_encode64 n x y f H G) as (i & Q & _ & VQ & D). eexists. rewrite Q. split; [reflexivity|]. split; [exact VQ|].
  rewrite D. exact E.
Qed.

(** ** C24 *)
Lemma nest2ring_agree : forall n p, power_of_two_upto 13 n -> valid_pixel n p -> nest2ring64 n p = nest2ring n p /\ ring2nest64 n p = ring2nest n p.
Proof.
  intros n p H V. unfold nest2ring, ring2nest, nest2ring64, ring2nest64. rewrite (guard_passes _ _ H).
  destruct (size_32 n H) as [S1 S2]. rewrite unnest_agree, unring_agree by assumption. split.
  - destruct (nest2xyf n p) as [[[x y] f]|]; reflexivity.
  - destruct (ring_decode n p S1 S2 V) as (x & y & f & -> & G & _). cbn [bind]. now apply nest_agree.
Qed.

(** ** C21 *)
Definition count_answer (npix r : Z) : Prop := (0 <= r /\ npix = 12 * r * r) \/ (r = -1 /\ forall n, npix <> 12 * n * n).

Lemma square_root_unique : forall n, Z.sqrt (n * n) = Z.abs n.
Proof. intro n. rewrite <- Z.abs_square. apply Z.sqrt_square. lia. Qed.

Lemma answer : forall npix v, 0 <= v -> (forall n, npix = 12 * n * n -> v = n * n) -> count_answer npix (if Z.sqrt v * Z.sqrt v * 12 =? npix then Z.sqrt v else -1).
Proof.
  intros npix v H0 H. pose proof (Z.sqrt_nonneg v). destruct (Z.eqb_spec (Z.sqrt v * Z.sqrt v * 12) npix) as [E|N]; [left; lia|].
  right. split; [reflexivity|]. intros n En. apply N. rewrite (H n En), square_root_unique, En. nia.
Qed.

Lemma npix_ok : forall npix, 0 <= npix < 12 * 2147483648 -> exists r, npix2nside npix = Ok r /\ count_answer npix r.
Proof.
  intros npix H. unfold npix2nside. rewrite Z.quot_div_nonneg by lia.
  assert (Q: 0 <= npix / 12 < 2147483648) by (split; [apply Z.div_pos; lia|apply Z.div_lt_upper_bound; lia]).
  unfold wrap_int. rewrite Z.mod_small by lia. replace (npix / 12 + 2147483648 - 2147483648) with (npix / 12) by lia.
  rewrite isqrt_ok by lia. cbn [bind]. eexists. split; [reflexivity|]. apply answer; [lia|].
  intros n ->. replace (12 * n * n) with (n * n * 12) by ring. apply Z.div_mul. lia.
Qed.

Lemma of_int12 : fin (of_int 12) /\ toR (of_int 12) = 12%R.
Proof. apply (of_int_R 12). lia. Qed.

Lemma quotient_exact : forall w k, (0 <= k)%Z -> 0 <= w -> 3 * w <= 2 ^ 53 -> w * 2 ^ k < 2 ^ 62 ->
  to_long (fdiv (of_int (12 * (w * 2 ^ k))) (of_int 12)) = Ok (w * 2 ^ k).
Proof.
  intros w k Hk Hw H3 Hb.
  set (N := (12 * (w * 2 ^ k))%Z) in *. assert (P: 0 < 2 ^ k) by (apply Z.pow_pos_nonneg; lia).
  assert (B: (0 <= IZR N <= IZR (2 ^ 66))%R) by (split; [apply (IZR_le 0); nia|apply IZR_le; unfold N; lia]).
  destruct (of_int_RN N 66) as [F E]; [lia|rewrite Rabs_pos_eq, bpow_pos by lra; lra|].
  assert (X: fx k w (IZR (w * 2 ^ k))) by (unfold fx; rewrite mult_IZR, (IZR_Zpower radix2) by lia; reflexivity).
  rewrite (RN_fx (k + 2) (3 * w)) in E; [|lia| |lia].
  2:{ unfold fx, N. rewrite bpow_plus. change (bpow radix2 2) with 4%R. rewrite mult_IZR. unfold fx in X. rewrite X. rewrite mult_IZR. ring. }
  destruct of_int12 as [F12 E12].
  assert (Q: (toR (of_int N) / toR (of_int 12) = IZR (w * 2 ^ k))%R).
  { rewrite E, E12. unfold N. rewrite mult_IZR. field. }
  destruct (fdiv_R (of_int N) (of_int 12) 66 F) as [FD ED]; [rewrite E12; lra|lia| |].
  { rewrite Q. rewrite Rabs_pos_eq by (apply (IZR_le 0); nia). rewrite bpow_pos. apply IZR_le. lia. }
  rewrite Q, (RN_fx k w) in ED; [|lia|exact X|lia].
  rewrite to_long_R; [rewrite ED, Ztrunc_IZR; reflexivity|exact FD|rewrite ED, Ztrunc_IZR; unfold long_max; nia].
Qed.

Lemma quotient_range : forall npix, 0 <= npix <= 2 ^ 55 -> exists v, to_long (fdiv (of_int npix) (of_int 12)) = Ok v /\ 0 <= v < 2 ^ 62.
Proof.
  intros npix H. assert (B: (0 <= IZR npix <= IZR (2 ^ 55))%R) by (split; [apply (IZR_le 0); lia|apply IZR_le; lia]).
  destruct (of_int_RN npix 55) as [F E]; [lia|rewrite Rabs_pos_eq, bpow_pos by lra; lra|].
  destruct of_int12 as [F12 E12].
  assert (W: (0 <= toR (of_int npix) <= IZR (2 ^ 55))%R).
  { rewrite E. split.
    - apply (RN_int_ge _ 0); [lia|lra].
    - rewrite <- (RN_fx 3 (2 ^ 52) (IZR (2 ^ 55))); [apply RN_le; lra|lia| |lia].
      unfold fx. rewrite bpow_pos, <- mult_IZR. reflexivity. }
  change (IZR (2 ^ 55)) with 36028797018963968%R in W.
  assert (Q: (0 <= toR (of_int npix) / toR (of_int 12) <= IZR (2 ^ 53))%R).
  { rewrite E12. change (IZR (2 ^ 53)) with 9007199254740992%R. lra. }
  destruct (fdiv_R (of_int npix) (of_int 12) 53 F) as [FD ED]; [rewrite E12; lra|lia| |].
  { rewrite Rabs_pos_eq, bpow_pos by lra. lra. }
  assert (Q': (0 <= toR (fdiv (of_int npix) (of_int 12)) <= IZR (2 ^ 53))%R).
  { rewrite ED. split; [apply (RN_int_ge _ 0); [lia|lra]|apply RN_int_le; [lia|lra]]. }
  destruct (trunc_bounds (toR (fdiv (of_int npix) (of_int 12)))) as [T _]. specialize (T (proj1 Q')).
  set (t := Ztrunc (toR (fdiv (of_int npix) (of_int 12)))) in *.
  assert (T1: t <= 2 ^ 53) by (apply le_IZR; lra).
  assert (T0: -1 < t) by (apply lt_IZR; lra).
  exists t. split; [|lia]. rewrite to_long_R; [reflexivity|exact FD|fold t; unfold long_max; lia].
Qed.

Lemma npix_ok64 : forall npix, 0 <= npix <= 2 ^ 55 -> exists r, npix2nside64 npix = Ok r /\ count_answer npix r.
Proof.
  intros npix H. unfold npix2nside64. destruct (quotient_range npix H) as (v & E & B). rewrite E. cbn [bind].
  rewrite isqrt64_ok by exact B. cbn [bind]. eexists. split; [reflexivity|]. apply answer; [lia|].
  intros n ->. pose proof (quotient_exact (n * n) 0 ltac:(lia) ltac:(nia) ltac:(lia)) as Q.
  rewrite Z.mul_1_r in Q. specialize (Q ltac:(lia)). replace (12 * (n * n)) with (12 * n * n) in Q by ring. rewrite E in Q. now injection Q.
Qed.
Lemma npix_power64 : forall n, power_of_two_upto 29 n -> npix2nside64 (nside2npix64 n) = Ok n.
Proof.
  intros n (a & Ha & ->). unfold npix2nside64, nside2npix64. rewrite <- Z.mul_assoc, square_bits by lia.
  assert (L: 2 ^ (a + a) <= 2 ^ 58) by (apply Z.pow_le_mono_r; lia).
  pose proof (quotient_exact 1 (a + a) ltac:(lia) ltac:(lia) ltac:(lia) ltac:(lia)) as Q. rewrite Z.mul_1_l in Q. rewrite Q. cbn [bind].
  assert (P: 0 < 2 ^ (a + a)) by (apply Z.pow_pos_nonneg; lia).
  rewrite isqrt64_ok by lia. cbn [bind]. rewrite <- square_bits by lia. assert (0 < 2 ^ a) by (apply Z.pow_pos_nonneg; lia).
  rewrite Z.sqrt_square by lia. rewrite Z.mul_comm, Z.eqb_refl. reflexivity.
Qed.
