(** Round trips between pixels and directions in double arithmetic, with 32-bit pixel numbers. *)
From Coq Require Import ZArith List Bool Reals Lra Lia Psatz.
From Flocq Require Import Core IEEE754.BinarySingleNaN.
From Verif Require Import CLib FloatModel FloatLemmas GeoLemmas TleProofs3 PipeProofs5 CalendarProofs2 CalendarProofs3 CalendarProofs4.
From Verif Require Import HealpixModel HealpixSpec HealpixAngModel HealpixRealModel HealpixFloatModel HealpixFloatSpec HealpixProofs1 HealpixProofs3 HealpixProofs4 HealpixProofs5 HealpixProofs6 HealpixProofs7 HealpixProofs8 HealpixProofs9 HealpixProofs10 HealpixProofs11 HealpixProofs12 HealpixProofs13.
Import ListNotations.
Open Scope Z_scope.

Lemma small_side n : 1 <= n -> 12 * n * n < 2147483648 -> 1 <= n <= 13377. Proof. nia. Qed.
Lemma centre_ring_doubles n i j : 1 <= n <= 13377 -> on_ring n i j ->
  exists z phi, pix2ang_ring_z_phi n (start n i + j - 1) = Ok (z, phi) /\ near z (zc n i) (1 / 10 ^ 11) /\ near phi (phic n i j) (1 / 10 ^ 7).
Proof.
  intros Hn [Hi Hj]. assert (Hb : 12 * n * n < 2147483648) by nia. assert (NB : (1 <= IZR n <= 13377)%R) by (split; apply IZR_le; lia).
  unfold pix2ang_ring_z_phi. rewrite chk_int_ok by (unfold int_min, int_max; nia). cbn [bind].
  destruct (start_cases n i ltac:(lia) Hi) as [(C & -> & E)|[(C & -> & E)|(C & -> & E)]]; rewrite E in Hj.
  - rewrite (proj2 (Z.ltb_lt _ (n * (n - 1) * 2))) by nia. rewrite isqrt_ok by nia. cbn [bind]. rewrite shr1, cap_ring by lia.
    replace (2 * i * (i - 1) + j - 1 + 1 - 2 * i * (i - 1)) with j by lia. eexists. eexists. split; [reflexivity|]. split.
    + rewrite zc_north by lia. apply north_near; lia.
    + replace (phic n i j) with ((IZR j - 1 / 2) * (PI / 2) / IZR i)%R.
      * apply (ring_phi_near i _ _ 4 halfpi 2); [lia|apply half_place_near; lia| |tauto]. assert (1 <= IZR j <= 4 * IZR i)%R by (rewrite <- mult_IZR; split; apply IZR_le; lia). lra.
      * unfold phic, tc. rewrite (proj2 (Z.ltb_lt i n)) by lia. assert (1 <= IZR i)%R by (apply IZR_le; lia). field. lra.
  - rewrite (proj2 (Z.ltb_ge _ (n * (n - 1) * 2))) by nia. rewrite (proj2 (Z.ltb_lt _ (12 * n * n - _))) by nia.
    replace (2 * n * (n - 1) + (i - n) * (4 * n) + j - 1 - n * (n - 1) * 2) with ((i - n) * (4 * n) + (j - 1)) by lia.
    rewrite Z.quot_div_nonneg, Z.rem_mod_nonneg by nia.
    assert (D: ((i - n) * (4 * n) + (j - 1)) / (4 * n) = i - n) by (rewrite Z.add_comm, Z.div_add, Z.div_small by lia; lia).
    assert (M: ((i - n) * (4 * n) + (j - 1)) mod (4 * n) = j - 1) by (rewrite Z.add_comm, Z.mod_add, Z.mod_small by lia; lia).
    rewrite D, M. replace (i - n + n) with i by lia. replace (j - 1 + 1) with j by lia. rewrite land1.
    rewrite Z.shiftl_mul_pow2 by lia. change (2 ^ 1) with 2. rewrite (Z.mul_comm n 2). eexists. eexists. split; [reflexivity|]. split; [apply belt_z_near; lia|].
    replace ((i + n) mod 2) with ((i - n) mod 2) by (replace (i + n) with (i - n + n * 2) by lia; now rewrite Z.mod_add by lia).
    assert (J : (1 <= IZR j <= 4 * IZR n)%R) by (rewrite <- mult_IZR; split; apply IZR_le; lia).
    assert (K: (i - n) mod 2 = 0 \/ (i - n) mod 2 = 1) by (generalize (Z.mod_pos_bound (i - n) 2 ltac:(lia)); lia).
    unfold phic, tc. rewrite (proj2 (Z.ltb_ge i n)), (proj2 (Z.leb_le i (3 * n))) by lia. destruct K as [-> | ->]; cbn [Z.eqb].
    + replace ((IZR j - (0 + 1) / 2) / IZR n * (PI / 2))%R with ((IZR j - 1 / 2) * (PI / 1) / IZR (2 * n))%R by (rewrite mult_IZR; field; lra).
      apply (ring_phi_near (2 * n) _ _ 2 hp_pi 1); [lia|apply half_place_near; lia| |tauto]. rewrite mult_IZR. lra.
    + replace ((IZR j - (1 + 1) / 2) / IZR n * (PI / 2))%R with ((IZR j - 1) * (PI / 1) / IZR (2 * n))%R by (rewrite mult_IZR; field; lra).
      apply (ring_phi_near (2 * n) _ _ 2 hp_pi 1); [lia|apply one_place_near; lia| |tauto]. rewrite mult_IZR. lra.
  - set (k := 4 * n - i). assert (K: 1 <= k < n) by lia. assert (Hj': 1 <= j <= 4 * k) by lia.
    rewrite (proj2 (Z.ltb_ge _ (n * (n - 1) * 2))) by nia. rewrite (proj2 (Z.ltb_ge _ (12 * n * n - _))) by nia.
    replace (2 * (12 * n * n - (12 * n * n - 2 * (k + 1) * k + j - 1)) - 1) with (1 + 2 * (2 * k * (k - 1) + (4 * k + 1 - j) - 1)) by lia.
    rewrite isqrt_ok by nia. cbn [bind]. rewrite shr1, cap_ring by lia.
    replace (4 * k + 1 - (12 * n * n - (12 * n * n - 2 * (k + 1) * k + j - 1) - 2 * k * (k - 1))) with j by lia.
    eexists. eexists. split; [reflexivity|]. split.
    + rewrite zc_south by lia. fold k. apply south_near; lia.
    + replace (phic n i j) with ((IZR j - 1 / 2) * (PI / 2) / IZR k)%R.
      * apply (ring_phi_near k _ _ 4 halfpi 2); [lia|apply half_place_near; lia| |tauto]. assert (1 <= IZR j <= 4 * IZR k)%R by (rewrite <- mult_IZR; split; apply IZR_le; lia). lra.
      * unfold phic, tc. rewrite (proj2 (Z.ltb_ge i n)), (proj2 (Z.leb_gt i (3 * n))) by lia. fold k. assert (1 <= IZR k)%R by (apply IZR_le; lia). field. lra.
Qed.

Ltac Zify.zify_post_hook ::= Z.div_mod_to_equations.
Lemma centre_nest_doubles n x y f i j p : 1 <= n <= 13377 -> on_grid n x y f -> enc n x y f = (i, j) -> nest2xyf n p = Ok (x, y, f) ->
  exists z phi, pix2ang_nest_z_phi n p = Ok (z, phi) /\ near z (zc n i) (1 / 10 ^ 11) /\ near phi (phic n i j) (1 / 10 ^ 7).
Proof.
  intros Hn G E P. assert (NB : (1 <= IZR n <= 13377)%R) by (split; apply IZR_le; lia).
  unfold pix2ang_nest_z_phi. rewrite chk_int_ok by (unfold int_min, int_max; nia). cbn [bind].
  rewrite P. cbn [bind]. pose proof (enc_ok n x y f ltac:(lia) G) as FACTS. unfold ring_facts in FACTS. rewrite E in FACTS. destruct FACTS as ((Ri & Rj) & _ & _).
  destruct G as (Gx & Gy & Gf). destruct (rows f Gf) as [-> ->]. cbn [bind].
  unfold enc in E. cbv zeta in E. pose proof (f_equal fst E) as EI; pose proof (f_equal snd E) as EJ; cbn [fst snd] in EI, EJ. rewrite !EI in *.
  set (fp := 2 * (f mod 4) + (if f / 4 =? 1 then 0 else 1)) in *.
  assert (PAR: forall nr ks, (if i <? n then (nr = i /\ ks = 0) else if 3 * n <? i then (nr = 4 * n - i /\ ks = 0) else (nr = n /\ ks = (i - n) mod 2)) ->
    (fp * nr + x - y + 1 + ks) mod 2 = 0).
  { intros nr ks H. destruct (face_parts f Gf) as (r & c & Hr & Hc & Ef & E4 & Em). unfold fp. rewrite E4, Em in *.
    destruct (Z.ltb_spec i n); [destruct H as [-> ->]|destruct (Z.ltb_spec (3 * n) i); [destruct H as [-> ->]|destruct H as [-> ->]]];
    destruct Hr as [->|[->| ->]]; cbn [Z.eqb Pos.eqb]; destruct Hc as [->|[->|[->| ->]]]; lia. }
  unfold rlen in Rj. replace (n * 4) with (4 * n) by lia.
  destruct (Z.ltb_spec i n) as [C1|C1]; [|rewrite (Z.ltb_antisym i (3 * n)) in *; destruct (Z.leb_spec i (3 * n)) as [C2|C2]; cbn [negb] in *].
  - rewrite quot2_even by (apply PAR; tauto). set (j0 := (fp * i + x - y + 1 + 0) / 2) in *.
    assert (J: (if 4 * n <? j0 then j0 - 4 * n else j0) = j0) by (destruct (Z.ltb_spec (4 * n) j0); [exfalso|reflexivity]; destruct (Z.ltb_spec j0 1); lia).
    rewrite J, EJ. eexists. eexists. split; [reflexivity|]. split; [rewrite zc_north by lia; apply north_near; lia|].
    assert (Q : (1 <= IZR j <= 4 * IZR i)%R) by (rewrite <- mult_IZR; split; apply IZR_le; lia).
    replace (phic n i j) with ((IZR j - (IZR 0 + 1) / 2) * (PI / 2 / IZR i))%R.
    + apply nest_phi_near; [lia|apply ks_place_near; lia|lra].
    + unfold phic, tc. rewrite (proj2 (Z.ltb_lt i n)) by lia. field. lra.
  - rewrite land1. rewrite quot2_even by (apply PAR; tauto). set (j0 := (fp * n + x - y + 1 + (i - n) mod 2) / 2) in *.
    assert (J: (if 4 * n <? j0 then j0 - 4 * n else j0) = j0) by (destruct (Z.ltb_spec (4 * n) j0); [exfalso|reflexivity]; destruct (Z.ltb_spec j0 1); lia).
    rewrite J, EJ. rewrite Z.shiftl_mul_pow2 by lia. change (2 ^ 1) with 2. rewrite (Z.mul_comm n 2). eexists. eexists. split; [reflexivity|]. split; [apply belt_z_near; lia|].
    assert (Q : (1 <= IZR j <= 4 * IZR n)%R) by (rewrite <- mult_IZR; split; apply IZR_le; lia).
    assert (K : (0 <= IZR ((i - n) mod 2) <= 1)%R) by (split; apply IZR_le; lia).
    replace (phic n i j) with ((IZR j - (IZR ((i - n) mod 2) + 1) / 2) * (PI / 2 / IZR n))%R.
    + apply nest_phi_near; [lia|apply ks_place_near; lia|lra].
    + unfold phic, tc. rewrite (proj2 (Z.ltb_ge i n)), (proj2 (Z.leb_le i (3 * n))) by lia. field. lra.
  - rewrite quot2_even by (apply PAR; tauto). set (j0 := (fp * (4 * n - i) + x - y + 1 + 0) / 2) in *.
    assert (J: (if 4 * n <? j0 then j0 - 4 * n else j0) = j0) by (destruct (Z.ltb_spec (4 * n) j0); [exfalso|reflexivity]; destruct (Z.ltb_spec j0 1); lia).
    rewrite J, EJ. set (k := 4 * n - i) in *. eexists. eexists. split; [reflexivity|]. split; [rewrite zc_south by lia; fold k; apply south_near; lia|].
    assert (Q : (1 <= IZR j <= 4 * IZR k)%R) by (rewrite <- mult_IZR; split; apply IZR_le; lia).
    replace (phic n i j) with ((IZR j - (IZR 0 + 1) / 2) * (PI / 2 / IZR k))%R.
    + apply nest_phi_near; [lia|apply ks_place_near; lia|lra].
    + unfold phic, tc. rewrite (proj2 (Z.ltb_ge i n)), (proj2 (Z.leb_gt i (3 * n))) by lia. fold k. field. lra.
Qed.
Ltac Zify.zify_post_hook ::= idtac.

(** Every direction close to the centre. *)
Lemma lookup_ring n p z0 phi0 z phi : 1 <= n -> 12 * n * n < 2147483648 -> valid_pixel n p -> pix2ang_ring_real n p = Ok (z0, phi0) ->
  close_direction z phi z0 phi0 -> ang2pix_ring_z_phi n z phi = Ok p.
Proof.
  intros H1 H2 V E (Fz & Fp & Dz & k & Hk & Dp). assert (Hn := small_side n H1 H2). destruct (ring_cover n p H1 V) as (i & j & R & ->).
  rewrite (centre_of_ring n i j H1 H2 R) in E. injection E as <- <-. apply near_ring; [exact Hn|exact R|]. now apply (close_of n i j z phi k).
Qed.
Lemma lookup_nest n p z0 phi0 z phi : power_of_two_upto 13 n -> valid_pixel n p -> pix2ang_nest_real n p = Ok (z0, phi0) ->
  close_direction z phi z0 phi0 -> ang2pix_nest_z_phi n z phi = Ok p.
Proof.
  intros H V E (Fz & Fp & Dz & k & Hk & Dp). destruct (size_32 n H) as [H1 H2]. assert (Hn := small_side n H1 H2).
  destruct (nest_decode n p H V) as (x & y & f & D & G & EN). destruct (enc n x y f) as [i j] eqn:EE.
  rewrite (centre_of_nest n x y f i j p H1 G EE D) in E. injection E as <- <-.
  assert (FACTS := enc_ok n x y f H1 G). unfold ring_facts in FACTS. rewrite EE in FACTS. destruct FACTS as (R & _ & _).
  assert (C := close_of n i j z phi k Hn R Fz Fp Dz Dp Hk). unfold ang2pix_nest_z_phi. destruct H as (a & Ha & ->). rewrite (near_nest a x y f i j z phi Ha G EE C). exact EN.
Qed.

Lemma zc_inside n i : 1 <= n <= 13377 -> 1 <= i < 4 * n -> (Rabs (zc n i) <= 1 - 1 / 10 ^ 9)%R.
Proof.
  intros Hn Hi. assert (NB : (1 <= IZR n <= 13377)%R) by (split; apply IZR_le; lia). assert (N2 : (1 <= IZR n * IZR n <= 178944129)%R) by nra.
  assert (I3 : (/ 600000000 <= / (3 * (IZR n * IZR n)))%R) by (apply Rinv_le_contravar; lra).
  destruct (Z.le_gt_cases i n) as [A|A]; [|destruct (Z.lt_ge_cases i (3 * n)) as [B|B]].
  - rewrite zc_north by lia. destruct (cap_gap n i ltac:(lia)) as [G _]. cbv zeta in G. apply Rabs_le. lra.
  - eapply Rle_trans; [apply zc_belt; lia|lra].
  - rewrite zc_south by lia. destruct (cap_gap n (4 * n - i) ltac:(lia)) as [G _]. cbv zeta in G. apply Rabs_le. lra.
Qed.
Lemma doubles_ring n p : 1 <= n -> 12 * n * n < 2147483648 -> valid_pixel n p -> exists z phi z0 phi0, pix2ang_ring_z_phi n p = Ok (z, phi) /\ pix2ang_ring_real n p = Ok (z0, phi0)
  /\ near z z0 (1 / 10 ^ 11) /\ near phi phi0 (1 / 10 ^ 7) /\ (Rabs z0 <= 1 - 1 / 10 ^ 9)%R.
Proof.
  intros H1 H2 V. assert (Hn := small_side n H1 H2). destruct (ring_cover n p H1 V) as (i & j & R & ->). destruct (centre_ring_doubles n i j Hn R) as (z & phi & E & Nz & Np).
  exists z, phi, (zc n i), (phic n i j). split; [exact E|]. split; [now apply centre_of_ring|]. split; [exact Nz|]. split; [exact Np|]. apply zc_inside; [exact Hn|apply R].
Qed.
Lemma doubles_nest n p : power_of_two_upto 13 n -> valid_pixel n p -> exists z phi z0 phi0, pix2ang_nest_z_phi n p = Ok (z, phi) /\ pix2ang_nest_real n p = Ok (z0, phi0)
  /\ near z z0 (1 / 10 ^ 11) /\ near phi phi0 (1 / 10 ^ 7) /\ (Rabs z0 <= 1 - 1 / 10 ^ 9)%R.
Proof.
  intros H V. destruct (size_32 n H) as [H1 H2]. assert (Hn := small_side n H1 H2). destruct (nest_decode n p H V) as (x & y & f & D & G & EN). destruct (enc n x y f) as [i j] eqn:EE.
  assert (FACTS := enc_ok n x y f H1 G). unfold ring_facts in FACTS. rewrite EE in FACTS. destruct FACTS as (R & _ & _).
  destruct (centre_nest_doubles n x y f i j p Hn G EE D) as (z & phi & E & Nz & Np).
  exists z, phi, (zc n i), (phic n i j). split; [exact E|]. split; [now apply (centre_of_nest n x y f)|]. split; [exact Nz|]. split; [exact Np|]. apply zc_inside; [exact Hn|apply R].
Qed.
Open Scope R_scope.
Lemma near_close z phi z0 phi0 e : near z z0 e -> e <= 1 / 10 ^ 10 -> near phi phi0 (1 / 10 ^ 7) -> close_direction z phi z0 phi0.
Proof.
  intros [Fz Hz] L [Fp Hp]. split; [exact Fz|]. split; [exact Fp|]. split; [lra|]. exists 0%Z. split; [lia|]. rewrite Rmult_0_l, Rplus_0_r. lra.
Qed.

(** The functions of the library: through [acos] and back through [cos]. *)
Lemma one_cos t : 0 <= t -> 1 - cos t <= t.
Proof. intros H. assert (D := cos_diff 0 t). rewrite cos_0 in D. unfold Rminus in D at 2. rewrite Rplus_0_l, Rabs_Ropp, (Rabs_pos_eq t) in D by lra. apply Rabs_le_inv in D. lra. Qed.
Lemma acos_inside z : -1 <= z <= 1 -> 1 - z <= acos z <= PI - (1 + z).
Proof.
  intros H. assert (B := acos_bound z). assert (C := cos_acos z H). split.
  - generalize (one_cos (acos z) ltac:(lra)). lra.
  - assert (D := one_cos (PI - acos z) ltac:(lra)). rewrite Rtrigo_facts.cos_pi_minus in D. lra.
Qed.
Lemma through_theta fc fa z z0 : good_cos fc -> good_acos fa -> near z z0 (1 / 10 ^ 11) -> Rabs z0 <= 1 - 1 / 10 ^ 9 ->
  (fle (of_int 0) (fa z) && fle (fa z) hp_pi = true)%bool /\ near (fc (fa z)) z0 (1 / 10 ^ 10).
Proof.
  intros HC HA [F H] B. apply Rabs_le_inv in H. apply Rabs_le_inv in B. destruct (HA z F ltac:(lra)) as [Fa Da]. apply Rabs_le_inv in Da. assert (I := acos_inside (toR z) ltac:(lra)).
  destruct hp_pi_near as [Fpi Npi]. apply Rabs_le_inv in Npi. destruct pi_bounds as [PL PU].
  assert (R1 : 0 <= toR (fa z)) by lra. assert (R2 : toR (fa z) <= toR hp_pi) by lra. split.
  - apply andb_true_intro. split; [apply fle_R; [apply zero_int|exact Fa|rewrite (proj2 zero_int); exact R1]|apply fle_R; assumption].
  - destruct (HC (fa z) Fa ltac:(lra)) as [Fc Dc]. split; [exact Fc|]. apply Rabs_le_inv in Dc. assert (D := cos_diff (toR (fa z)) (acos (toR z))). rewrite cos_acos in D by lra.
    assert (E : Rabs (toR (fa z) - acos (toR z)) <= 1 / 10 ^ 12) by (apply Rabs_le; lra). apply (Rle_trans _ _ _ D) in E. apply Rabs_le_inv in E. apply Rabs_le. lra.
Qed.
Lemma public_ring fc fa n p : good_cos fc -> good_acos fa -> (1 <= n)%Z -> (12 * n * n < 2147483648)%Z -> valid_pixel n p ->
  exists theta phi, pix2ang_ring fa n p = Ok (theta, phi) /\ ang2pix_ring fc n theta phi = Ok (Some p).
Proof.
  intros HC HA H1 H2 V. destruct (doubles_ring n p H1 H2 V) as (z & phi & z0 & phi0 & E & E0 & Nz & Np & B). exists (fa z), phi. unfold pix2ang_ring. rewrite E. cbn [bind]. split; [reflexivity|].
  destruct (through_theta fc fa z z0 HC HA Nz B) as [T N]. unfold ang2pix_ring. rewrite T. rewrite (lookup_ring n p z0 phi0 (fc (fa z)) phi H1 H2 V E0); [reflexivity|]. apply (near_close _ _ _ _ _ N); [lra|exact Np].
Qed.
Lemma public_nest fc fa n p : good_cos fc -> good_acos fa -> power_of_two_upto 13 n -> valid_pixel n p ->
  exists theta phi, pix2ang_nest fa n p = Ok (theta, phi) /\ ang2pix_nest fc n theta phi = Ok (Some p).
Proof.
  intros HC HA H V. destruct (doubles_nest n p H V) as (z & phi & z0 & phi0 & E & E0 & Nz & Np & B). exists (fa z), phi. unfold pix2ang_nest. rewrite E. cbn [bind]. split; [reflexivity|].
  destruct (through_theta fc fa z z0 HC HA Nz B) as [T N]. unfold ang2pix_nest. rewrite T. rewrite (lookup_nest n p z0 phi0 (fc (fa z)) phi H V E0); [reflexivity|]. apply (near_close _ _ _ _ _ N); [lra|exact Np].
Qed.
(** Without [acos] and [cos]. *)
Lemma roundtrip_ring n p : (1 <= n)%Z -> (12 * n * n < 2147483648)%Z -> valid_pixel n p -> exists z phi z0 phi0, pix2ang_ring_z_phi n p = Ok (z, phi) /\ pix2ang_ring_real n p = Ok (z0, phi0)
  /\ fin z /\ fin phi /\ Rabs (toR z - z0) <= 1 / 10 ^ 11 /\ Rabs (toR phi - phi0) <= 1 / 10 ^ 7 /\ ang2pix_ring_z_phi n z phi = Ok p.
Proof.
  intros H1 H2 V. destruct (doubles_ring n p H1 H2 V) as (z & phi & z0 & phi0 & E & E0 & Nz & Np & B). exists z, phi, z0, phi0. split; [exact E|]. split; [exact E0|]. split; [apply Nz|]. split; [apply Np|]. split; [apply Nz|]. split; [apply Np|].
  apply (lookup_ring n p z0 phi0 z phi H1 H2 V E0). apply (near_close _ _ _ _ _ Nz); [lra|exact Np].
Qed.
Lemma roundtrip_nest n p : power_of_two_upto 13 n -> valid_pixel n p -> exists z phi z0 phi0, pix2ang_nest_z_phi n p = Ok (z, phi) /\ pix2ang_nest_real n p = Ok (z0, phi0)
  /\ fin z /\ fin phi /\ Rabs (toR z - z0) <= 1 / 10 ^ 11 /\ Rabs (toR phi - phi0) <= 1 / 10 ^ 7 /\ ang2pix_nest_z_phi n z phi = Ok p.
Proof.
  intros H V. destruct (doubles_nest n p H V) as (z & phi & z0 & phi0 & E & E0 & Nz & Np & B). exists z, phi, z0, phi0. split; [exact E|]. split; [exact E0|]. split; [apply Nz|]. split; [apply Np|]. split; [apply Nz|]. split; [apply Np|].
  apply (lookup_nest n p z0 phi0 z phi H V E0). apply (near_close _ _ _ _ _ Nz); [lra|exact Np].
Qed.

(** Such library functions exist: the true values cut at 2^-50. *)
Lemma cut_near v : -4 <= v <= 4 -> near (dyadic (Zfloor (v * 1125899906842624)) (-50)) v (1 / 10 ^ 12).
Proof.
  intros H. assert (L := Zfloor_lb (v * 1125899906842624)). assert (U := Zfloor_ub (v * 1125899906842624)). set (k := Zfloor (v * 1125899906842624)) in *.
  assert (B : (Z.abs k <= 2 ^ 53)%Z). { assert (-4503599627370497 <= k <= 4503599627370496)%Z; [|lia]. split; apply le_IZR; lra. }
  destruct (dyadic_R k (-50) ltac:(lia) B) as [F E]. split; [exact F|]. rewrite E, bp50. apply Rabs_le. lra.
Qed.
Lemma good_library : exists fc fa, good_cos fc /\ good_acos fa.
Proof.
  exists (fun x => dyadic (Zfloor (cos (toR x) * 1125899906842624)) (-50)), (fun x => dyadic (Zfloor (acos (toR x) * 1125899906842624)) (-50)). split; intros x F H; apply cut_near.
  - generalize (COS_bound (toR x)). lra.
  - generalize (acos_bound (toR x)) pi_bounds. lra.
Qed.
