(** Round trips between pixels and directions in double arithmetic, with 64-bit pixel numbers. *)
From Coq Require Import ZArith List Bool Reals Lra Lia Psatz.
From Flocq Require Import Core IEEE754.BinarySingleNaN.
From Verif Require Import CLib FloatModel FloatLemmas GeoLemmas TleProofs3 PipeProofs5 CalendarProofs2 CalendarProofs3 CalendarProofs4.
From Verif Require Import HealpixModel HealpixSpec HealpixAngModel HealpixRealModel HealpixFloatModel HealpixFloatSpec HealpixAng64Model HealpixAng64Spec HealpixProofs1 HealpixProofs2 HealpixProofs3 HealpixProofs4 HealpixProofs5 HealpixProofs6 HealpixProofs7 HealpixProofs8 HealpixProofs9 HealpixProofs10 HealpixProofs11 HealpixProofs12 HealpixProofs13 HealpixProofs14 HealpixProofs15 HealpixProofs16 HealpixProofs17.
Import ListNotations.
Open Scope Z_scope.

Lemma centre_ring64 n i j : 1 <= n <= 2 ^ 29 -> on_ring n i j ->
  exists z s phi, pix2ang_ring_z_phi64 n (start n i + j - 1) = Ok (z, s, phi) /\ (near z (zc n i) (10 * v52) /\ sine_ok (zc n i) s (17 * v52)) /\ near phi (phic n i j) (1 / 10 ^ 12).
Proof.
  intros Hn [Hi Hj]. assert (NB : (1 <= IZR n <= 536870912)%R) by (split; apply IZR_le; lia).
  unfold pix2ang_ring_z_phi64.
  destruct (start_cases n i ltac:(lia) Hi) as [(C & -> & E)|[(C & -> & E)|(C & -> & E)]]; rewrite E in Hj.
  - rewrite (proj2 (Z.ltb_lt _ (n * (n - 1) * 2))) by nia. rewrite isqrt64_ok by nia. cbn [bind]. rewrite shr1, cap_ring by lia.
    replace (2 * i * (i - 1) + j - 1 + 1 - 2 * i * (i - 1)) with j by lia. assert (HO := height_ok n ltac:(lia) i ltac:(lia) true). cbv zeta in HO. set (F2 := fdiv (of_int 4) (of_int (12 * n * n))) in *. destruct (cap_height64 F2 i true) as [z s]. destruct HO as [HZ HS]. exists z, s. eexists. split; [reflexivity|]. split.
    + rewrite zc_north by lia. split; [eapply near_weak; [exact HZ|unfold v52; lra]|exact HS].
    + replace (phic n i j) with ((IZR j - 1 / 2) * (PI / 2) / IZR i)%R.
      * assert (1 <= IZR j <= 4 * IZR i)%R by (rewrite <- mult_IZR; split; apply IZR_le; lia). apply (ring_longitude i _ _ 4 halfpi 2); [lia|apply half_exact; lia|right; lra|lra|tauto].
      * unfold phic, tc. rewrite (proj2 (Z.ltb_lt i n)) by lia. assert (1 <= IZR i)%R by (apply IZR_le; lia). field. lra.
  - rewrite (proj2 (Z.ltb_ge _ (n * (n - 1) * 2))) by nia. rewrite (proj2 (Z.ltb_lt _ (12 * n * n - _))) by nia.
    replace (2 * n * (n - 1) + (i - n) * (4 * n) + j - 1 - n * (n - 1) * 2) with ((i - n) * (4 * n) + (j - 1)) by lia.
    rewrite Z.quot_div_nonneg, Z.rem_mod_nonneg by nia.
    assert (D: ((i - n) * (4 * n) + (j - 1)) / (4 * n) = i - n) by (rewrite Z.add_comm, Z.div_add, Z.div_small by lia; lia).
    assert (M: ((i - n) * (4 * n) + (j - 1)) mod (4 * n) = j - 1) by (rewrite Z.add_comm, Z.mod_add, Z.mod_small by lia; lia).
    rewrite D, M. replace (i - n + n) with i by lia. replace (j - 1 + 1) with j by lia. rewrite land1.
    rewrite Z.shiftl_mul_pow2 by lia. change (2 ^ 1) with 2. rewrite (Z.mul_comm n 2). eexists. eexists. eexists. split; [reflexivity|]. split; [split; [apply belt_height; lia|left; split; [reflexivity|apply Rle_trans with (2 / 3)%R; [apply zc_belt; lia|lra]]]|].
    replace ((i + n) mod 2) with ((i - n) mod 2) by (replace (i + n) with (i - n + n * 2) by lia; now rewrite Z.mod_add by lia).
    assert (J : (1 <= IZR j <= 4 * IZR n)%R) by (rewrite <- mult_IZR; split; apply IZR_le; lia).
    assert (K: (i - n) mod 2 = 0 \/ (i - n) mod 2 = 1) by (generalize (Z.mod_pos_bound (i - n) 2 ltac:(lia)); lia).
    unfold phic, tc. rewrite (proj2 (Z.ltb_ge i n)), (proj2 (Z.leb_le i (3 * n))) by lia. destruct K as [-> | ->]; cbn [Z.eqb].
    + replace ((IZR j - (0 + 1) / 2) / IZR n * (PI / 2))%R with ((IZR j - 1 / 2) * (PI / 1) / IZR (2 * n))%R by (rewrite mult_IZR; field; lra).
      apply (ring_longitude (2 * n) _ _ 2 hp_pi 1); [lia|apply half_exact; lia|right; lra|rewrite mult_IZR; lra|tauto].
    + replace ((IZR j - (1 + 1) / 2) / IZR n * (PI / 2))%R with ((IZR j - 1) * (PI / 1) / IZR (2 * n))%R by (rewrite mult_IZR; field; lra).
      apply (ring_longitude (2 * n) _ _ 2 hp_pi 1); [lia|apply one_exact; lia| |rewrite mult_IZR; lra|tauto]. destruct (Z.eq_dec j 1) as [-> | J1]; [left; lra|right; assert (2 <= IZR j)%R by (apply IZR_le; lia); lra].
  - set (k := 4 * n - i). assert (K: 1 <= k < n) by lia. assert (Hj': 1 <= j <= 4 * k) by lia.
    rewrite (proj2 (Z.ltb_ge _ (n * (n - 1) * 2))) by nia. rewrite (proj2 (Z.ltb_ge _ (12 * n * n - _))) by nia.
    replace (2 * (12 * n * n - (12 * n * n - 2 * (k + 1) * k + j - 1)) - 1) with (1 + 2 * (2 * k * (k - 1) + (4 * k + 1 - j) - 1)) by lia.
    rewrite isqrt64_ok by nia. cbn [bind]. rewrite shr1, cap_ring by lia.
    replace (4 * k + 1 - (12 * n * n - (12 * n * n - 2 * (k + 1) * k + j - 1) - 2 * k * (k - 1))) with j by lia.
    assert (HO := height_ok n ltac:(lia) k ltac:(lia) false). cbv zeta in HO. set (F2 := fdiv (of_int 4) (of_int (12 * n * n))) in *. destruct (cap_height64 F2 k false) as [z s]. destruct HO as [HZ HS]. exists z, s. eexists. split; [reflexivity|]. split.
    + rewrite zc_south by lia. fold k. split; [eapply near_weak; [exact HZ|unfold v52; lra]|exact HS].
    + replace (phic n i j) with ((IZR j - 1 / 2) * (PI / 2) / IZR k)%R.
      * assert (1 <= IZR j <= 4 * IZR k)%R by (rewrite <- mult_IZR; split; apply IZR_le; lia). apply (ring_longitude k _ _ 4 halfpi 2); [lia|apply half_exact; lia|right; lra|lra|tauto].
      * unfold phic, tc. rewrite (proj2 (Z.ltb_ge i n)), (proj2 (Z.leb_gt i (3 * n))) by lia. fold k. assert (1 <= IZR k)%R by (apply IZR_le; lia). field. lra.
Qed.

Ltac Zify.zify_post_hook ::= Z.div_mod_to_equations.
Lemma centre_nest64 n x y f i j p : 1 <= n <= 2 ^ 29 -> on_grid n x y f -> enc n x y f = (i, j) -> nest2xyf64 n p = Ok (x, y, f) ->
  exists z s phi, pix2ang_nest_z_phi64 n p = Ok (z, s, phi) /\ (near z (zc n i) (10 * v52) /\ sine_ok (zc n i) s (17 * v52)) /\ near phi (phic n i j) (1 / 10 ^ 12).
Proof.
  intros Hn G E P. assert (NB : (1 <= IZR n <= 536870912)%R) by (split; apply IZR_le; lia).
  unfold pix2ang_nest_z_phi64.
  rewrite P. cbn [bind]. pose proof (enc_ok n x y f ltac:(lia) G) as FACTS. unfold ring_facts in FACTS. rewrite E in FACTS. destruct FACTS as ((Ri & Rj) & _ & _).
  destruct G as (Gx & Gy & Gf). destruct (rows f Gf) as [-> ->]. cbn [bind].
  unfold enc in E. cbv zeta in E. pose proof (f_equal fst E) as EI; pose proof (f_equal snd E) as EJ; cbn [fst snd] in EI, EJ. rewrite !EI in *.
  set (fp := 2 * (f mod 4) + (if f / 4 =? 1 then 0 else 1)) in *.
  assert (PAR: forall nr ks, (if i <? n then (nr = i /\ ks = 0) else if 3 * n <? i then (nr = 4 * n - i /\ ks = 0) else (nr = n /\ ks = (i - n) mod 2)) ->
    (fp * nr + x - y + 1 + ks) mod 2 = 0).
  { intros nr ks H. destruct (face_parts f Gf) as (r & c & Hr & Hc & Ef & E4 & Em). unfold fp. rewrite E4, Em in *.
    destruct (Z.ltb_spec i n); [destruct H as [-> ->]|destruct (Z.ltb_spec (3 * n) i); [destruct H as [-> ->]|destruct H as [-> ->]]];
    destruct Hr as [->|[->| ->]]; cbn [Z.eqb Pos.eqb]; destruct Hc as [->|[->|[->| ->]]]; lia. }
  unfold rlen in Rj. replace (n * 4) with (4 * n) by lia.
  destruct (Z.ltb_spec i n) as [C1|C1]; [|rewrite (Z.ltb_antisym i (3 * n)) in *; destruct (Z.leb_spec i (3 * n)) as [C2|C2]; cbn [negb] in *].
  - rewrite quot2_even by (apply PAR; tauto). set (j0 := (fp * i + x - y + 1 + 0) / 2) in *.
    assert (J: (if 4 * n <? j0 then j0 - 4 * n else j0) = j0) by (destruct (Z.ltb_spec (4 * n) j0); [exfalso|reflexivity]; destruct (Z.ltb_spec j0 1); lia).
    rewrite J, EJ. assert (HO := height_ok n ltac:(lia) i ltac:(lia) true). cbv zeta in HO. set (F2 := fdiv (of_int 4) (of_int (12 * n * n))) in *. destruct (cap_height64 F2 i true) as [z s]. destruct HO as [HZ HS]. exists z, s. eexists. split; [reflexivity|]. split; [rewrite zc_north by lia; split; [eapply near_weak; [exact HZ|unfold v52; lra]|exact HS]|].
    assert (Q : (1 <= IZR j <= 4 * IZR i)%R) by (rewrite <- mult_IZR; split; apply IZR_le; lia).
    replace (phic n i j) with ((IZR j - (IZR 0 + 1) / 2) * (PI / 2 / IZR i))%R.
    + apply nest_longitude; [lia|apply ks_exact; lia|right; lra|lra].
    + unfold phic, tc. rewrite (proj2 (Z.ltb_lt i n)) by lia. field. lra.
  - rewrite land1. rewrite quot2_even by (apply PAR; tauto). set (j0 := (fp * n + x - y + 1 + (i - n) mod 2) / 2) in *.
    assert (J: (if 4 * n <? j0 then j0 - 4 * n else j0) = j0) by (destruct (Z.ltb_spec (4 * n) j0); [exfalso|reflexivity]; destruct (Z.ltb_spec j0 1); lia).
    rewrite J, EJ. rewrite Z.shiftl_mul_pow2 by lia. change (2 ^ 1) with 2. rewrite (Z.mul_comm n 2). eexists. eexists. eexists. split; [reflexivity|]. split; [split; [apply belt_height; lia|left; split; [reflexivity|apply Rle_trans with (2 / 3)%R; [apply zc_belt; lia|lra]]]|].
    assert (Q : (1 <= IZR j <= 4 * IZR n)%R) by (rewrite <- mult_IZR; split; apply IZR_le; lia).
    assert (K : (0 <= IZR ((i - n) mod 2) <= 1)%R) by (split; apply IZR_le; lia).
    replace (phic n i j) with ((IZR j - (IZR ((i - n) mod 2) + 1) / 2) * (PI / 2 / IZR n))%R.
    + apply nest_longitude; [lia|apply ks_exact; lia| |lra]. assert (K2 : (i - n) mod 2 = 0 \/ (i - n) mod 2 = 1) by lia. destruct K2 as [-> | ->]; [right; lra|]. destruct (Z.eq_dec j 1) as [-> | J1]; [left; lra|right; assert (2 <= IZR j)%R by (apply IZR_le; lia); lra].
    + unfold phic, tc. rewrite (proj2 (Z.ltb_ge i n)), (proj2 (Z.leb_le i (3 * n))) by lia. field. lra.
  - rewrite quot2_even by (apply PAR; tauto). set (j0 := (fp * (4 * n - i) + x - y + 1 + 0) / 2) in *.
    assert (J: (if 4 * n <? j0 then j0 - 4 * n else j0) = j0) by (destruct (Z.ltb_spec (4 * n) j0); [exfalso|reflexivity]; destruct (Z.ltb_spec j0 1); lia).
    rewrite J, EJ. set (k := 4 * n - i) in *. assert (HO := height_ok n ltac:(lia) k ltac:(lia) false). cbv zeta in HO. set (F2 := fdiv (of_int 4) (of_int (12 * n * n))) in *. destruct (cap_height64 F2 k false) as [z s]. destruct HO as [HZ HS]. exists z, s. eexists. split; [reflexivity|]. split; [rewrite zc_south by lia; fold k; split; [eapply near_weak; [exact HZ|unfold v52; lra]|exact HS]|].
    assert (Q : (1 <= IZR j <= 4 * IZR k)%R) by (rewrite <- mult_IZR; split; apply IZR_le; lia).
    replace (phic n i j) with ((IZR j - (IZR 0 + 1) / 2) * (PI / 2 / IZR k))%R.
    + apply nest_longitude; [lia|apply ks_exact; lia|right; lra|lra].
    + unfold phic, tc. rewrite (proj2 (Z.ltb_ge i n)), (proj2 (Z.leb_gt i (3 * n))) by lia. fold k. field. lra.
Qed.
Ltac Zify.zify_post_hook ::= idtac.


(** The places of the specification. *)
Lemma place_of n p i j : 1 <= n -> ring_place n p i j <-> on_ring n i j /\ p = start n i + j - 1.
Proof.
  intros Hn. unfold ring_place, on_ring. split.
  - intros (Hi & Hj & E). rewrite ring_length_eq in Hj by lia. rewrite pixels_before_eq, Z2Nat.id in E by lia. replace (i - 1 + 1) with i in E by lia. tauto.
  - intros ((Hi & Hj) & E). rewrite ring_length_eq by lia. rewrite pixels_before_eq, Z2Nat.id by lia. replace (i - 1 + 1) with i by lia. tauto.
Qed.
Lemma height_of n i : 1 <= n -> 1 <= i < 4 * n -> ring_height n i = zc n i.
Proof.
  intros Hn Hi. assert (1 <= IZR n)%R by (apply IZR_le; lia). unfold ring_height, zc. destruct (Z.ltb_spec i n); [rewrite !mult_IZR; field; lra|]. destruct (Z.leb_spec i (3 * n)).
  - rewrite minus_IZR, !mult_IZR. field. lra.
  - rewrite !mult_IZR. field. lra.
Qed.
Lemma longitude_of n i j : 1 <= n -> 1 <= i < 4 * n -> ring_longitude_of n i j = phic n i j.
Proof.
  intros Hn Hi. assert (1 <= IZR n)%R by (apply IZR_le; lia). unfold ring_longitude_of, on_meridian, phic, tc. rewrite ring_length_eq by lia. unfold rlen.
  destruct (Z.ltb_spec i n).
  - rewrite (proj2 (Z.ltb_ge n i)) by lia. cbn [andb]. assert (1 <= IZR i)%R by (apply IZR_le; lia). rewrite mult_IZR. field. lra.
  - destruct (Z.leb_spec i (3 * n)).
    + rewrite mult_IZR. rewrite (Zmod_odd (i - n)).
      assert (O : ((n <? i) && (i <? 3 * n) && Z.odd (i - n))%bool = Z.odd (i - n)).
      { destruct (Z.ltb_spec n i); [destruct (Z.ltb_spec i (3 * n)); [reflexivity|]|]; cbn [andb]; symmetry; [replace (i - n) with (2 * n) by lia; now rewrite Z.odd_mul|replace (i - n) with 0 by lia; reflexivity]. }
      rewrite O. destruct (Z.odd (i - n)); cbn; field; lra.
    + rewrite (proj2 (Z.ltb_ge i (3 * n))) by lia. rewrite andb_false_r. cbn [andb]. assert (1 <= IZR (4 * n - i))%R by (apply IZR_le; lia). rewrite mult_IZR. field. lra.
Qed.

(** Every direction close to the centre. *)
Open Scope R_scope.
Lemma phic_range64 n i j : (1 <= n <= 2 ^ 29)%Z -> on_ring n i j -> 0 <= phic n i j <= 2 * PI - 1 / 10 ^ 9.
Proof.
  intros Hn R. assert (T := tc_range n i j ltac:(lia) R). assert (U := tc_top n i j ltac:(lia) R). assert (NB : 1 <= IZR n <= 536870912) by (split; apply IZR_le; lia). destruct pi_bounds. unfold phic.
  assert (/ 1073741824 <= / (2 * IZR n)) by (apply Rinv_le_contravar; lra). split; nra.
Qed.
Lemma close_of64 n i j z s phi : (1 <= n <= 2 ^ 29)%Z -> on_ring n i j -> close_direction64 z s phi (zc n i) (phic n i j) -> close64 n i j z s phi.
Proof.
  intros Hn R (Fz & Fp & Hz & Hs & k & Hk & Hp). split; [exact Fz|]. split; [exact Fp|]. split; [exact Hz|]. split; [exact Hs|].
  destruct (mod_turns phi Fp) as (k' & K). destruct (fmodulo_R phi Fp) as [FU BU]. destruct twopi_near as [_ T]. assert (P := phic_range64 n i j Hn R). destruct pi_bounds as [PL PU].
  set (u := toR (fmodulo phi twopi)) in *. set (d := toR twopi - 2 * PI) in *. assert (TE : toR twopi = 2 * PI + d) by (unfold d; ring). rewrite TE in *. apply Rabs_le_inv in T. apply Rabs_le_inv in Hp. apply Rabs_le_inv in K.
  assert (HK : -100 <= IZR k <= 100) by (split; apply IZR_le; lia).
  assert (E : u = phic n i j + IZR (k - k') * (2 * PI + d) + (u - (toR phi - IZR k' * (2 * PI + d))) + (toR phi - (phic n i j + IZR k * (2 * PI))) - IZR k * d) by (rewrite minus_IZR; ring).
  set (e1 := u - (toR phi - IZR k' * (2 * PI + d))) in *. set (e2 := toR phi - (phic n i j + IZR k * (2 * PI))) in *.
  assert (KD : Rabs (IZR k * d) <= 1 / 10 ^ 11). { rewrite Rabs_mult. apply Rle_trans with (100 * (1 / 10 ^ 13)); [|lra]. apply Rmult_le_compat; try apply Rabs_pos; apply Rabs_le; lra. } apply Rabs_le_inv in KD.
  assert (C : (k - k' = 0 \/ k - k' = 1)%Z).
  { assert (A : (-1 < k - k' < 2)%Z); [|lia]. split; apply lt_IZR; (destruct (Rlt_dec (-1) (IZR (k - k'))) as [L|L]; [|assert (IZR (k - k') <= -1) by lra]); try (destruct (Rlt_dec (IZR (k - k')) 2) as [L2|L2]; [|assert (2 <= IZR (k - k')) by lra]); try assumption; exfalso; nra. }
  destruct C as [C|C]; rewrite C in E; [exists false|exists true]; apply Rabs_le; lra.
Qed.
Lemma near_ring_spec n p i j z s phi : (1 <= n <= 2 ^ 29)%Z -> ring_place n p i j -> close_direction64 z s phi (ring_height n i) (ring_longitude_of n i j) -> ang2pix_ring_z_phi64 n z s phi = Ok p.
Proof.
  intros Hn Hp C. apply place_of in Hp; [|lia]. destruct Hp as [R ->]. rewrite height_of, longitude_of in C by (try apply R; lia). apply near_ring64; [exact Hn|exact R|now apply close_of64].
Qed.
Lemma nest_view n p q : power_of_two_upto 29 n -> valid_pixel n p -> nest2ring64 n p = Ok q -> exists x y f i j, nest2xyf64 n p = Ok (x, y, f) /\ on_grid n x y f /\ xyf2nest64 n x y f = Ok p /\ enc n x y f = (i, j) /\ on_ring n i j /\ q = (start n i + j - 1)%Z /\ (1 <= n <= 2 ^ 29)%Z.
Proof.
  intros H V Q. assert (Hn : (1 <= n <= 2 ^ 29)%Z). { destruct H as (a & Ha & ->). split; [assert (0 < 2 ^ a)%Z by (apply Z.pow_pos_nonneg; lia); lia|apply Z.pow_le_mono_r; lia]. }
  destruct (nest_decode64 n p H V) as (x & y & f & D & G & EN). destruct (enc n x y f) as [i j] eqn:EE. exists x, y, f, i, j. split; [exact D|]. split; [exact G|]. split; [exact EN|]. split; [exact EE|].
  assert (FACTS := enc_ok n x y f ltac:(lia) G). unfold ring_facts in FACTS. rewrite EE in FACTS. destruct FACTS as (R & X & _). split; [exact R|]. split; [|exact Hn].
  unfold nest2ring64 in Q. rewrite D in Q. cbn [bind] in Q. rewrite xyf2ring_same, X in Q. destruct (negb (Z.land n (n - 1) =? 0)%Z) eqn:W; [exfalso|now injection Q].
  destruct H as (a & Ha & ->). rewrite land_mod in W by lia. replace (2 ^ a mod 2 ^ a)%Z with 0%Z in W; [discriminate W|]. symmetry. apply Z.mod_same. apply Z.pow_nonzero; lia.
Qed.
Lemma place_inj n p i j i' j' : (1 <= n)%Z -> ring_place n p i j -> ring_place n p i' j' -> i = i' /\ j = j'.
Proof.
  intros Hn A B. apply place_of in A; [|lia]. apply place_of in B; [|lia]. destruct A as [A EA], B as [B EB]. rewrite EA in EB. clear EA. destruct A as [Ai Aj], B as [Bi Bj].
  destruct (start_cases n i Hn Ai) as [(C & S & L)|[(C & S & L)|(C & S & L)]]; rewrite S, L in *; destruct (start_cases n i' Hn Bi) as [(C' & S' & L')|[(C' & S' & L')|(C' & S' & L')]]; rewrite S', L' in *; assert (I : i = i'); try (split; [exact I|subst i'; lia]); destruct (Z.lt_trichotomy i i') as [T|[T|T]]; try exact T; try lia; exfalso; nia.
Qed.
Lemma near_nest_spec n p q i j z s phi : power_of_two_upto 29 n -> valid_pixel n p -> nest2ring64 n p = Ok q -> ring_place n q i j ->
  close_direction64 z s phi (ring_height n i) (ring_longitude_of n i j) -> ang2pix_nest_z_phi64 n z s phi = Ok p.
Proof.
  intros H V Q Hp C. destruct (nest_view n p q H V Q) as (x & y & f & i' & j' & D & G & EN & EE & R & E & Hn).
  destruct (place_inj n q i j i' j' ltac:(lia) Hp) as [-> ->]; [apply place_of; [lia|tauto]|]. rewrite height_of, longitude_of in C by (try apply R; lia).
  assert (C' := close_of64 n i' j' z s phi Hn R C). unfold ang2pix_nest_z_phi64. destruct H as (a & Ha & ->). rewrite (near_nest64 a x y f i' j' z s phi Ha G EE C'). exact EN.
Qed.
Lemma near_close64 z s phi z0 phi0 : near z z0 (3 / 10 ^ 12) -> sine_ok z0 s (3 / 10 ^ 12) -> near phi phi0 (1 / 10 ^ 12) -> close_direction64 z s phi z0 phi0.
Proof.
  intros [Fz Hz] Hs [Fp Hp]. split; [exact Fz|]. split; [exact Fp|]. split; [exact Hz|]. split; [exact Hs|]. exists 0%Z. split; [lia|]. rewrite Rmult_0_l, Rplus_0_r. lra.
Qed.
Lemma sine_weak z0 s e e' : sine_ok z0 s e -> e <= e' -> sine_ok z0 s e'.
Proof. intros [H|H] L; [left; exact H|right; eapply near_weak; [exact H|exact L]]. Qed.

(** The doubles of centres. *)
Lemma centre_ring_spec n p : (1 <= n <= 2 ^ 29)%Z -> valid_pixel n p -> exists i j z s phi, ring_place n p i j /\ pix2ang_ring_z_phi64 n p = Ok (z, s, phi)
  /\ fin z /\ Rabs (toR z - ring_height n i) <= 1 / 10 ^ 14 /\ close_sine s (ring_height n i) (1 / 10 ^ 14) /\ fin phi /\ Rabs (toR phi - ring_longitude_of n i j) <= 1 / 10 ^ 12 /\ ang2pix_ring_z_phi64 n z s phi = Ok p.
Proof.
  intros Hn V. destruct (ring_cover n p ltac:(lia) V) as (i & j & R & E). destruct (centre_ring64 n i j Hn R) as (z & s & phi & C & [[Fz Nz] Ns] & [Fp Np]). rewrite <- E in C.
  exists i, j, z, s, phi. assert (PL : ring_place n p i j) by (apply place_of; [lia|tauto]). split; [exact PL|]. split; [exact C|]. rewrite height_of, longitude_of by (try apply R; lia).
  split; [exact Fz|]. split; [unfold v52 in Nz; lra|]. split; [apply (sine_weak _ _ _ _ Ns); unfold v52; lra|]. split; [exact Fp|]. split; [exact Np|].
  apply (near_ring_spec n p i j z s phi Hn PL). rewrite height_of, longitude_of by (try apply R; lia). apply near_close64; [split; [exact Fz|unfold v52 in Nz; lra]|apply (sine_weak _ _ _ _ Ns); unfold v52; lra|split; assumption].
Qed.
Lemma centre_nest_spec n p q : power_of_two_upto 29 n -> valid_pixel n p -> nest2ring64 n p = Ok q -> exists i j z s phi, ring_place n q i j /\ pix2ang_nest_z_phi64 n p = Ok (z, s, phi)
  /\ fin z /\ Rabs (toR z - ring_height n i) <= 1 / 10 ^ 14 /\ close_sine s (ring_height n i) (1 / 10 ^ 14) /\ fin phi /\ Rabs (toR phi - ring_longitude_of n i j) <= 1 / 10 ^ 12 /\ ang2pix_nest_z_phi64 n z s phi = Ok p.
Proof.
  intros H V Q. destruct (nest_view n p q H V Q) as (x & y & f & i & j & D & G & EN & EE & R & E & Hn). destruct (centre_nest64 n x y f i j p Hn G EE D) as (z & s & phi & C & [[Fz Nz] Ns] & [Fp Np]).
  exists i, j, z, s, phi. assert (PL : ring_place n q i j) by (apply place_of; [lia|tauto]). split; [exact PL|]. split; [exact C|]. rewrite height_of, longitude_of by (try apply R; lia).
  split; [exact Fz|]. split; [unfold v52 in Nz; lra|]. split; [apply (sine_weak _ _ _ _ Ns); unfold v52; lra|]. split; [exact Fp|]. split; [exact Np|].
  apply (near_nest_spec n p q i j z s phi H V Q PL). rewrite height_of, longitude_of by (try apply R; lia). apply near_close64; [split; [exact Fz|unfold v52 in Nz; lra]|apply (sine_weak _ _ _ _ Ns); unfold v52; lra|split; assumption].
Qed.

