(** Vectors close to the centre of a pixel, and vectors made from pixels, in double arithmetic. *)
From Coq Require Import ZArith List Bool Reals Lra Lia Psatz.
From Flocq Require Import Core IEEE754.BinarySingleNaN.
From Verif Require Import CLib FloatModel FloatLemmas GeoLemmas TleProofs3 PipeProofs5 CalendarProofs2 CalendarProofs3 CalendarProofs4.
From Verif Require Import HealpixModel HealpixSpec HealpixAngModel HealpixRealModel HealpixFloatModel HealpixFloatSpec HealpixAng64Model HealpixAng64Spec HealpixVecModel HealpixVecSpec HealpixProofs1 HealpixProofs2 HealpixProofs3 HealpixProofs4 HealpixProofs5 HealpixProofs6 HealpixProofs7 HealpixProofs8 HealpixProofs9 HealpixProofs10 HealpixProofs11 HealpixProofs12 HealpixProofs13 HealpixProofs14 HealpixProofs15 HealpixProofs16 HealpixProofs17 HealpixProofs18 HealpixProofs19 HealpixProofs20 HealpixProofs21.
Import ListNotations.
Open Scope R_scope.

(** The sine handed on is given near the poles only. *)
Lemma vec_sine_ok x y z z0 s : near (fdiv z (vec_length x y z)) z0 (3 / 10 ^ 12) -> (s <= 1 / 5 -> near (fdiv (fsqrt (axis_square x y)) (vec_length x y z)) s (2 / 10 ^ 12)) ->
  Rabs (s - sqrt (1 - z0 * z0)) <= 5 / 10 ^ 13 -> Rabs z0 <= 1 -> sine_ok z0 (vec_sine64 x y z) (3 / 10 ^ 12).
Proof.
  intros [F N] S D B. unfold vec_sine64. cbv zeta. set (c := fdiv z (vec_length x y z)) in *. destruct (lit99 99 ltac:(lia)) as [FL NL]. apply Rabs_le_inv in N, NL, D. unfold v52 in NL.
  assert (FB : fin (Babs c)) by (unfold fin; rewrite is_finite_Babs; exact F). assert (EB : toR (Babs c) = Rabs (toR c)) by apply B2R_Babs. destruct (flt (lit 99 100) (Babs c)) eqn:C.
  - right. apply flt_R in C; [|exact FL|exact FB]. rewrite EB in C. assert (Z : 98 / 100 <= Rabs z0). { destruct (Rle_lt_dec 0 (toR c)); [rewrite (Rabs_pos_eq (toR c)) in C by lra; rewrite Rabs_pos_eq; lra|rewrite (Rabs_left (toR c)) in C by lra; rewrite Rabs_left; lra]. }
    assert (P : 0 <= 1 - z0 * z0). { replace (z0 * z0) with (Rabs z0 * Rabs z0) by (rewrite <- Rabs_mult, Rabs_pos_eq; [reflexivity|apply Rle_0_sqr]). assert (0 <= Rabs z0) by apply Rabs_pos. nra. }
    assert (Q : 1 - z0 * z0 <= 396 / 10000). { replace (z0 * z0) with (Rabs z0 * Rabs z0) by (rewrite <- Rabs_mult, Rabs_pos_eq; [reflexivity|apply Rle_0_sqr]). nra. }
    assert (SQ := sqrt_sqrt _ P). assert (S0 := sqrt_pos (1 - z0 * z0)). set (r := sqrt (1 - z0 * z0)) in *. assert (r <= 1999 / 10000) by nra. destruct (S ltac:(lra)) as [F' N']. split; [exact F'|]. apply Rabs_le_inv in N'. apply Rabs_le. lra.
  - left. split; [reflexivity|]. assert (C' : ~ toR (lit 99 100) < toR (Babs c)) by (intro W; apply (proj2 (flt_R _ _ FL FB)) in W; congruence). rewrite EB in C'. destruct (Rle_lt_dec 0 (toR c)); [rewrite (Rabs_pos_eq (toR c)) in C' by lra|rewrite (Rabs_left (toR c)) in C' by lra]; apply Rabs_le; lra.
Qed.

(** What the code makes of a vector. *)
Definition seen (ft : b64 -> b64 -> b64) (x y z : b64) (z0 phi0 ez ep : R) : Prop :=
  near (fdiv z (vec_length x y z)) z0 ez /\ fin (ft y x) /\ exists k, (Z.abs k <= 3)%Z /\ Rabs (toR (ft y x) - (phi0 + IZR k * (2 * PI))) <= ep.
Lemma unit_sine z0 : Rabs z0 <= 1 - 1 / 10 ^ 18 -> let s0 := sqrt (1 - z0 * z0) in s0 * s0 = 1 - z0 * z0 /\ 1 / 10 ^ 9 <= s0 <= 1.
Proof.
  intros B s0. assert (A := Rabs_pos z0). assert (E : z0 * z0 = Rabs z0 * Rabs z0) by (rewrite <- Rabs_mult, Rabs_pos_eq; [reflexivity|apply Rle_0_sqr]). assert (U : Rabs z0 * Rabs z0 <= Rabs z0 * 1) by (apply Rmult_le_compat_l; lra). assert (V := Rle_0_sqr z0). unfold Rsqr in V.
  assert (SS := sqrt_sqrt (1 - z0 * z0) ltac:(lra)). assert (S0 := sqrt_pos (1 - z0 * z0)). fold s0 in SS, S0. split; [exact SS|]. split.
  - destruct (Rle_lt_dec (1 / 10 ^ 9) s0) as [|W]; [assumption|exfalso]. assert (s0 * s0 < 1 / 10 ^ 9 * (1 / 10 ^ 9)) by (apply Rmult_le_0_lt_compat; lra). lra.
  - destruct (Rle_lt_dec s0 1) as [|W]; [assumption|exfalso]. assert (1 * 1 < s0 * s0) by (apply Rmult_le_0_lt_compat; lra). lra.
Qed.
Lemma close_seen ft x y z z0 phi0 : good_angle ft -> Rabs z0 <= 1 - 1 / 10 ^ 18 -> Rabs phi0 <= 8 -> close_vector x y z z0 phi0 ->
  seen ft x y z z0 phi0 (3 / 10 ^ 12) (4 / 10 ^ 12) /\ sine_ok z0 (vec_sine64 x y z) (3 / 10 ^ 12).
Proof.
  intros GA B P C. unfold close_vector in C. cbv zeta in C. destruct (unit_sine z0 B) as [SS SB]. cbv zeta in SS, SB. remember (sqrt (1 - z0 * z0)) as s0 eqn:ES. destruct C as (Fx & Fy & Fz & L & HL & Dx & Dy & Dz).
  assert (L0 : 0 < L) by (assert (X := bpow_gt_0 radix2 (-300)); lra). set (e1 := toR x / (L * s0) - cos phi0). set (e2 := toR y / (L * s0) - sin phi0). set (zt := toR z / L).
  assert (LS : 0 < L * s0) by (apply Rmult_lt_0_compat; lra).
  assert (Ex : toR x = L * (s0 * (cos phi0 + e1))) by (unfold e1; field; split; lra). assert (Ey : toR y = L * (s0 * (sin phi0 + e2))) by (unfold e2; field; split; lra). assert (Ez : toR z = L * zt) by (unfold zt; field; lra).
  assert (SM : forall u c, Rabs (u - L * (s0 * c)) <= 2 / 10 ^ 13 * (L * s0) -> Rabs (u / (L * s0) - c) <= 102 / 10 ^ 14).
  { intros u c H. replace (u / (L * s0) - c) with ((u - L * (s0 * c)) / (L * s0)) by (field; split; lra). unfold Rdiv at 1. rewrite Rabs_mult, (Rabs_pos_eq (/ (L * s0))) by (apply Rlt_le, Rinv_0_lt_compat; exact LS). apply Rmult_le_reg_r with (L * s0); [exact LS|]. rewrite Rmult_assoc, Rinv_l, Rmult_1_r by lra. lra. }
  assert (H1 := SM _ _ Dx). fold e1 in H1. assert (H2 := SM _ _ Dy). fold e2 in H2.
  assert (HZ : Rabs (zt - z0) <= 2 / 10 ^ 13). { unfold zt. replace (toR z / L - z0) with ((toR z - L * z0) / L) by (field; lra). unfold Rdiv at 1. rewrite Rabs_mult, (Rabs_pos_eq (/ L)) by (apply Rlt_le, Rinv_0_lt_compat; exact L0). apply Rmult_le_reg_r with L; [exact L0|]. rewrite Rmult_assoc, Rinv_l, Rmult_1_r by lra. lra. }
  apply Rabs_le_inv in HZ. assert (B' := Rabs_le_inv _ _ B).
  assert (Hu : Rabs (s0 * s0 + zt * zt - 1) <= 41 / 10 ^ 14). { rewrite SS. replace (1 - z0 * z0 + zt * zt - 1) with ((zt - z0) * (zt + z0)) by ring. assert (K := small_prod (zt - z0) (zt + z0) _ (2 + 1 / 10 ^ 6) HZ ltac:(lra)). apply Rabs_le. lra. }
  assert (Hs : 1 / 10 ^ 10 <= s0 <= 11 / 10) by lra. assert (Hz : Rabs zt <= 11 / 10) by (apply Rabs_le; lra).
  destruct (height_back L s0 zt phi0 e1 e2 x y z Fx Fy Fz HL Ex Ey Ez H1 H2 Hs Hz Hu) as [FH NH]. assert (SB' := sine_back L s0 zt phi0 e1 e2 x y z Fx Fy Fz HL Ex Ey Ez H1 H2 Hs Hz Hu).
  assert (LB := longitude_back L s0 phi0 e1 e2 x y Fx Fy HL Ex Ey H1 H2 Hs ft GA P). apply Rabs_le_inv in NH.
  assert (NZ : near (fdiv z (vec_length x y z)) z0 (3 / 10 ^ 12)) by (split; [exact FH|apply Rabs_le; lra]). split; [split; [exact NZ|exact LB]|].
  apply (vec_sine_ok x y z z0 s0 NZ SB'); [rewrite <- ES, Rminus_eq_0, Rabs_R0; lra|lra].
Qed.
Lemma made_seen fc fs ft z s phi z0 phi0 ep : good_cos_turn fc -> good_sin_turn fs -> good_angle ft -> fin z -> fin s -> near phi phi0 ep -> 0 <= ep <= 1 / 10 ^ 7 -> 0 <= phi0 <= 2 * PI -> 1 / 10 ^ 10 <= toR s <= 11 / 10 -> Rabs (toR z) <= 11 / 10 ->
  Rabs (toR s * toR s + toR z * toR z - 1) <= 41 / 10 ^ 14 -> forall ez, Rabs (toR z - z0) <= ez -> let '(x, y, z') := make_vec fc fs z s phi in
  seen ft x y z' z0 phi0 (ez + 26 / 10 ^ 13) (ep + 4 / 10 ^ 12) /\ (ez <= 1 / 10 ^ 13 -> Rabs (toR s - sqrt (1 - z0 * z0)) <= 5 / 10 ^ 13 -> Rabs z0 <= 1 -> sine_ok z0 (vec_sine64 x y z') (3 / 10 ^ 12)).
Proof.
  intros GC GS GA Fz Fs [Fp Np] He P0 Hs Hz Hu ez Dz. destruct pi_bounds as [PL PU]. apply Rabs_le_inv in Np. assert (PB : Rabs (toR phi) <= 7) by (apply Rabs_le; lra).
  assert (V := vec_ok fc fs ft z s phi GC GS GA Fz Fs Fp Hs Hz PB Hu). destruct (make_vec fc fs z s phi) as [[x y] z'] eqn:M. injection M as _ _ <-. destruct V as ([FH NH] & SB & FA & k & Hk & Dk). apply Rabs_le_inv in NH, Dz, Dk.
  assert (NZ : near (fdiv z (vec_length x y z)) z0 (ez + 26 / 10 ^ 13)) by (split; [exact FH|apply Rabs_le; lra]). split.
  - split; [exact NZ|]. split; [exact FA|]. exists k. split; [exact Hk|]. apply Rabs_le. lra.
  - intros H1 H2 H3. apply (vec_sine_ok x y z z0 (toR s)); [eapply near_weak; [exact NZ|lra]|exact SB|exact H2|exact H3].
Qed.

(** The pixel found. *)
Lemma seen_ring ft n i j x y z : (1 <= n <= 13377)%Z -> on_ring n i j -> seen ft x y z (zc n i) (phic n i j) (1 / 10 ^ 10) (5 / 10 ^ 7) -> vec2pix_ring ft n x y z = Ok (start n i + j - 1)%Z.
Proof. intros Hn R ([Fz Nz] & Fp & k & Hk & Dk). unfold vec2pix_ring. apply near_ring; [exact Hn|exact R|]. apply (close_of n i j _ _ k); try assumption. lia. Qed.
Lemma seen_nest ft n p xx yy f i j x y z : power_of_two_upto 13 n -> on_grid n xx yy f -> xyf2nest n xx yy f = Ok p -> enc n xx yy f = (i, j) -> on_ring n i j -> seen ft x y z (zc n i) (phic n i j) (1 / 10 ^ 10) (5 / 10 ^ 7) -> vec2pix_nest ft n x y z = Ok p.
Proof.
  intros H G EN EE R ([Fz Nz] & Fp & k & Hk & Dk). destruct (size_32 n H) as [H1 H2]. assert (Hn := small_side n H1 H2). unfold vec2pix_nest, ang2pix_nest_z_phi.
  assert (C := close_of n i j _ _ k Hn R Fz Fp Nz Dk ltac:(lia)). destruct H as (a & Ha & ->). rewrite (near_nest a xx yy f i j _ _ Ha G EE C). exact EN.
Qed.
Lemma seen64 ft n i j x y z : (1 <= n <= 2 ^ 29)%Z -> on_ring n i j -> seen ft x y z (zc n i) (phic n i j) (3 / 10 ^ 12) (4 / 10 ^ 11) -> sine_ok (zc n i) (vec_sine64 x y z) (3 / 10 ^ 12) ->
  close64 n i j (fdiv z (vec_length x y z)) (vec_sine64 x y z) (ft y x).
Proof. intros Hn R ([Fz Nz] & Fp & k & Hk & Dk) S. apply close_of64; [exact Hn|exact R|]. split; [exact Fz|]. split; [exact Fp|]. split; [exact Nz|]. split; [exact S|]. exists k. split; [lia|exact Dk]. Qed.
Lemma seen_weak ft x y z z0 phi0 a b a' b' : seen ft x y z z0 phi0 a b -> a <= a' -> b <= b' -> seen ft x y z z0 phi0 a' b'.
Proof. intros (N & F & k & Hk & D) A B. split; [eapply near_weak; eassumption|]. split; [exact F|]. exists k. split; [exact Hk|lra]. Qed.
Lemma zc_any n i : (1 <= n <= 2 ^ 29)%Z -> (1 <= i < 4 * n)%Z -> Rabs (zc n i) <= 1 - 1 / 10 ^ 18. Proof. exact (zc_inside64 n i). Qed.

(** Vectors close to a centre. *)
Lemma vec_ring ft n p i j x y z : good_angle ft -> (1 <= n)%Z -> (12 * n * n < 2147483648)%Z -> ring_place n p i j -> close_vector x y z (ring_height n i) (ring_longitude_of n i j) -> vec2pix_ring ft n x y z = Ok p.
Proof.
  intros GA H1 H2 Hp C. assert (Hn := small_side n H1 H2). apply place_of in Hp; [|lia]. destruct Hp as [R ->]. rewrite height_of, longitude_of in C by (try apply R; lia). assert (P := phic_range n i j Hn R). destruct pi_bounds.
  destruct (close_seen ft x y z _ (phic n i j) GA (zc_any n i ltac:(lia) (proj1 R)) ltac:(apply Rabs_le; lra) C) as [S _]. apply seen_ring; [exact Hn|exact R|]. apply (seen_weak _ _ _ _ _ _ _ _ _ _ S); lra.
Qed.
Lemma nest_view32 n p q : power_of_two_upto 13 n -> valid_pixel n p -> nest2ring n p = Ok q -> exists x y f i j, nest2xyf n p = Ok (x, y, f) /\ on_grid n x y f /\ xyf2nest n x y f = Ok p /\ enc n x y f = (i, j) /\ on_ring n i j /\ q = (start n i + j - 1)%Z /\ (1 <= n <= 13377)%Z.
Proof.
  intros H V Q. destruct (size_32 n H) as [H1 H2]. assert (Hn := small_side n H1 H2).
  destruct (nest_decode n p H V) as (x & y & f & D & G & EN). destruct (enc n x y f) as [i j] eqn:EE. exists x, y, f, i, j. split; [exact D|]. split; [exact G|]. split; [exact EN|]. split; [exact EE|].
  assert (FACTS := enc_ok n x y f ltac:(lia) G). unfold ring_facts in FACTS. rewrite EE in FACTS. destruct FACTS as (R & X & _). split; [exact R|]. split; [|exact Hn].
  unfold nest2ring in Q. rewrite D in Q. cbn [bind] in Q. rewrite X in Q. rewrite (guard_passes _ _ H) in Q. now injection Q.
Qed.
Lemma vec_nest ft n p q i j x y z : good_angle ft -> power_of_two_upto 13 n -> valid_pixel n p -> nest2ring n p = Ok q -> ring_place n q i j -> close_vector x y z (ring_height n i) (ring_longitude_of n i j) -> vec2pix_nest ft n x y z = Ok p.
Proof.
  intros GA H V Q Hp C. destruct (nest_view32 n p q H V Q) as (xx & yy & f & i' & j' & D & G & EN & EE & R & E & Hn). destruct (place_inj n q i j i' j' ltac:(lia) Hp) as [-> ->]; [apply place_of; [lia|tauto]|]. rewrite height_of, longitude_of in C by (try apply R; lia).
  assert (P := phic_range n i' j' Hn R). destruct pi_bounds. destruct (close_seen ft x y z _ (phic n i' j') GA (zc_any n i' ltac:(lia) (proj1 R)) ltac:(apply Rabs_le; lra) C) as [S _]. apply (seen_nest ft n p xx yy f i' j'); try assumption. apply (seen_weak _ _ _ _ _ _ _ _ _ _ S); lra.
Qed.
Lemma vec_ring64 ft n p i j x y z : good_angle ft -> (1 <= n <= 2 ^ 29)%Z -> ring_place n p i j -> close_vector x y z (ring_height n i) (ring_longitude_of n i j) -> vec2pix_ring64 ft n x y z = Ok p.
Proof.
  intros GA Hn Hp C. apply place_of in Hp; [|lia]. destruct Hp as [R ->]. rewrite height_of, longitude_of in C by (try apply R; lia). assert (P := phic_range64 n i j Hn R). destruct pi_bounds.
  destruct (close_seen ft x y z _ (phic n i j) GA (zc_any n i Hn (proj1 R)) ltac:(apply Rabs_le; lra) C) as [S T]. unfold vec2pix_ring64. apply near_ring64; [exact Hn|exact R|]. apply seen64; [exact Hn|exact R| |exact T]. apply (seen_weak _ _ _ _ _ _ _ _ _ _ S); lra.
Qed.
Lemma vec_nest64 ft n p q i j x y z : good_angle ft -> power_of_two_upto 29 n -> valid_pixel n p -> nest2ring64 n p = Ok q -> ring_place n q i j -> close_vector x y z (ring_height n i) (ring_longitude_of n i j) -> vec2pix_nest64 ft n x y z = Ok p.
Proof.
  intros GA H V Q Hp C. destruct (nest_view n p q H V Q) as (xx & yy & f & i' & j' & D & G & EN & EE & R & E & Hn). destruct (place_inj n q i j i' j' ltac:(lia) Hp) as [-> ->]; [apply place_of; [lia|tauto]|]. rewrite height_of, longitude_of in C by (try apply R; lia).
  assert (P := phic_range64 n i' j' Hn R). destruct pi_bounds. destruct (close_seen ft x y z _ (phic n i' j') GA (zc_any n i' Hn (proj1 R)) ltac:(apply Rabs_le; lra) C) as [S T]. assert (C' := seen64 ft n i' j' x y z Hn R ltac:(apply (seen_weak _ _ _ _ _ _ _ _ _ _ S); lra) T).
  unfold vec2pix_nest64, ang2pix_nest_z_phi64. destruct H as (a & Ha & ->). rewrite (near_nest64 a xx yy f i' j' _ _ _ Ha G EE C'). exact EN.
Qed.

(** Round trips. *)
Lemma trip_ring fc fs ft n p : good_cos_turn fc -> good_sin_turn fs -> good_angle ft -> (1 <= n)%Z -> (12 * n * n < 2147483648)%Z -> valid_pixel n p ->
  exists x y z, pix2vec_ring fc fs n p = Ok (x, y, z) /\ vec2pix_ring ft n x y z = Ok p.
Proof.
  intros GC GS GA H1 H2 V. assert (Hn := small_side n H1 H2). destruct (ring_cover n p H1 V) as (i & j & R & E). destruct (centre_ring_doubles n i j Hn R) as (z & phi & C & [Fz Nz] & Np). rewrite <- E in C. assert (P := phic_range n i j Hn R). assert (Zi := zc_inside n i Hn (proj1 R)). destruct pi_bounds.
  assert (Nz' := Rabs_le_inv _ _ Nz). assert (Zi' := Rabs_le_inv _ _ Zi). destruct (sine_of_ok z Fz ltac:(apply Rabs_le; lra)) as (Fs & Hs & Hu).
  assert (M := made_seen fc fs ft z (sine_of z) phi (zc n i) (phic n i j) _ GC GS GA Fz Fs Np ltac:(lra) ltac:(lra) ltac:(lra) ltac:(apply Rabs_le; lra) ltac:(lra) _ Nz). unfold pix2vec_ring. rewrite C. cbn [bind].
  destruct (make_vec fc fs z (sine_of z) phi) as [[x y] z']. exists x, y, z'. split; [reflexivity|]. rewrite E. apply seen_ring; [exact Hn|exact R|]. apply (seen_weak _ _ _ _ _ _ _ _ _ _ (proj1 M)); lra.
Qed.
Lemma trip_nest fc fs ft n p : good_cos_turn fc -> good_sin_turn fs -> good_angle ft -> power_of_two_upto 13 n -> valid_pixel n p ->
  exists x y z, pix2vec_nest fc fs n p = Ok (x, y, z) /\ vec2pix_nest ft n x y z = Ok p.
Proof.
  intros GC GS GA H V. destruct (nest_ring_nest n p H V) as (q & Q & _). destruct (nest_view32 n p q H V Q) as (xx & yy & f & i & j & D & G & EN & EE & R & E & Hn).
  destruct (centre_nest_doubles n xx yy f i j p Hn G EE D) as (z & phi & C & [Fz Nz] & Np). assert (P := phic_range n i j Hn R). assert (Zi := zc_inside n i Hn (proj1 R)). destruct pi_bounds.
  assert (Nz' := Rabs_le_inv _ _ Nz). assert (Zi' := Rabs_le_inv _ _ Zi). destruct (sine_of_ok z Fz ltac:(apply Rabs_le; lra)) as (Fs & Hs & Hu).
  assert (M := made_seen fc fs ft z (sine_of z) phi (zc n i) (phic n i j) _ GC GS GA Fz Fs Np ltac:(lra) ltac:(lra) ltac:(lra) ltac:(apply Rabs_le; lra) ltac:(lra) _ Nz). unfold pix2vec_nest. rewrite C. cbn [bind].
  destruct (make_vec fc fs z (sine_of z) phi) as [[x y] z']. exists x, y, z'. split; [reflexivity|]. apply (seen_nest ft n p xx yy f i j); try assumption. apply (seen_weak _ _ _ _ _ _ _ _ _ _ (proj1 M)); lra.
Qed.
Lemma sine64_used z s z0 : near z z0 (10 * v52) -> sine_ok z0 s (17 * v52) -> Rabs z0 <= 1 - 1 / 10 ^ 18 -> let s' := if flt s (of_int (-2)) then sine_of z else s in
  fin s' /\ 1 / 10 ^ 10 <= toR s' <= 11 / 10 /\ Rabs (toR s' * toR s' + toR z * toR z - 1) <= 41 / 10 ^ 14 /\ Rabs (toR s' - sqrt (1 - z0 * z0)) <= 5 / 10 ^ 13.
Proof.
  intros [Fz Nz] S B s'. destruct (unit_sine z0 B) as [SS SB]. cbv zeta in SS, SB. set (s0 := sqrt (1 - z0 * z0)) in *. apply Rabs_le_inv in Nz, B. unfold v52 in Nz. destruct S as [[E Z]|[Fs Ns]].
  - assert (ES : s' = sine_of z) by (unfold s'; rewrite E; replace (flt (of_int (-5)) (of_int (-2))) with true by (vm_compute; reflexivity); reflexivity). rewrite ES. apply Rabs_le_inv in Z. destruct (sine_of_ok z Fz ltac:(apply Rabs_le; lra)) as (F & H & U).
    split; [exact F|]. split; [lra|]. split; [lra|]. apply Rabs_le_inv in U. set (v := toR (sine_of z)) in *. assert (D : (v - s0) * (v + s0) = (v * v + toR z * toR z - 1) - (toR z - z0) * (toR z + z0)) by (replace ((v - s0) * (v + s0)) with (v * v - s0 * s0) by ring; rewrite SS; ring).
    assert (K := small_prod (toR z - z0) (toR z + z0) (10 * / 4503599627370496) 2 ltac:(lra) ltac:(lra)). assert (S13 : 13 / 100 <= s0). { destruct (Rle_lt_dec (13 / 100) s0) as [|W]; [assumption|exfalso]. assert (s0 * s0 < 13 / 100 * (13 / 100)) by (apply Rmult_le_0_lt_compat; lra). nra. }
    assert (A : Rabs (v - s0) * (13 / 100) <= 15 / 10 ^ 15). { apply Rle_trans with (Rabs (v - s0) * (v + s0)); [apply Rmult_le_compat_l; [apply Rabs_pos|lra]|]. rewrite <- (Rabs_pos_eq (v + s0)) by lra. rewrite <- Rabs_mult, D. apply Rabs_le. lra. } lra.
  - apply Rabs_le_inv in Ns. fold s0 in Ns. unfold v52 in Ns. assert (ES : s' = s). { unfold s'. destruct (flt s (of_int (-2))) eqn:W; [exfalso|reflexivity]. destruct (near_int (-2) ltac:(lia)) as [F2 N2]. apply Rabs_le_inv in N2. apply flt_R in W; [|exact Fs|exact F2]. lra. }
    rewrite ES. split; [exact Fs|]. split; [lra|]. split; [|apply Rabs_le; lra]. set (v := toR s) in *. replace (v * v + toR z * toR z - 1) with ((v - s0) * (v + s0) + (toR z - z0) * (toR z + z0)) by (replace ((v - s0) * (v + s0)) with (v * v - s0 * s0) by ring; rewrite SS; ring).
    assert (K := small_prod (toR z - z0) (toR z + z0) (10 * / 4503599627370496) 3 ltac:(lra) ltac:(lra)). assert (K' := small_prod (v - s0) (v + s0) (17 * / 4503599627370496) 3 ltac:(lra) ltac:(lra)). apply Rabs_le. lra.
Qed.
Lemma trip64 fc fs ft z s phi z0 phi0 : good_cos_turn fc -> good_sin_turn fs -> good_angle ft -> near z z0 (10 * v52) -> sine_ok z0 s (17 * v52) -> near phi phi0 (1 / 10 ^ 12) -> Rabs z0 <= 1 - 1 / 10 ^ 18 -> 0 <= phi0 <= 2 * PI ->
  let '(x, y, z') := vec_of64 fc fs (z, s, phi) in seen ft x y z' z0 phi0 (3 / 10 ^ 12) (4 / 10 ^ 11) /\ sine_ok z0 (vec_sine64 x y z') (3 / 10 ^ 12).
Proof.
  intros GC GS GA [Fz Nz] S Np B P. assert (U := sine64_used z s z0 (conj Fz Nz) S B). cbv zeta in U. cbn [vec_of64]. unfold vec_of64. set (s' := if flt s (of_int (-2)) then sine_of z else s) in *. clearbody s'. destruct U as (Fs & Hs & Hu & Ds). assert (Nz' := Rabs_le_inv _ _ Nz). assert (B' := Rabs_le_inv _ _ B). unfold v52 in Nz'.
  assert (M := made_seen fc fs ft z s' phi z0 phi0 _ GC GS GA Fz Fs Np ltac:(lra) P Hs ltac:(apply Rabs_le; lra) Hu _ Nz). destruct (make_vec fc fs z s' phi) as [[x y] z']. destruct M as [M1 M2]. unfold v52 in M1, M2. split; [apply (seen_weak _ _ _ _ _ _ _ _ _ _ M1); lra|]. apply M2; [lra|exact Ds|lra].
Qed.
Lemma trip_ring64 fc fs ft n p : good_cos_turn fc -> good_sin_turn fs -> good_angle ft -> (1 <= n <= 2 ^ 29)%Z -> valid_pixel n p ->
  exists x y z, pix2vec_ring64 fc fs n p = Ok (x, y, z) /\ vec2pix_ring64 ft n x y z = Ok p.
Proof.
  intros GC GS GA Hn V. destruct (ring_cover n p ltac:(lia) V) as (i & j & R & E). destruct (centre_ring64 n i j Hn R) as (z & s & phi & C & [Nz Ns] & Np). rewrite <- E in C. assert (P := phic_range64 n i j Hn R).
  assert (M := trip64 fc fs ft z s phi (zc n i) (phic n i j) GC GS GA Nz Ns Np (zc_any n i Hn (proj1 R)) ltac:(lra)). unfold pix2vec_ring64. rewrite C. cbn [bind]. destruct (vec_of64 fc fs (z, s, phi)) as [[x y] z']. exists x, y, z'. split; [reflexivity|]. destruct M as [M1 M2].
  rewrite E. unfold vec2pix_ring64. apply near_ring64; [exact Hn|exact R|]. now apply seen64.
Qed.
Lemma trip_nest64 fc fs ft n p : good_cos_turn fc -> good_sin_turn fs -> good_angle ft -> power_of_two_upto 29 n -> valid_pixel n p ->
  exists x y z, pix2vec_nest64 fc fs n p = Ok (x, y, z) /\ vec2pix_nest64 ft n x y z = Ok p.
Proof.
  intros GC GS GA H V. destruct (nest_ring_nest64 n p H V) as (q & Q & _). destruct (nest_view n p q H V Q) as (xx & yy & f & i & j & D & G & EN & EE & R & E & Hn).
  destruct (centre_nest64 n xx yy f i j p Hn G EE D) as (z & s & phi & C & [Nz Ns] & Np). assert (P := phic_range64 n i j Hn R).
  assert (M := trip64 fc fs ft z s phi (zc n i) (phic n i j) GC GS GA Nz Ns Np (zc_any n i Hn (proj1 R)) ltac:(lra)). unfold pix2vec_nest64. rewrite C. cbn [bind]. destruct (vec_of64 fc fs (z, s, phi)) as [[x y] z']. exists x, y, z'. split; [reflexivity|]. destruct M as [M1 M2].
  assert (C' := seen64 ft n i j x y z' Hn R M1 M2). unfold vec2pix_nest64, ang2pix_nest_z_phi64. destruct H as (a & Ha & ->). rewrite (near_nest64 a xx yy f i j _ _ _ Ha G EE C'). exact EN.
Qed.
