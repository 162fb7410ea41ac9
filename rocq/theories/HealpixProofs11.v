(** Directions near a pixel centre get that pixel, in double arithmetic with 32-bit pixel numbers. *)
From Coq Require Import ZArith List Bool Reals Lra Lia Psatz.
From Flocq Require Import Core IEEE754.BinarySingleNaN.
From Verif Require Import CLib FloatModel FloatLemmas GeoLemmas CalendarProofs2 CalendarProofs3 CalendarProofs4.
From Verif Require Import HealpixModel HealpixSpec HealpixAngModel HealpixRealModel HealpixFloatModel HealpixProofs1 HealpixProofs3 HealpixProofs4 HealpixProofs5 HealpixProofs6 HealpixProofs7 HealpixProofs8 HealpixProofs9 HealpixProofs10.
Import ListNotations.
Open Scope Z_scope.

(** From the floors to the place on the grid. *)
Lemma grid_belt n x y f i j (w : bool) : 1 <= n -> on_grid n x y f -> enc n x y f = (i, j) -> n <= i <= 3 * n -> (w = true -> j = 1 /\ (i - n) mod 2 = 1) ->
  let ks := (i - n) mod 2 in let up := if w then 4 * n else 0 in
  let jp := j + (i - n - ks) / 2 - 1 + up in let jm := j + n - 1 - (i - n + ks) / 2 + up in
  (jm mod n, n - jp mod n - 1, face_of (Z.quot jp n) (Z.quot jm n)) = (x, y, f) /\ 0 <= jp /\ 0 <= jm.
Proof.
  intros Hn G E Hi Hw ks up jp jm. assert (L := belt_lines n x y f Hn G i j E Hi). cbv zeta in L. fold ks in L. destruct L as (qp & qm & P & M & Qp & Qm & F).
  destruct G as (Gx & Gy & Gf).
  assert (JP : jp = n - 1 - y + (qp + if w then 4 else 0) * n) by (unfold jp, up; destruct w; lia).
  assert (JM : jm = x + (qm + if w then 4 else 0) * n) by (unfold jm, up; destruct w; lia).
  assert (FF : face_of (qp + if w then 4 else 0) (qm + if w then 4 else 0) = f).
  { destruct w; [|rewrite !Z.add_0_r; exact F]. destruct (Hw eq_refl) as [J1 K]. rewrite J1 in P, M. fold ks in K. rewrite K in P, M.
    assert (qp = 0) by (assert (qp * n < n) by (Z.to_euclidean_division_equations; lia); nia).
    assert (qm = 0) by (assert (qm * n < n) by (Z.to_euclidean_division_equations; lia); nia). subst qp qm. rewrite <- F. reflexivity. }
  assert (0 <= jp) by (rewrite JP; destruct w; nia). assert (0 <= jm) by (rewrite JM; destruct w; nia). split; [|lia].
  rewrite !Z.quot_div_nonneg, JP, JM, !Z.mod_add, !Z.div_add by lia. rewrite !Z.mod_small, !Z.div_small, !Z.add_0_l, FF by lia. do 2 f_equal. lia.
Qed.
Lemma grid_north n x y f i j c : 1 <= n -> on_grid n x y f -> enc n x y f = (i, j) -> i <= n -> 0 <= c <= 3 -> c * i <= j - 1 < (c + 1) * i ->
  (n - (i - j + c * i) - 1, n - (j - 1 - c * i) - 1, c) = (x, y, f).
Proof.
  intros Hn (Hx & Hy & Hf) E Hi Hc B. unfold enc in E. cbv zeta in E. destruct (face_parts f Hf) as (r & q & Hr & Hq & Ef & E4 & Em). rewrite E4, Em in E.
  pose proof (f_equal fst E) as EI; pose proof (f_equal snd E) as EJ; cbn [fst snd] in EI, EJ. rewrite EI in EJ. clear E.
  destruct Hr as [->|[->| ->]]; cbn [Z.eqb Pos.eqb] in *; [|exfalso; lia|exfalso; lia].
  assert (K : (if i <? n then i else if 3 * n <? i then 4 * n - i else n) = i) by (destruct (Z.ltb_spec i n); [reflexivity|]; rewrite (proj2 (Z.ltb_ge (3 * n) i)) by lia; lia). rewrite K in EJ.
  assert (S : (if i <? n then 0 else if 3 * n <? i then 0 else (i - n) mod 2) = 0) by (destruct (Z.ltb_spec i n); [reflexivity|]; rewrite (proj2 (Z.ltb_ge (3 * n) i)) by lia; replace (i - n) with 0 by lia; reflexivity). rewrite S in EJ.
  assert (J : j = ((2 * q + 1) * i + x - y + 1 + 0) / 2).
  { destruct (Z.ltb_spec (((2 * q + 1) * i + x - y + 1 + 0) / 2) 1) as [W|W]; [exfalso|lia]. destruct Hq as [->|[->|[->| ->]]]; Z.to_euclidean_division_equations; lia. }
  clear EJ K S. assert (J2 : 2 * j = (2 * q + 1) * i + x - y + 1).
  { destruct Hq as [->|[->|[->| ->]]]; Z.to_euclidean_division_equations; lia. } clear J.
  assert (C : c = q) by nia. clear Em. subst c. assert (f = q) by lia. f_equal; [f_equal; lia|lia].
Qed.
Lemma grid_south n x y f i j c : 1 <= n -> on_grid n x y f -> enc n x y f = (i, j) -> 3 * n <= i < 4 * n -> 0 <= c <= 3 -> c * (4 * n - i) <= j - 1 < (c + 1) * (4 * n - i) ->
  (j - 1 - c * (4 * n - i), 4 * n - i - j + c * (4 * n - i), c + 8) = (x, y, f).
Proof.
  intros Hn (Hx & Hy & Hf) E Hi Hc B. unfold enc in E. cbv zeta in E. destruct (face_parts f Hf) as (r & q & Hr & Hq & Ef & E4 & Em). rewrite E4, Em in E.
  pose proof (f_equal fst E) as EI; pose proof (f_equal snd E) as EJ; cbn [fst snd] in EI, EJ. rewrite EI in EJ. clear E.
  destruct Hr as [->|[->| ->]]; cbn [Z.eqb Pos.eqb] in *; [exfalso; lia|exfalso; lia|].
  rewrite (proj2 (Z.ltb_ge i n)) in EJ by lia.
  assert (K : (if 3 * n <? i then 4 * n - i else n) = 4 * n - i) by (destruct (Z.ltb_spec (3 * n) i); lia). rewrite K in EJ.
  assert (S : (if 3 * n <? i then 0 else (i - n) mod 2) = 0) by (destruct (Z.ltb_spec (3 * n) i); [reflexivity|]; replace (i - n) with (n * 2) by lia; apply Z.mod_mul; lia). rewrite S in EJ.
  set (k := 4 * n - i) in *.
  assert (J : j = ((2 * q + 1) * k + x - y + 1 + 0) / 2).
  { destruct (Z.ltb_spec (((2 * q + 1) * k + x - y + 1 + 0) / 2) 1) as [W|W]; [exfalso|lia]. destruct Hq as [->|[->|[->| ->]]]; Z.to_euclidean_division_equations; lia. }
  clear EJ K S. assert (J2 : 2 * j = (2 * q + 1) * k + x - y + 1).
  { destruct Hq as [->|[->|[->| ->]]]; Z.to_euclidean_division_equations; lia. } clear J.
  assert (C : c = q) by nia. subst c. f_equal; [f_equal; lia|lia].
Qed.

Open Scope R_scope.
(** Heights of the rings. *)
Lemma zc_north n i : (1 <= i <= n)%Z -> zc n i = 1 - IZR i * IZR i / (3 * (IZR n * IZR n)).
Proof.
  intros H. assert (1 <= IZR n) by (apply IZR_le; lia). unfold zc. destruct (Z.ltb_spec i n) as [L|L]; [rewrite mult_IZR; field; lra|].
  rewrite (proj2 (Z.leb_le i (3 * n))) by lia. replace i with n by lia. replace (2 * n - n)%Z with n by lia. field. lra.
Qed.
Lemma zc_south n i : (1 <= n)%Z -> (3 * n <= i < 4 * n)%Z -> zc n i = - (1 - IZR (4 * n - i) * IZR (4 * n - i) / (3 * (IZR n * IZR n))).
Proof.
  intros Hn H. assert (1 <= IZR n) by (apply IZR_le; lia). unfold zc. rewrite (proj2 (Z.ltb_ge i n)) by lia. destruct (Z.leb_spec i (3 * n)) as [L|L]; [|rewrite mult_IZR; field; lra].
  replace i with (3 * n)%Z by lia. replace (2 * n - 3 * n)%Z with (- n)%Z by lia. replace (4 * n - 3 * n)%Z with n by lia. rewrite opp_IZR. field. lra.
Qed.
Lemma cap_gap n m : (1 <= m <= n)%Z -> let q := IZR m * IZR m / (3 * (IZR n * IZR n)) in
  / (3 * (IZR n * IZR n)) <= q <= 1 / 3 /\ ((m < n)%Z -> q <= 1 / 3 - / (3 * IZR n)).
Proof.
  intros H q. assert (A : 1 <= IZR m <= IZR n) by (split; apply IZR_le; lia). set (N := IZR n) in *. set (M := IZR m) in *.
  assert (P : 0 < / (3 * (N * N))) by (apply Rinv_0_lt_compat; nra). assert (E : / (3 * (N * N)) * (3 * (N * N)) = 1) by (apply Rinv_l; nra). unfold q, Rdiv.
  set (v := / (3 * (N * N))) in *. assert (M1 : 1 <= M * M) by nra. assert (M2 : M * M <= N * N) by nra. assert (V : N * N * v = 1 / 3) by lra.
  split; [split|]. { assert (0 <= (M * M - 1) * v) by (apply Rmult_le_pos; lra). lra. } { assert (0 <= (N * N - M * M) * v) by (apply Rmult_le_pos; lra). lra. } intros L. assert (M <= N - 1) by (unfold M, N; rewrite <- minus_IZR; apply IZR_le; lia).
  replace (/ (3 * N)) with (N * v) by (unfold v; field; lra). assert (M3 : M * M <= (N - 1) * (N - 1)) by nra. assert (0 <= ((N - 1) * (N - 1) - M * M) * v) by (apply Rmult_le_pos; lra). assert (0 <= (N - 1) * v) by (apply Rmult_le_pos; lra). lra.
Qed.
Lemma zc_mid n i : (1 <= n)%Z -> (n < i < 3 * n)%Z -> Rabs (zc n i) <= 2 / 3 - / (3 * IZR n).
Proof.
  intros Hn H. assert (P : 1 <= IZR n) by (apply IZR_le; lia). unfold zc. rewrite (proj2 (Z.ltb_ge i n)), (proj2 (Z.leb_le i (3 * n))) by lia.
  assert (A : - (IZR n - 1) <= IZR (2 * n - i) <= IZR n - 1) by (rewrite <- minus_IZR, <- opp_IZR; split; apply IZR_le; lia).
  replace (2 / (3 * IZR n)) with (2 * / (3 * IZR n)) by (field; lra).
  assert (Q : 0 < / (3 * IZR n)) by (apply Rinv_0_lt_compat; lra). assert (E : / (3 * IZR n) * (3 * IZR n) = 1) by (apply Rinv_l; lra).
  set (v := / (3 * IZR n)) in *. set (k := IZR (2 * n - i)) in *. apply Rabs_le. nra.
Qed.
Lemma mid_sign n i : (1 <= n)%Z -> (n <= i <= 3 * n)%Z -> Rabs (zc n i) <= 2 / 3. Proof. intros. now apply zc_belt. Qed.

(** The distance from the pole in rings. *)
Lemma abs_near z r e : near z r e -> near (Babs z) (Rabs r) e.
Proof. intros [F H]. split; [unfold fin; rewrite is_finite_Babs; exact F|]. rewrite B2R_Babs. eapply Rle_trans; [apply Rabs_triang_inv2|exact H]. Qed.
Lemma sqrt_near n m g e : (1 <= n <= 2 ^ 29)%Z -> (1 <= m <= n)%Z -> near g (IZR m * IZR m / (IZR n * IZR n)) e -> 0 <= toR g -> IZR n * IZR n * e <= 1 / 16 ->
  near (fmul (of_int n) (fsqrt g)) (IZR m) (1 / 8).
Proof.
  intros Hn Hm [F H] P L. destruct (fsqrt_R g F P) as [FR ER]. assert (A : 1 <= IZR m <= IZR n) by (split; apply IZR_le; lia). assert (NB : IZR n <= 536870912) by (apply IZR_le; lia).
  set (N := IZR n) in *. set (M := IZR m) in *. set (s := sqrt (toR g)) in *. assert (S0 : 0 <= s) by apply sqrt_pos. assert (SS : s * s = toR g) by (apply sqrt_sqrt; exact P).
  assert (D : Rabs (N * s - M) <= 1 / 16).
  { assert (K : Rabs (N * N * (toR g) - M * M) <= 1 / 16).
    { replace (N * N * toR g - M * M) with (N * N * (toR g - M * M / (N * N))) by (field; lra). rewrite Rabs_mult, (Rabs_pos_eq (N * N)) by nra. nra. }
    rewrite <- SS in K. apply Rabs_le_inv in K. apply Rabs_le. set (p := N * s) in *. assert (0 <= p) by (unfold p; nra). replace (N * N * (s * s)) with (p * p) in K by (unfold p; ring). nra. }
  apply Rabs_le_inv in D. assert (SB : s <= 2). { destruct (Rle_lt_dec s 2) as [|W]; [lra|exfalso]. nra. }
  assert (NR : near (fsqrt g) s (/ 9007199254740992)).
  { split; [exact FR|]. rewrite ER. rewrite <- bp53. change (-53)%Z with (1 - 54)%Z. apply RN_err; [lia|]. rewrite bpow_pos. change (IZR (2 ^ 1)) with 2. rewrite Rabs_pos_eq; lra. }
  assert (X := near_mul _ _ _ _ _ _ N 2 32 (near_int n ltac:(lia)) NR ltac:(lia)). rewrite bp32 in X. change (32 - 54)%Z with (-22)%Z in X. rewrite bp22 in X. fold N in X.
  specialize (X ltac:(rewrite Rabs_pos_eq; lra) ltac:(rewrite Rabs_pos_eq; lra) ltac:(nra)). destruct X as [X1 X2]. split; [exact X1|].
  apply Rabs_le_inv in X2. apply Rabs_le. nra.
Qed.
Lemma tmp_near n m z s : (1 <= n <= 13377)%Z -> (1 <= m <= n)%Z -> (s = 1 \/ s = -1) -> near z (s * (1 - IZR m * IZR m / (3 * (IZR n * IZR n)))) (1 / 10 ^ 10) ->
  near (fmul (of_int n) (fsqrt (fmul (of_int 3) (fsub (of_int 1) (Babs z))))) (IZR m) (1 / 8).
Proof.
  intros Hn Hm Hs Nz. assert (NB : 1 <= IZR n <= 13377) by (split; apply IZR_le; lia). destruct (cap_gap n m Hm) as [G _]. set (q := IZR m * IZR m / (3 * (IZR n * IZR n))) in *. cbv zeta in G.
  assert (Q0 : / 600000000 < q). { eapply Rlt_le_trans; [|apply G]. apply Rinv_lt_contravar; nra. }
  assert (A := abs_near _ _ _ Nz). replace (Rabs (s * (1 - q))) with (1 - q) in A by (destruct Hs as [-> | ->]; [rewrite Rmult_1_l, Rabs_pos_eq; lra|rewrite Rabs_left; lra]).
  assert (B := near_sub _ _ _ _ _ _ 3 (near_int 1 ltac:(lia)) A ltac:(lia)). rewrite bp3 in B. change (3 - 54)%Z with (-51)%Z in B. rewrite bp51 in B. specialize (B ltac:(rewrite !Rabs_pos_eq; lra)).
  replace (1 - (1 - q)) with q in B by ring.
  assert (C := near_mul _ _ _ _ _ _ 3 (1 / 3) 3 (near_int 3 ltac:(lia)) B ltac:(lia)). rewrite bp3 in C. change (3 - 54)%Z with (-51)%Z in C. rewrite bp51 in C.
  specialize (C ltac:(rewrite Rabs_pos_eq; lra) ltac:(rewrite Rabs_pos_eq; lra) ltac:(lra)).
  assert (E : IZR 3 * q = IZR m * IZR m / (IZR n * IZR n)) by (unfold q; field; lra). rewrite E in C.
  refine (sqrt_near n m _ _ _ Hm C _ _); [lia| |].
  - destruct C as [_ C]. apply Rabs_le_inv in C. rewrite <- E in C. lra.
  - assert (IZR n * IZR n <= 13377 * 13377) by nra. assert (0 <= IZR n * IZR n) by nra. nra.
Qed.

(** The turn. *)
Lemma inv_halfpi_near : near inv_halfpi (2 / PI) (1 / 10 ^ 7).
Proof.
  destruct inv_halfpi_R as [F E]. split; [exact F|]. rewrite E, bp53. destruct pi_bounds as [L U]. assert (K : 2 / PI * PI = 2) by (field; lra). set (v := 2 / PI) in *. apply Rabs_le. nra.
Qed.
Lemma turn_near u t n : (1 <= n <= 13377)%Z -> near u (t * (PI / 2)) (1 / 10 ^ 6) -> 0 <= t <= 4 -> near (fmul u inv_halfpi) t (/ (16 * IZR n)).
Proof.
  intros Hn Nu Ht. destruct pi_bounds as [L U]. assert (NB : 1 <= IZR n <= 13377) by (split; apply IZR_le; lia).
  assert (X := near_mul _ _ _ _ _ _ 7 (2 / 3) 3 Nu inv_halfpi_near ltac:(lia)). rewrite bp3 in X. change (3 - 54)%Z with (-51)%Z in X. rewrite bp51 in X.
  assert (K : 2 / PI * PI = 2) by (field; lra). assert (K2 : 2 / PI <= 2 / 3) by (set (v := 2 / PI) in *; nra). assert (K3 : 0 < 2 / PI) by (apply Rdiv_lt_0_compat; lra).
  specialize (X ltac:(rewrite Rabs_pos_eq; nra) ltac:(rewrite Rabs_pos_eq; lra) ltac:(lra)). replace (t * (PI / 2) * (2 / PI)) with t in X by (field; lra).
  eapply near_weak; [exact X|]. apply Rle_trans with (2 / 10 ^ 6); [lra|]. apply Rmult_le_reg_r with (16 * IZR n); [lra|]. rewrite Rinv_l by lra. lra.
Qed.
Lemma tc_zero n i j : (1 <= n <= 13377)%Z -> on_ring n i j -> tc n i j < 1 / 10 ^ 5 -> (n <= i <= 3 * n)%Z /\ j = 1%Z /\ ((i - n) mod 2 = 1)%Z /\ tc n i j = 0.
Proof.
  intros Hn [Hi Hj] H. assert (NB : 1 <= IZR n <= 13377) by (split; apply IZR_le; lia). unfold tc in *. unfold rlen in Hj.
  assert (G : forall m x, (1 <= m <= n)%Z -> 1 / 2 <= x -> x / IZR m < 1 / 10 ^ 5 -> False).
  { intros m x Hm Hx L. assert (1 <= IZR m <= 13377) by (split; apply IZR_le; lia). apply (Rmult_lt_compat_r (IZR m)) in L; [|lra]. unfold Rdiv in L. rewrite Rmult_assoc, Rinv_l in L by lra. lra. }
  assert (J1 : 1 <= IZR j) by (apply IZR_le; lia).
  destruct (Z.ltb_spec i n); [exfalso; apply (G i (IZR j - 1 / 2)); [lia|lra|exact H]|]. destruct (Z.leb_spec i (3 * n)); [|exfalso; apply (G (4 * n - i)%Z (IZR j - 1 / 2)); [lia|lra|exact H]].
  assert (M : ((i - n) mod 2 = 0 \/ (i - n) mod 2 = 1)%Z) by (generalize (Z.mod_pos_bound (i - n) 2 ltac:(lia)); lia). destruct M as [M|M]; rewrite M in *; [exfalso; apply (G n (IZR j - (0 + 1) / 2)); [lia|lra|exact H]|].
  destruct (Z.eq_dec j 1) as [->|J]; [repeat split; [lia|lia|]; field; lra|]. exfalso. assert (2 <= IZR j) by (apply IZR_le; lia). apply (G n (IZR j - (1 + 1) / 2)); [lia|lra|exact H].
Qed.

(** A direction close to position [j] of ring [i]. *)
Definition close_to (n i j : Z) (z phi : b64) : Prop := fin z /\ fin phi /\ Rabs (toR z - zc n i) <= 1 / 10 ^ 10
  /\ exists w : bool, Rabs (toR (fmodulo phi twopi) - (phic n i j + if w then 2 * PI else 0)) <= 1 / 10 ^ 6.
Section Close.
Context (n i j : Z) (z phi : b64) (Hn : (1 <= n <= 13377)%Z) (R : on_ring n i j) (H : close_to n i j z phi).
Let tt := fmul (fmodulo phi twopi) inv_halfpi.
Lemma z_near e : 1 / 10 ^ 10 <= e -> near z (zc n i) e. Proof. destruct H as (F & _ & K & _). intros L. split; [exact F|lra]. Qed.
Lemma tt_near : exists w : bool, near tt (tc n i j + if w then 4 else 0) (/ (16 * IZR n)) /\ 0 <= tc n i j + (if w then 4 else 0) <= 4
  /\ (w = true -> (n <= i <= 3 * n)%Z /\ j = 1%Z /\ ((i - n) mod 2 = 1)%Z).
Proof.
  destruct H as (_ & F & _ & w & K). destruct (fmodulo_R phi F) as [FU BU]. destruct pi_bounds as [L U]. assert (T := tc_range n i j ltac:(lia) R).
  assert (TW : toR twopi < 63 / 10 /\ toR twopi <= 2 * PI + 1 / 10 ^ 6) by (destruct twopi_R as [_ ->]; rewrite bp50; lra).
  assert (W : w = true -> (n <= i <= 3 * n)%Z /\ j = 1%Z /\ ((i - n) mod 2 = 1)%Z /\ tc n i j = 0).
  { intros ->. apply tc_zero; [exact Hn|exact R|]. apply Rabs_le_inv in K. unfold phic in K. nra. }
  exists w. assert (B : 0 <= tc n i j + (if w then 4 else 0) <= 4) by (destruct w; [destruct (W eq_refl) as (_ & _ & _ & ->); lra|lra]).
  split; [|split; [exact B|intros E; destruct (W E) as (? & ? & ? & ?); tauto]].
  apply turn_near; [exact Hn| |exact B]. split; [exact FU|]. replace ((tc n i j + (if w then 4 else 0)) * (PI / 2)) with (phic n i j + if w then 2 * PI else 0); [exact K|]. unfold phic. destruct w; field.
Qed.
Lemma branch_belt : fle (Babs z) twothird = true -> (n <= i <= 3 * n)%Z.
Proof.
  intros C. assert (NB : 1 <= IZR n <= 13377) by (split; apply IZR_le; lia). destruct twothird_R as [F23 E23]. destruct (abs_near _ _ _ (z_near _ (Rle_refl _))) as [FA NA].
  apply fle_R in C; [|assumption..]. rewrite E23 in C. destruct R as [Ri _]. apply Rabs_le_inv in NA.
  assert (I3 : / 50000 <= / (3 * IZR n)) by (apply Rinv_le_contravar; lra).
  destruct (Z.lt_ge_cases i n) as [A|A]; [|destruct (Z.le_gt_cases i (3 * n)) as [B|B]; [lia|]]; exfalso.
  - destruct (cap_gap n i ltac:(lia)) as [G1 G2]. specialize (G2 A). rewrite (zc_north n i) in NA by lia. cbv zeta in G2. rewrite Rabs_pos_eq in NA; lra.
  - destruct (cap_gap n (4 * n - i) ltac:(lia)) as [G1 G2]. specialize (G2 ltac:(lia)). rewrite (zc_south n i) in NA by lia. cbv zeta in G2. rewrite Rabs_left in NA; lra.
Qed.
Lemma branch_cap : fle (Babs z) twothird = false -> ((1 <= i <= n)%Z /\ 0 < toR z) \/ ((3 * n <= i < 4 * n)%Z /\ toR z < 0).
Proof.
  intros C. assert (NB : 1 <= IZR n <= 13377) by (split; apply IZR_le; lia). destruct twothird_R as [F23 E23]. destruct (abs_near _ _ _ (z_near _ (Rle_refl _))) as [FA NA]. destruct (z_near _ (Rle_refl _)) as [Fz Nz].
  apply fle_false in C; [|assumption..]. rewrite E23 in C. destruct R as [Ri _]. apply Rabs_le_inv in NA. apply Rabs_le_inv in Nz.
  assert (I3 : / 50000 <= / (3 * IZR n)) by (apply Rinv_le_contravar; lra).
  destruct (Z.le_gt_cases i n) as [A|A]; [left|destruct (Z.lt_ge_cases i (3 * n)) as [B|B]; [exfalso|right]].
  - destruct (cap_gap n i ltac:(lia)) as [G1 _]. rewrite (zc_north n i) in Nz by lia. split; [lia|lra].
  - generalize (zc_mid n i ltac:(lia) ltac:(lia)). lra.
  - destruct (cap_gap n (4 * n - i) ltac:(lia)) as [G1 _]. rewrite (zc_south n i) in Nz by lia. split; [lia|lra].
Qed.
(** The cap, seen from its pole. *)
Lemma cap_floors m : (1 <= m <= n)%Z -> (m = i /\ (i <= n)%Z) \/ (m = 4 * n - i /\ 3 * n <= i)%Z -> fle (Babs z) twothird = false -> exists c, (0 <= c <= 3)%Z /\ (c * m <= j - 1 < (c + 1) * m)%Z
  /\ to_int tt = Ok c /\ let tp := fsub tt (of_int c) in let tmp := fmul (of_int n) (fsqrt (fmul (of_int 3) (fsub (of_int 1) (Babs z)))) in
     to_int (fmul tp tmp) = Ok (j - 1 - c * m)%Z /\ to_int (fmul (fsub (of_int 1) tp) tmp) = Ok (m - j + c * m)%Z /\ to_int (fmul tt (of_int m)) = Ok (j - 1)%Z.
Proof.
  intros Hm Hi C. destruct R as [Ri Rj]. unfold rlen in Rj.
  assert (RL : (1 <= j <= 4 * m)%Z). { destruct (Z.ltb_spec i n); [destruct Hi; lia|]. destruct (Z.leb_spec i (3 * n)); destruct Hi; lia. }
  assert (T : tc n i j = (IZR j - 1 / 2) / IZR m).
  { unfold tc. destruct (Z.ltb_spec i n); [destruct Hi as [[-> _]|]; [reflexivity|lia]|]. destruct (Z.leb_spec i (3 * n)); [|destruct Hi as [|[-> _]]; [lia|reflexivity]].
    assert (m = n) by lia. subst m. replace ((i - n) mod 2)%Z with 0%Z; [f_equal; lra|]. destruct Hi as [[? ?]|[? ?]]; [replace (i - n)%Z with 0%Z by lia; reflexivity|replace (i - n)%Z with (n * 2)%Z by lia; symmetry; apply Z.mod_mul; lia]. }
  destruct tt_near as (w & NT & BT & W). assert (w = false).
  { destruct w; [exfalso|reflexivity]. destruct (W eq_refl) as (W1 & W2 & W3). assert (E : (i = n \/ i = 3 * n)%Z) by lia. destruct E as [-> | ->]; [rewrite Z.sub_diag in W3; discriminate W3|]. replace (3 * n - n)%Z with (n * 2)%Z in W3 by lia. rewrite Z.mod_mul in W3 by lia. discriminate W3. }
  subst w. rewrite Rplus_0_r, T in NT. destruct (quarter (j - 1) m) as (c & Hc & B); [lia|lia|]. exists c. assert (C3 : (0 <= c <= 3)%Z) by lia.
  assert (NM : near (fmul (of_int n) (fsqrt (fmul (of_int 3) (fsub (of_int 1) (Babs z))))) (IZR m) (1 / 8)).
  { destruct Hi as [[E I]|[E I]].
    - apply (tmp_near n m z 1); [exact Hn|exact Hm|tauto|]. rewrite Rmult_1_l, E, <- zc_north by lia. apply z_near. lra.
    - apply (tmp_near n m z (-1)); [exact Hn|exact Hm|tauto|]. replace (-1 * (1 - IZR m * IZR m / (3 * (IZR n * IZR n)))) with (zc n i) by (rewrite E, zc_south by lia; ring). apply z_near. lra. }
  destruct (quadrant n m j c ltac:(lia) Hm C3 B tt NT) as [FT QT]. destruct (edges_near n m j c ltac:(lia) Hm C3 B tt _ NT NM) as [E1 E2]. assert (E3 := place_near n m j c ltac:(lia) Hm C3 B tt NT).
  split; [exact C3|]. split; [lia|]. split; [rewrite <- QT; apply to_int_R; [exact FT|rewrite QT; lia]|]. cbv zeta.
  split; [apply (near_to_int _ _ _ E1); [lra|nia]|]. split; [apply (near_to_int _ _ _ E2); [lra|nia]|]. apply (near_to_int _ _ _ E3); [lra|nia].
Qed.
End Close.

Lemma near_nest a x y f i j z phi : (0 <= a <= 13)%Z -> on_grid (2 ^ a) x y f -> enc (2 ^ a) x y f = (i, j) -> close_to (2 ^ a) i j z phi -> ang2xyf (2 ^ a) z phi = Ok (x, y, f).
Proof.
  intros Ha G E H. assert (P : (1 <= 2 ^ a <= 8192)%Z) by (split; [assert (0 < 2 ^ a)%Z by (apply Z.pow_pos_nonneg; lia); lia|change 8192%Z with (2 ^ 13)%Z; apply Z.pow_le_mono_r; lia]).
  assert (LM : forall p, Z.land p (2 ^ a - 1) = (p mod 2 ^ a)%Z) by (intro; apply land_mod; lia).
  set (n := (2 ^ a)%Z) in *. clearbody n. assert (FACTS := enc_ok n x y f ltac:(lia) G). unfold ring_facts in FACTS. rewrite E in FACTS. destruct FACTS as (R & _ & _).
  assert (Hn : (1 <= n <= 13377)%Z) by lia. unfold ang2xyf. destruct (fle (Babs z) twothird) eqn:C.
  - assert (I := branch_belt n i j z phi Hn R H C). destruct (tt_near n i j z phi Hn R H) as (w & NT & BT & W).
    assert (RJ : (1 <= j <= 4 * n)%Z) by (destruct R as [_ Rj]; unfold rlen in Rj; rewrite (proj2 (Z.ltb_ge i n)), (proj2 (Z.leb_le i (3 * n))) in Rj by lia; exact Rj).
    assert (NZ : near z (zc n i) (/ (16 * IZR n))). { apply (z_near n i j z phi H). assert (1 <= IZR n <= 13377) by (split; apply IZR_le; lia). apply Rmult_le_reg_r with (16 * IZR n); [lra|]. rewrite Rinv_l by lra. lra. }
    destruct (lines_near n i j ltac:(lia) ltac:(lia) _ _ BT NT w eq_refl _ (temp2_near n i ltac:(lia) ltac:(lia) z NZ)) as [L1 L2].
    destruct (grid_belt n x y f i j w ltac:(lia) G E I ltac:(intros K; destruct (W K) as (_ & ? & ?); tauto)) as (GB & JP & JM). cbv zeta in GB, JP, JM.
    assert (D1 : ((i - n - (i - n) mod 2) / 2 <= i)%Z) by (apply Z.div_le_upper_bound; [lia|]; generalize (Z.mod_pos_bound (i - n) 2 ltac:(lia)); lia).
    assert (D2 : (0 <= (i - n + (i - n) mod 2) / 2)%Z) by (apply Z.div_pos; [generalize (Z.mod_pos_bound (i - n) 2 ltac:(lia)); lia|lia]).
    rewrite (near_to_int _ _ _ L1); [|lra|split; [exact JP|destruct w; lia]]. cbn [bind].
    rewrite (near_to_int _ _ _ L2); [|lra|split; [exact JM|destruct w; lia]]. cbn [bind].
    rewrite !LM. rewrite GB. reflexivity.
  - destruct (branch_cap n i j z phi Hn R H C) as [[I S]|[I S]].
    + destruct (cap_floors n i j z phi Hn R H i ltac:(lia) ltac:(lia) C) as (c & C3 & B & T & E1 & E2 & _). cbv zeta in E1, E2. rewrite T. cbn [bind]. rewrite (proj2 (Z.leb_gt 4 c)) by lia. rewrite E1. cbn [bind]. rewrite E2. cbn [bind].
      rewrite (proj2 (Z.leb_gt n (j - 1 - c * i))), (proj2 (Z.leb_gt n (i - j + c * i))) by lia.
      assert (Z0 : fle (of_int 0) z = true) by (apply fle_R; [apply zero_int|apply H|rewrite (proj2 zero_int); lra]). rewrite Z0. f_equal. apply (grid_north n x y f i j c); try assumption; lia.
    + set (k := (4 * n - i)%Z). destruct (cap_floors n i j z phi Hn R H k ltac:(lia) ltac:(lia) C) as (c & C3 & B & T & E1 & E2 & _). cbv zeta in E1, E2. rewrite T. cbn [bind]. rewrite (proj2 (Z.leb_gt 4 c)) by lia. rewrite E1. cbn [bind]. rewrite E2. cbn [bind].
      rewrite (proj2 (Z.leb_gt n (j - 1 - c * k))), (proj2 (Z.leb_gt n (k - j + c * k))) by nia.
      assert (Z0 : fle (of_int 0) z = false) by (apply fle_false; [apply zero_int|apply H|rewrite (proj2 zero_int); lra]). rewrite Z0. f_equal. apply (grid_south n x y f i j c); try assumption; lia.
Qed.

Lemma near_ring n i j z phi : (1 <= n <= 13377)%Z -> on_ring n i j -> close_to n i j z phi -> ang2pix_ring_z_phi n z phi = Ok (start n i + j - 1)%Z.
Proof.
  intros Hn R H. unfold ang2pix_ring_z_phi. assert (SC := start_cases n i ltac:(lia) (proj1 R)). destruct (fle (Babs z) twothird) eqn:C.
  - assert (I := branch_belt n i j z phi Hn R H C). destruct (tt_near n i j z phi Hn R H) as (w & NT & BT & W).
    assert (RJ : (1 <= j <= 4 * n)%Z) by (destruct R as [_ Rj]; unfold rlen in Rj; rewrite (proj2 (Z.ltb_ge i n)), (proj2 (Z.leb_le i (3 * n))) in Rj by lia; exact Rj).
    assert (NZ : near z (zc n i) (/ (16 * IZR n))). { apply (z_near n i j z phi H). assert (1 <= IZR n <= 13377) by (split; apply IZR_le; lia). apply Rmult_le_reg_r with (16 * IZR n); [lra|]. rewrite Rinv_l by lra. lra. }
    destruct (lines_near n i j ltac:(lia) ltac:(lia) _ _ BT NT w eq_refl _ (temp2_near' n i ltac:(lia) ltac:(lia) z NZ)) as [L1 L2].
    set (ks := ((i - n) mod 2)%Z) in *. assert (KS: (0 <= ks <= 1)%Z) by (unfold ks; generalize (Z.mod_pos_bound (i - n) 2 ltac:(lia)); lia).
    assert (P1: (2 * ((i - n - ks) / 2) = i - n - ks)%Z) by (unfold ks; Z.to_euclidean_division_equations; lia).
    assert (P2: (2 * ((i - n + ks) / 2) = i - n + ks)%Z) by (unfold ks; Z.to_euclidean_division_equations; lia).
    set (h1 := ((i - n - ks) / 2)%Z) in *. set (h2 := ((i - n + ks) / 2)%Z) in *.
    rewrite (near_to_int _ _ _ L1); [|lra|split; destruct w; lia]. cbn [bind].
    rewrite (near_to_int _ _ _ L2); [|lra|split; destruct w; lia]. cbn [bind]. set (up := if w then (4 * n)%Z else 0%Z) in *.
    replace (n + 1 + (j + h1 - 1 + up) - (j + n - 1 - h2 + up))%Z with (i - n + 1)%Z by lia.
    rewrite land1. assert (K1 : (1 - (i - n + 1) mod 2)%Z = ks) by (unfold ks; Z.to_euclidean_division_equations; lia). rewrite K1.
    replace (j + h1 - 1 + up + (j + n - 1 - h2 + up) - n + ks + 1)%Z with (2 * (j + up) - 1)%Z by lia.
    assert (U : (0 <= up)%Z) by (unfold up; destruct w; lia). rewrite Z.quot_div_nonneg by lia. replace ((2 * (j + up) - 1) / 2)%Z with (j + up - 1)%Z by (Z.to_euclidean_division_equations; lia).
    assert (IM : imodulo (j + up - 1) (4 * n) = (j - 1)%Z).
    { unfold imodulo. rewrite Z.rem_mod_nonneg by lia. replace ((j + up - 1) mod (4 * n))%Z with (j - 1)%Z; [now rewrite (proj2 (Z.leb_le 0 (j - 1))) by lia|]. unfold up. destruct w; [replace (j + 4 * n - 1)%Z with (j - 1 + 1 * (4 * n))%Z by lia; rewrite Z.mod_add by lia|rewrite Z.add_0_r]; symmetry; apply Z.mod_small; lia. }
    rewrite IM. f_equal. destruct SC as [(A & -> & _)|[(A & -> & _)|(A & -> & _)]]; [lia| |lia]. lia.
  - destruct (branch_cap n i j z phi Hn R H C) as [[I S]|[I S]].
    + destruct (cap_floors n i j z phi Hn R H i ltac:(lia) ltac:(lia) C) as (c & C3 & B & T & E1 & E2 & E3). cbv zeta in E1, E2. rewrite T. cbn [bind]. rewrite E1. cbn [bind]. rewrite E2. cbn [bind].
      replace (j - 1 - c * i + (i - j + c * i) + 1)%Z with i by lia. rewrite E3. cbn [bind]. rewrite imod_small by nia.
      assert (Z0 : flt (of_int 0) z = true) by (apply flt_R; [apply zero_int|apply H|rewrite (proj2 zero_int); lra]). rewrite Z0. f_equal. destruct SC as [(A & -> & _)|[(A & -> & _)|(A & -> & _)]]; [lia| |lia]. replace i with n by lia. lia.
    + set (k := (4 * n - i)%Z). destruct (cap_floors n i j z phi Hn R H k ltac:(lia) ltac:(lia) C) as (c & C3 & B & T & E1 & E2 & E3). cbv zeta in E1, E2. rewrite T. cbn [bind]. rewrite E1. cbn [bind]. rewrite E2. cbn [bind].
      replace (j - 1 - c * k + (k - j + c * k) + 1)%Z with k by lia. rewrite E3. cbn [bind]. rewrite imod_small by nia.
      assert (Z0 : flt (of_int 0) z = false) by (apply flt_false; [apply zero_int|apply H|rewrite (proj2 zero_int); lra]). rewrite Z0. f_equal. destruct SC as [(A & -> & _)|[(A & -> & _)|(A & -> & _)]]; [lia| |unfold k; lia]. unfold k. replace i with (3 * n)%Z by lia. lia.
Qed.
