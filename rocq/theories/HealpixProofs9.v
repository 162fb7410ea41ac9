(** Pixel centres, in exact arithmetic. *)
From Coq Require Import ZArith List Bool Reals Lra Lia.
From Flocq Require Import Core.
From Verif Require Import CLib FloatModel HealpixModel HealpixSpec HealpixRealModel.
From Verif Require Import HealpixProofs1 HealpixProofs3 HealpixProofs4 HealpixProofs5 HealpixProofs6 HealpixProofs7.
Import ListNotations.
Open Scope Z_scope.

(** Centre of position [j] on ring [i]. *)
Definition zc (n i : Z) : R :=
  if i <? n then (1 - IZR (i * i) / (3 * IZR n * IZR n))%R
  else if i <=? 3 * n then (IZR (2 * n - i) * (2 / (3 * IZR n)))%R
  else (-1 + IZR ((4 * n - i) * (4 * n - i)) / (3 * IZR n * IZR n))%R.
Definition tc (n i j : Z) : R :=
  if i <? n then ((IZR j - 1 / 2) / IZR i)%R
  else if i <=? 3 * n then ((IZR j - (IZR ((i - n) mod 2) + 1) / 2) / IZR n)%R
  else ((IZR j - 1 / 2) / IZR (4 * n - i))%R.
Definition phic (n i j : Z) : R := (tc n i j * (PI / 2))%R.

Lemma pos_R : forall n, 1 <= n -> (1 <= IZR n)%R. Proof. intros n H. apply (IZR_le 1). exact H. Qed.

Lemma half_floor : forall x a, (x = IZR a + 1 / 2)%R -> 0 <= a -> rtrunc x = a.
Proof.
  intros x a -> Ha. unfold rtrunc. pose proof (IZR_le 0 a Ha). rewrite Ztrunc_floor by lra. apply Zfloor_imp. rewrite plus_IZR. lra.
Qed.
Lemma quot_floor : forall j i c, 1 <= i -> 0 <= c -> c * i <= j - 1 < (c + 1) * i -> rtrunc ((IZR j - 1 / 2) / IZR i) = c.
Proof.
  intros j i c Hi Hc H. pose proof (pos_R i Hi) as P.
  assert (A: (IZR c * IZR i <= IZR j - 1)%R) by (rewrite <- mult_IZR, <- minus_IZR; apply IZR_le; lia).
  assert (B: (IZR j <= (IZR c + 1) * IZR i)%R) by (rewrite <- plus_IZR, <- mult_IZR; apply IZR_le; lia).
  assert (L: (IZR c <= (IZR j - 1 / 2) / IZR i)%R) by (apply Rmult_le_reg_r with (IZR i); [lra|]; unfold Rdiv; rewrite Rmult_assoc, Rinv_l by lra; lra).
  assert (U: ((IZR j - 1 / 2) / IZR i < IZR c + 1)%R) by (apply Rmult_lt_reg_r with (IZR i); [lra|]; unfold Rdiv; rewrite Rmult_assoc, Rinv_l by lra; lra).
  unfold rtrunc. pose proof (IZR_le 0 c Hc). rewrite Ztrunc_floor by lra. apply Zfloor_imp. rewrite plus_IZR. lra.
Qed.

Lemma turn_of : forall t, (0 <= t < 4)%R -> (rmodulo (t * (PI / 2)) (2 * PI) * (2 / PI))%R = t.
Proof.
  intros t Ht. pose proof PI_RGT_0. unfold rmodulo.
  assert (E: Zfloor (t * (PI / 2) / (2 * PI)) = 0).
  { apply Zfloor_imp. change (IZR (0 + 1)) with 1%R. replace (t * (PI / 2) / (2 * PI))%R with (t / 4)%R by (field; lra). change (IZR 0) with 0%R. lra. }
  rewrite E. change (IZR 0) with 0%R. field. lra.
Qed.

Lemma tc_range : forall n i j, 1 <= n -> on_ring n i j -> (0 <= tc n i j < 4)%R.
Proof.
  intros n i j Hn [Hi Hj]. unfold tc. unfold rlen in Hj.
  assert (G: forall m x, 1 <= m -> (0 <= x <= 4 * IZR m - 1 / 2)%R -> (0 <= x / IZR m < 4)%R).
  { intros m x Hm Hx. pose proof (pos_R m Hm). split.
    - apply Rmult_le_pos; [lra|]. left. apply Rinv_0_lt_compat. lra.
    - apply Rmult_lt_reg_r with (IZR m); [lra|]. unfold Rdiv. rewrite Rmult_assoc, Rinv_l by lra. lra. }
  pose proof (IZR_le 1 j ltac:(lia)) as J1.
  destruct (Z.ltb_spec i n); [|destruct (Z.leb_spec i (3 * n))].
  - apply G; [lia|]. assert (IZR j <= 4 * IZR i)%R by (rewrite <- mult_IZR; apply IZR_le; lia). lra.
  - apply G; [lia|]. assert (IZR j <= 4 * IZR n)%R by (rewrite <- mult_IZR; apply IZR_le; lia).
    pose proof (Z.mod_pos_bound (i - n) 2 ltac:(lia)) as M. assert (0 <= IZR ((i - n) mod 2) <= 1)%R by (split; apply IZR_le; lia). lra.
  - apply G; [lia|]. assert (IZR j <= 4 * IZR (4 * n - i))%R by (rewrite <- mult_IZR; apply IZR_le; lia). lra.
Qed.

(** Distance from the pole on the caps. *)
Lemma cap_root : forall n m, 1 <= n -> 1 <= m < n -> 
  let q := (IZR (m * m) / (3 * IZR n * IZR n))%R in (0 < q < 1 / 3)%R /\ (IZR n * sqrt (3 * q) = IZR m)%R.
Proof.
  intros n m Hn Hm q. pose proof (pos_R n Hn) as Pn. pose proof (pos_R m ltac:(lia)) as Pm.
  assert (L: (IZR m < IZR n)%R) by (apply IZR_lt; lia).
  assert (E: (3 * q = (IZR m / IZR n) * (IZR m / IZR n))%R) by (unfold q; rewrite mult_IZR; field; lra).
  assert (B: (0 < IZR m / IZR n < 1)%R).
  { split; [apply Rdiv_lt_0_compat; lra|]. apply Rmult_lt_reg_r with (IZR n); [lra|]. unfold Rdiv. rewrite Rmult_assoc, Rinv_l by lra. lra. }
  split; [nra|]. rewrite E, sqrt_square by lra. field. lra.
Qed.

Ltac Zify.zify_post_hook ::= Z.div_mod_to_equations.

(** Indices of the two edge lines on the belt. *)
Lemma belt_lines : forall n x y f, 1 <= n -> on_grid n x y f -> forall i j, enc n x y f = (i, j) -> n <= i <= 3 * n ->
  let ks := (i - n) mod 2 in
  let jp := j + (i - n - ks) / 2 - 1 in let jm := j + n - 1 - (i - n + ks) / 2 in
  exists qp qm, jp = qp * n + (n - 1 - y) /\ jm = qm * n + x /\ 0 <= qp /\ 0 <= qm /\ face_of qp qm = f.
Proof.
  intros n x y f Hn (Hx & Hy & Hf) i j E Hi ks jp jm. unfold enc in E. cbv zeta in E.
  destruct (face_parts f Hf) as (r & c & Hr & Hc & Ef & E4 & Em). rewrite E4, Em in E. pose proof (f_equal fst E) as EI; pose proof (f_equal snd E) as EJ; cbn [fst snd] in EI, EJ. rewrite EI in EJ.
  rewrite (proj2 (Z.ltb_ge i n)), (proj2 (Z.ltb_ge (3 * n) i)) in EJ by lia. fold ks in EJ.
  assert (KS: 0 <= ks <= 1) by (unfold ks; lia).
  set (fp := 2 * c + (if r =? 1 then 0 else 1)) in *.
  assert (Ev: (fp * n + x - y + 1 + ks) mod 2 = 0).
  { unfold ks, fp. destruct Hr as [->|[->| ->]]; cbn [Z.eqb Pos.eqb]; destruct Hc as [->|[->|[->| ->]]]; lia. }
  set (j0 := (fp * n + x - y + 1 + ks) / 2) in *.
  assert (J: 2 * j0 = fp * n + x - y + 1 + ks) by (unfold j0; lia).
  assert (P1: 2 * ((i - n - ks) / 2) = i - n - ks) by (unfold ks; lia).
  assert (P2: 2 * ((i - n + ks) / 2) = i - n + ks) by (unfold ks; lia).
  assert (JJ: (j = j0 /\ 1 <= j0) \/ (j = j0 + 4 * n /\ r = 1 /\ c = 0)).
  { destruct (Z.ltb_spec j0 1); [right|left; lia]. split; [lia|]. unfold fp in J.
    destruct Hr as [->|[->| ->]]; cbn [Z.eqb Pos.eqb] in J; destruct Hc as [->|[->|[->| ->]]]; lia. }
  unfold jp, jm. destruct Hr as [->|[->| ->]]; unfold fp in J; cbn [Z.eqb Pos.eqb] in J.
  - exists c, (c + 1). destruct Hc as [->|[->|[->| ->]]]; (split; [lia|split; [lia|split; [lia|split; [lia|subst f; reflexivity]]]]).
  - destruct JJ as [[-> J1]|(-> & _ & ->)].
    + exists c, c. destruct Hc as [->|[->|[->| ->]]]; (split; [lia|split; [lia|split; [lia|split; [lia|subst f; reflexivity]]]]).
    + exists 4, 4. (split; [lia|split; [lia|split; [lia|split; [lia|subst f; reflexivity]]]]).
  - exists (c + 1), c. destruct Hc as [->|[->|[->| ->]]]; (split; [lia|split; [lia|split; [lia|split; [lia|subst f; reflexivity]]]]).
Qed.

(** Edge lines as floors of the code's expressions. *)
Lemma belt_floor : forall n i j, 1 <= n -> n <= i <= 3 * n -> 1 <= j <= 4 * n ->
  let ks := (i - n) mod 2 in
  let t1 := (IZR n * (1 / 2 + tc n i j))%R in let t2 := (IZR n * (zc n i * (3 / 4)))%R in
  rtrunc (t1 - t2) = j + (i - n - ks) / 2 - 1 /\ rtrunc (t1 + t2) = j + n - 1 - (i - n + ks) / 2.
Proof.
  intros n i j Hn Hi Hj ks t1 t2. pose proof (pos_R n Hn) as Pn.
  assert (KS: 0 <= ks <= 1) by (unfold ks; lia).
  assert (P1: 2 * ((i - n - ks) / 2) = i - n - ks) by (unfold ks; lia).
  assert (P2: 2 * ((i - n + ks) / 2) = i - n + ks) by (unfold ks; lia).
  assert (T1: (t1 = IZR n / 2 + IZR j - (IZR ks + 1) / 2)%R).
  { unfold t1, tc. rewrite (proj2 (Z.ltb_ge i n)), (proj2 (Z.leb_le i (3 * n))) by lia. fold ks. field. lra. }
  assert (T2: (t2 = IZR n - IZR i / 2)%R).
  { unfold t2, zc. rewrite (proj2 (Z.ltb_ge i n)), (proj2 (Z.leb_le i (3 * n))) by lia. rewrite minus_IZR, mult_IZR. field. lra. }
  set (h1 := (i - n - ks) / 2) in *. set (h2 := (i - n + ks) / 2) in *.
  apply (f_equal IZR) in P1. apply (f_equal IZR) in P2. rewrite mult_IZR, !minus_IZR in P1. rewrite mult_IZR, plus_IZR, minus_IZR in P2.
  split; apply half_floor.
  - rewrite T1, T2. rewrite !minus_IZR, plus_IZR. lra.
  - unfold h1 in *. unfold ks in *. lia.
  - rewrite T1, T2. rewrite !minus_IZR, plus_IZR. lra.
  - unfold h2, ks in *. lia.
Qed.

Lemma zc_belt : forall n i, 1 <= n -> n <= i <= 3 * n -> (Rabs (zc n i) <= 2 / 3)%R.
Proof.
  intros n i Hn Hi. pose proof (pos_R n Hn) as Pn. unfold zc. rewrite (proj2 (Z.ltb_ge i n)), (proj2 (Z.leb_le i (3 * n))) by lia.
  assert (A: (- IZR n <= IZR (2 * n - i) <= IZR n)%R) by (rewrite <- opp_IZR; split; apply IZR_le; lia).
  replace (IZR (2 * n - i) * (2 / (3 * IZR n)))%R with (2 / 3 * (IZR (2 * n - i) / IZR n))%R by (field; lra).
  assert (B: (-1 <= IZR (2 * n - i) / IZR n <= 1)%R).
  { split; apply Rmult_le_reg_r with (IZR n); try lra; unfold Rdiv; rewrite Rmult_assoc, Rinv_l by lra; lra. }
  apply Rabs_le. lra.
Qed.

Lemma land_mod : forall a p, 0 <= a -> Z.land p (2 ^ a - 1) = p mod 2 ^ a.
Proof. intros a p Ha. replace (2 ^ a - 1) with (Z.ones a) by (rewrite Z.ones_equiv; lia). now apply Z.land_ones. Qed.

(** The nested lookup at the centre. *)
Lemma centre_nest : forall a x y f i j, 0 <= a -> on_grid (2 ^ a) x y f -> enc (2 ^ a) x y f = (i, j) ->
  ang2xyf_real (2 ^ a) (zc (2 ^ a) i) (phic (2 ^ a) i j) = (x, y, f).
Proof.
  intros a x y f i j Ha G E. assert (P: 0 < 2 ^ a) by (apply Z.pow_pos_nonneg; lia).
  assert (LM: forall p, Z.land p (2 ^ a - 1) = p mod 2 ^ a) by (intro; now apply land_mod).
  set (n := 2 ^ a) in *. clearbody n. assert (Hn: 1 <= n) by lia.
  pose proof (enc_ok n x y f Hn G) as FACTS. unfold ring_facts in FACTS. rewrite E in FACTS. destruct FACTS as (R & _ & D).
  unfold ang2xyf_real. unfold phic. rewrite turn_of by (now apply tc_range). destruct R as [Ri Rj]. unfold rlen in Rj.
  pose proof (pos_R n Hn) as Pn. pose proof G as G'. destruct G' as (Gx & Gy & Gf).
  destruct (Z.lt_ge_cases i n) as [C1|C1]; [|destruct (Z.le_gt_cases i (3 * n)) as [C2|C2]].
  - rewrite (proj2 (Z.ltb_lt i n)) in Rj by lia. destruct (cap_root n i Hn) as [Q1 Q2]; [lia|].
    assert (Z0: zc n i = (1 - IZR (i * i) / (3 * IZR n * IZR n))%R) by (unfold zc; rewrite (proj2 (Z.ltb_lt i n)) by lia; reflexivity).
    rewrite Z0. set (q := (IZR (i * i) / (3 * IZR n * IZR n))%R) in *. rewrite Rabs_pos_eq by lra.
    destruct (Rle_dec (1 - q) (2 / 3)) as [W|_]; [exfalso; lra|].
    assert (T: tc n i j = ((IZR j - 1 / 2) / IZR i)%R) by (unfold tc; rewrite (proj2 (Z.ltb_lt i n)) by lia; reflexivity).
    destruct (quarter (j - 1) i) as (c & Hc & B); [lia|lia|].
    rewrite T, (quot_floor j i c) by lia. rewrite (proj2 (Z.leb_gt 4 c)) by lia.
    replace (1 - (1 - q))%R with q by ring. rewrite Q2. pose proof (pos_R i ltac:(lia)) as Pi.
    rewrite (half_floor (((IZR j - 1 / 2) / IZR i - IZR c) * IZR i) (j - 1 - c * i)); [|rewrite !minus_IZR, mult_IZR; field; lra|lia].
    rewrite (half_floor ((1 - ((IZR j - 1 / 2) / IZR i - IZR c)) * IZR i) (i - j + c * i)); [|rewrite plus_IZR, minus_IZR, mult_IZR; field; lra|lia].
    rewrite (proj2 (Z.leb_gt n (j - 1 - c * i))), (proj2 (Z.leb_gt n (i - j + c * i))) by lia.
    destruct (Rle_dec 0 (1 - q)) as [_|W]; [|exfalso; lra].
    destruct (dec_north n i j Hn ltac:(lia) ltac:(lia)) as (x' & y' & f' & D' & _ & _). 
    unfold dec in D, D'. rewrite (proj2 (Z.ltb_lt i n)) in D by lia. rewrite (special_div_eq (j - 1) i c Hc) in D by lia.
    assert (EE: ring_end n i j 0 i c = Ok (n - (i - j + c * i) - 1, n - (j - 1 - c * i) - 1, c)).
    { apply (end_eq _ _ _ _ _ _ 0); [lia|lia|]. replace (c mod 4) with c by lia. change (if 0 =? 1 then 0 else 1) with 1.
      exists (2 * j - (2 * c + 1) * i - 1). destruct Hc as [->|[->|[->| ->]]]; lia. }
    rewrite EE in D. injection D as <- <- <-. reflexivity.
  - rewrite (proj2 (Z.ltb_ge i n)), (proj2 (Z.leb_le i (3 * n))) in Rj by lia.
    destruct (Rle_dec (Rabs (zc n i)) (2 / 3)) as [_|W]; [|exfalso; apply W; now apply zc_belt].
    destruct (belt_floor n i j Hn ltac:(lia) ltac:(lia)) as [-> ->].
    destruct (belt_lines n x y f Hn G i j E ltac:(lia)) as (qp & qm & -> & -> & Qp & Qm & F).
    rewrite !LM. rewrite !Z.quot_div_nonneg by nia.
    rewrite (Z.add_comm (qm * n)), (Z.add_comm (qp * n)), !Z.mod_add, !Z.div_add by lia.
    rewrite !Z.mod_small, !Z.div_small by lia. rewrite !Z.add_0_l, F. do 2 f_equal. lia.
  - rewrite (proj2 (Z.ltb_ge i n)), (proj2 (Z.leb_gt i (3 * n))) in Rj by lia. set (k := 4 * n - i) in *.
    destruct (cap_root n k Hn) as [Q1 Q2]; [lia|].
    assert (Z0: zc n i = (-1 + IZR (k * k) / (3 * IZR n * IZR n))%R) by (unfold zc; rewrite (proj2 (Z.ltb_ge i n)), (proj2 (Z.leb_gt i (3 * n))) by lia; reflexivity).
    rewrite Z0. set (q := (IZR (k * k) / (3 * IZR n * IZR n))%R) in *. rewrite Rabs_left by lra.
    destruct (Rle_dec (- (-1 + q)) (2 / 3)) as [W|_]; [exfalso; lra|].
    assert (T: tc n i j = ((IZR j - 1 / 2) / IZR k)%R) by (unfold tc; rewrite (proj2 (Z.ltb_ge i n)), (proj2 (Z.leb_gt i (3 * n))) by lia; reflexivity).
    destruct (quarter (j - 1) k) as (c & Hc & B); [lia|lia|].
    rewrite T, (quot_floor j k c) by lia. rewrite (proj2 (Z.leb_gt 4 c)) by lia.
    replace (1 - - (-1 + q))%R with q by ring. rewrite Q2. pose proof (pos_R k ltac:(lia)) as Pi.
    rewrite (half_floor (((IZR j - 1 / 2) / IZR k - IZR c) * IZR k) (j - 1 - c * k)); [|rewrite !minus_IZR, mult_IZR; field; lra|lia].
    rewrite (half_floor ((1 - ((IZR j - 1 / 2) / IZR k - IZR c)) * IZR k) (k - j + c * k)); [|rewrite plus_IZR, minus_IZR, mult_IZR; field; lra|lia].
    rewrite (proj2 (Z.leb_gt n (j - 1 - c * k))), (proj2 (Z.leb_gt n (k - j + c * k))) by lia.
    destruct (Rle_dec 0 (-1 + q)) as [W|_]; [exfalso; lra|].
    unfold dec in D. rewrite (proj2 (Z.ltb_ge i n)), (proj2 (Z.leb_gt i (3 * n))) in D by lia. fold k in D. rewrite (special_div_eq (j - 1) k c Hc) in D by lia.
    assert (EE: ring_end n i j 0 k (8 + c) = Ok (j - 1 - c * k, k - j + c * k, 8 + c)).
    { apply (end_eq _ _ _ _ _ _ 2); [lia|lia|]. replace ((8 + c) mod 4) with c by lia. change (if 2 =? 1 then 0 else 1) with 1.
      exists (2 * j - (2 * c + 1) * k - 1). destruct Hc as [->|[->|[->| ->]]]; lia. }
    rewrite EE in D. apply (f_equal (fun r => match r with Ok t => t | UB _ => (0, 0, 0) end)) in D. cbv beta iota in D. rewrite <- D. f_equal. lia.
Qed.

(** The ring lookup at the centre. *)
Lemma imod_small : forall v m, 0 <= v < m -> imodulo v m = v.
Proof. intros v m H. unfold imodulo. rewrite Z.rem_small by lia. now rewrite (proj2 (Z.leb_le 0 v)) by lia. Qed.

Lemma centre_ring : forall n i j, 1 <= n -> on_ring n i j -> ang2pix_ring_real n (zc n i) (phic n i j) = start n i + j - 1.
Proof.
  intros n i j Hn R. unfold ang2pix_ring_real, phic. rewrite turn_of by (now apply tc_range). destruct R as [Ri Rj].
  pose proof (pos_R n Hn) as Pn.
  destruct (start_cases n i Hn Ri) as [(C & -> & E)|[(C & -> & E)|(C & -> & E)]]; rewrite E in Rj.
  - destruct (cap_root n i Hn) as [Q1 Q2]; [lia|].
    assert (Z0: zc n i = (1 - IZR (i * i) / (3 * IZR n * IZR n))%R) by (unfold zc; rewrite (proj2 (Z.ltb_lt i n)) by lia; reflexivity).
    rewrite Z0. set (q := (IZR (i * i) / (3 * IZR n * IZR n))%R) in *. rewrite Rabs_pos_eq by lra.
    destruct (Rle_dec (1 - q) (2 / 3)) as [W|_]; [exfalso; lra|].
    assert (T: tc n i j = ((IZR j - 1 / 2) / IZR i)%R) by (unfold tc; rewrite (proj2 (Z.ltb_lt i n)) by lia; reflexivity).
    destruct (quarter (j - 1) i) as (c & Hc & B); [lia|lia|].
    rewrite T, (quot_floor j i c) by lia.
    replace (1 - (1 - q))%R with q by ring. rewrite Q2. pose proof (pos_R i ltac:(lia)) as Pi.
    rewrite (half_floor (((IZR j - 1 / 2) / IZR i - IZR c) * IZR i) (j - 1 - c * i)); [|rewrite !minus_IZR, mult_IZR; field; lra|lia].
    rewrite (half_floor ((1 - ((IZR j - 1 / 2) / IZR i - IZR c)) * IZR i) (i - j + c * i)); [|rewrite plus_IZR, minus_IZR, mult_IZR; field; lra|lia].
    replace (j - 1 - c * i + (i - j + c * i) + 1) with i by lia.
    rewrite (half_floor ((IZR j - 1 / 2) / IZR i * IZR i) (j - 1)); [|rewrite minus_IZR; field; lra|lia].
    rewrite imod_small by lia. destruct (Rlt_dec 0 (1 - q)) as [_|W]; [|exfalso; lra]. lia.
  - destruct (Rle_dec (Rabs (zc n i)) (2 / 3)) as [_|W]; [|exfalso; apply W; apply zc_belt; lia].
    rewrite Rmult_assoc. destruct (belt_floor n i j Hn ltac:(lia) ltac:(lia)) as [-> ->].
    set (ks := (i - n) mod 2). assert (KS: 0 <= ks <= 1) by (unfold ks; lia).
    assert (P1: 2 * ((i - n - ks) / 2) = i - n - ks) by (unfold ks; lia).
    assert (P2: 2 * ((i - n + ks) / 2) = i - n + ks) by (unfold ks; lia).
    set (h1 := (i - n - ks) / 2) in *. set (h2 := (i - n + ks) / 2) in *.
    replace (n + 1 + (j + h1 - 1) - (j + n - 1 - h2)) with (i - n + 1) by lia.
    rewrite land1. replace (1 - (i - n + 1) mod 2) with ks by (unfold ks; lia).
    replace (j + h1 - 1 + (j + n - 1 - h2) - n + ks + 1) with (2 * j - 1) by lia.
    rewrite Z.quot_div_nonneg by lia. replace ((2 * j - 1) / 2) with (j - 1) by lia. rewrite imod_small by lia. nia.
  - set (k := 4 * n - i) in *. destruct (cap_root n k Hn) as [Q1 Q2]; [lia|].
    assert (Z0: zc n i = (-1 + IZR (k * k) / (3 * IZR n * IZR n))%R) by (unfold zc; rewrite (proj2 (Z.ltb_ge i n)), (proj2 (Z.leb_gt i (3 * n))) by lia; reflexivity).
    rewrite Z0. set (q := (IZR (k * k) / (3 * IZR n * IZR n))%R) in *. rewrite Rabs_left by lra.
    destruct (Rle_dec (- (-1 + q)) (2 / 3)) as [W|_]; [exfalso; lra|].
    assert (T: tc n i j = ((IZR j - 1 / 2) / IZR k)%R) by (unfold tc; rewrite (proj2 (Z.ltb_ge i n)), (proj2 (Z.leb_gt i (3 * n))) by lia; reflexivity).
    destruct (quarter (j - 1) k) as (c & Hc & B); [lia|lia|].
    rewrite T, (quot_floor j k c) by lia.
    replace (1 - - (-1 + q))%R with q by ring. rewrite Q2. pose proof (pos_R k ltac:(lia)) as Pi.
    rewrite (half_floor (((IZR j - 1 / 2) / IZR k - IZR c) * IZR k) (j - 1 - c * k)); [|rewrite !minus_IZR, mult_IZR; field; lra|lia].
    rewrite (half_floor ((1 - ((IZR j - 1 / 2) / IZR k - IZR c)) * IZR k) (k - j + c * k)); [|rewrite plus_IZR, minus_IZR, mult_IZR; field; lra|lia].
    replace (j - 1 - c * k + (k - j + c * k) + 1) with k by lia.
    rewrite (half_floor ((IZR j - 1 / 2) / IZR k * IZR k) (j - 1)); [|rewrite minus_IZR; field; lra|lia].
    rewrite imod_small by lia. destruct (Rlt_dec 0 (-1 + q)) as [W|_]; [exfalso; lra|]. lia.
Qed.

(** The centres computed by the code. *)
Lemma centre_of_ring : forall n i j, 1 <= n -> 12 * n * n < 2147483648 -> on_ring n i j ->
  pix2ang_ring_real n (start n i + j - 1) = Ok (zc n i, phic n i j).
Proof.
  intros n i j Hn Hb [Hi Hj]. assert (n < 2 ^ 16) by nia. pose proof (pos_R n Hn) as Pn.
  unfold pix2ang_ring_real, zc, phic, tc.
  assert (F2: (4 / IZR (12 * n * n) = 1 / (3 * IZR n * IZR n))%R) by (rewrite !mult_IZR; field; lra).
  destruct (start_cases n i Hn Hi) as [(C & -> & E)|[(C & -> & E)|(C & -> & E)]]; rewrite E in Hj.
  - rewrite (proj2 (Z.ltb_lt i n)) by lia. rewrite (proj2 (Z.ltb_lt _ (n * (n - 1) * 2))) by nia.
    rewrite isqrt_ok by nia. cbn [bind]. rewrite shr1, cap_ring by lia.
    replace (2 * i * (i - 1) + j - 1 + 1 - 2 * i * (i - 1)) with j by lia. pose proof (pos_R i ltac:(lia)).
    f_equal. f_equal; [rewrite F2; field; lra|field; lra].
  - rewrite (proj2 (Z.ltb_ge i n)) by lia. rewrite (proj2 (Z.leb_le i (3 * n))) by lia.
    rewrite (proj2 (Z.ltb_ge _ (n * (n - 1) * 2))) by nia. rewrite (proj2 (Z.ltb_lt _ (12 * n * n - _))) by nia.
    replace (2 * n * (n - 1) + (i - n) * (4 * n) + j - 1 - n * (n - 1) * 2) with ((i - n) * (4 * n) + (j - 1)) by lia.
    rewrite Z.quot_div_nonneg, Z.rem_mod_nonneg by nia.
    assert (D: ((i - n) * (4 * n) + (j - 1)) / (4 * n) = i - n).
    { rewrite Z.add_comm, Z.div_add, Z.div_small by lia. lia. }
    assert (M: ((i - n) * (4 * n) + (j - 1)) mod (4 * n) = j - 1).
    { rewrite Z.add_comm, Z.mod_add, Z.mod_small by lia. lia. }
    rewrite D, M. replace (i - n + n) with i by lia. replace (j - 1 + 1) with j by lia. rewrite land1.
    rewrite Z.shiftl_mul_pow2 by lia. change (2 ^ 1) with 2. f_equal. f_equal.
    + rewrite F2, !mult_IZR. field. lra.
    + rewrite mult_IZR. replace ((i + n) mod 2) with ((i - n) mod 2) by lia.
      assert (K: (i - n) mod 2 = 0 \/ (i - n) mod 2 = 1) by lia. destruct K as [-> | ->]; cbn [Z.eqb]; field; lra.
  - rewrite (proj2 (Z.ltb_ge i n)) by lia. rewrite (proj2 (Z.leb_gt i (3 * n))) by lia.
    set (k := 4 * n - i). assert (K: 1 <= k < n) by lia. assert (Hj': 1 <= j <= 4 * k) by lia.
    rewrite (proj2 (Z.ltb_ge _ (n * (n - 1) * 2))) by nia. rewrite (proj2 (Z.ltb_ge _ (12 * n * n - _))) by nia.
    replace (2 * (12 * n * n - (12 * n * n - 2 * (k + 1) * k + j - 1)) - 1) with (1 + 2 * (2 * k * (k - 1) + (4 * k + 1 - j) - 1)) by lia.
    rewrite isqrt_ok by nia. cbn [bind]. rewrite shr1, cap_ring by lia.
    replace (4 * k + 1 - (12 * n * n - (12 * n * n - 2 * (k + 1) * k + j - 1) - 2 * k * (k - 1))) with j by lia.
    pose proof (pos_R k ltac:(lia)). f_equal. f_equal; [rewrite F2; field; lra|field; lra].
Qed.

Lemma centre_of_nest : forall n x y f i j p, 1 <= n -> on_grid n x y f -> enc n x y f = (i, j) -> nest2xyf n p = Ok (x, y, f) ->
  pix2ang_nest_real n p = Ok (zc n i, phic n i j).
Proof.
  intros n x y f i j p Hn G E P. unfold pix2ang_nest_real. rewrite P. cbn [bind]. pose proof (pos_R n Hn) as Pn.
  pose proof (enc_ok n x y f Hn G) as FACTS. unfold ring_facts in FACTS. rewrite E in FACTS. destruct FACTS as ((Ri & Rj) & _ & _).
  destruct G as (Gx & Gy & Gf). destruct (rows f Gf) as [-> ->]. cbn [bind].
  unfold enc in E. cbv zeta in E. pose proof (f_equal fst E) as EI; pose proof (f_equal snd E) as EJ; cbn [fst snd] in EI, EJ. rewrite !EI in *.
  set (fp := 2 * (f mod 4) + (if f / 4 =? 1 then 0 else 1)) in *.
  assert (F2: (4 / IZR (12 * n * n) = 1 / (3 * IZR n * IZR n))%R) by (rewrite !mult_IZR; field; lra).
  assert (PAR: forall nr ks, (if i <? n then (nr = i /\ ks = 0) else if 3 * n <? i then (nr = 4 * n - i /\ ks = 0) else (nr = n /\ ks = (i - n) mod 2)) ->
    (fp * nr + x - y + 1 + ks) mod 2 = 0).
  { intros nr ks H. destruct (face_parts f Gf) as (r & c & Hr & Hc & Ef & E4 & Em). unfold fp. rewrite E4, Em in *.
    destruct (Z.ltb_spec i n); [destruct H as [-> ->]|destruct (Z.ltb_spec (3 * n) i); [destruct H as [-> ->]|destruct H as [-> ->]]];
    destruct Hr as [->|[->| ->]]; cbn [Z.eqb Pos.eqb]; destruct Hc as [->|[->|[->| ->]]]; lia. }
  unfold rlen in Rj. unfold zc, phic, tc. change (n * 4) with (n * 4). replace (n * 4) with (4 * n) by lia.
  destruct (Z.ltb_spec i n) as [C1|C1]; [|rewrite (Z.ltb_antisym i (3 * n)) in *; destruct (Z.leb_spec i (3 * n)) as [C2|C2]; cbn [negb] in *].
  - rewrite quot2_even by (apply PAR; tauto). set (j0 := (fp * i + x - y + 1 + 0) / 2) in *.
    assert (J: (if 4 * n <? j0 then j0 - 4 * n else j0) = j0).
    { destruct (Z.ltb_spec (4 * n) j0); [exfalso|reflexivity]. destruct (Z.ltb_spec j0 1); lia. }
    rewrite J, EJ. pose proof (pos_R i ltac:(lia)). f_equal. f_equal; [rewrite F2; field; lra|field; lra].
  - rewrite land1. rewrite quot2_even by (apply PAR; tauto). set (j0 := (fp * n + x - y + 1 + (i - n) mod 2) / 2) in *.
    assert (J: (if 4 * n <? j0 then j0 - 4 * n else j0) = j0).
    { destruct (Z.ltb_spec (4 * n) j0); [exfalso|reflexivity]. destruct (Z.ltb_spec j0 1); lia. }
    rewrite J, EJ. rewrite Z.shiftl_mul_pow2 by lia. change (2 ^ 1) with 2. f_equal. f_equal.
    + rewrite F2, !mult_IZR. field. lra.
    + field. lra.
  - rewrite quot2_even by (apply PAR; tauto). set (j0 := (fp * (4 * n - i) + x - y + 1 + 0) / 2) in *.
    assert (J: (if 4 * n <? j0 then j0 - 4 * n else j0) = j0).
    { destruct (Z.ltb_spec (4 * n) j0); [exfalso|reflexivity]. destruct (Z.ltb_spec j0 1); lia. }
    rewrite J, EJ. pose proof (pos_R (4 * n - i) ltac:(lia)). f_equal. f_equal; [rewrite F2; field; lra|field; lra].
Qed.

Lemma centre_roundtrip_ring : forall n p, 1 <= n -> 12 * n * n < 2147483648 -> valid_pixel n p ->
  exists z phi, pix2ang_ring_real n p = Ok (z, phi) /\ ang2pix_ring_real n z phi = p.
Proof.
  intros n p Hn Hb V. destruct (ring_cover n p Hn V) as (i & j & R & ->).
  exists (zc n i), (phic n i j). split; [now apply centre_of_ring|now apply centre_ring].
Qed.
Lemma centre_roundtrip_nest : forall n p, power_of_two_upto 13 n -> valid_pixel n p ->
  exists z phi, pix2ang_nest_real n p = Ok (z, phi) /\ ang2pix_nest_real n z phi = Ok p.
Proof.
  intros n p H V. destruct (nest_decode n p H V) as (x & y & f & D & G & E). destruct (size_32 n H) as [S1 S2].
  destruct (enc n x y f) as [i j] eqn:EE. exists (zc n i), (phic n i j).
  split; [now apply (centre_of_nest n x y f)|]. unfold ang2pix_nest_real.
  destruct H as (a & Ha & ->). rewrite (centre_nest a x y f i j) by (try assumption; lia). exact E.
Qed.
