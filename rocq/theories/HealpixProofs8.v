(** Range of the pixel number of a direction, in double arithmetic. *)
From Coq Require Import ZArith List Bool Reals Lra Lia.
From Flocq Require Import Core IEEE754.BinarySingleNaN.
From Flocq.Prop Require Import Mult_error.
From Verif Require Import CLib FloatModel FloatLemmas CalendarProofs2 CalendarProofs3 CalendarProofs4.
From Verif Require Import HealpixModel HealpixSpec HealpixAngModel HealpixProofs1 HealpixProofs3 HealpixProofs7.
Import ListNotations.
Open Scope R_scope.

Lemma dyadic_R : forall m e, (-1074 <= e <= 900)%Z -> (Z.abs m <= 2 ^ 53)%Z -> fin (dyadic m e) /\ toR (dyadic m e) = IZR m * bpow radix2 e.
Proof.
  intros m e He Hm. pose proof (binary_normalize_correct 53 1024 prec64_gt0 prec64_lt mode_NE m e false) as C.
  cbn zeta in C. unfold F2R in C. cbn [Fnum Fexp] in C.
  rewrite (no_overflow _ (53 + e)) in C; [|lia|apply fx_bound; lia].
  destruct C as (C1 & C2 & _). split; [exact C2|]. unfold dyadic. rewrite C1. apply (RN_fx e m); [lia|reflexivity|exact Hm].
Qed.

Lemma fparts_R : forall x, fin x -> exists m e, fparts x = Some (m, e) /\ toR x = IZR m * bpow radix2 e /\ (Z.abs m < 2 ^ 53)%Z /\ (-1074 <= e)%Z.
Proof.
  intros x F. destruct x as [b|b| |b m e Hb]; try discriminate F.
  - exists 0%Z, 0%Z. cbn. split; [reflexivity|]. split; [ring|lia].
  - exists (if b then Zneg m else Zpos m), e. split; [reflexivity|]. split.
    + cbn [B2R]. unfold F2R. cbn [Fnum Fexp]. destruct b; reflexivity.
    + pose proof Hb as Hb2. unfold SpecFloat.bounded in Hb2. apply andb_true_iff in Hb2. destruct Hb2 as [H1 H2]. unfold SpecFloat.canonical_mantissa in H1. apply Zeq_bool_eq in H1.
      unfold SpecFloat.fexp, SpecFloat.emin in H1.
      assert (D: (Zpos (SpecFloat.digits2_pos m) <= 53)%Z) by lia. assert (E: (-1074 <= e)%Z) by lia. split; [|exact E].
      rewrite Zpos_digits2_pos in D. assert (B: (Zpos m < 2 ^ 53)%Z).
      { apply Z.lt_le_trans with (2 ^ Zdigits radix2 (Zpos m))%Z.
        - pose proof (Zdigits_correct radix2 (Zpos m)) as [_ U]. exact U.
        - apply Z.pow_le_mono_r; lia. }
      destruct b; cbn [Z.abs]; lia.
Qed.

Lemma twopi_parts : fparts twopi = Some (7074237752028440, -50)%Z.
Proof. vm_compute. reflexivity. Qed.
Lemma twopi_R : fin twopi /\ toR twopi = 7074237752028440 * bpow radix2 (-50).
Proof. apply dyadic_R; lia. Qed.
Lemma inv_halfpi_R : fin inv_halfpi /\ toR inv_halfpi = 5734161139222659 * bpow radix2 (-53).
Proof. apply dyadic_R; lia. Qed.

Lemma fmod_twopi : forall x, fin x -> fin (fmod x twopi) /\
  (exists k, toR (fmod x twopi) = toR x - IZR k * toR twopi) /\
  (0 <= toR x -> 0 <= toR (fmod x twopi) < toR twopi) /\ (toR x <= 0 -> - toR twopi < toR (fmod x twopi) <= 0).
Proof.
  intros x F. destruct (fparts_R x F) as (m & ex & P & E & B & Ex). unfold fmod. rewrite P, twopi_parts.
  change (7074237752028440 =? 0)%Z with false. cbv iota zeta.
  set (e := Z.min ex (-50)). set (X := (m * 2 ^ (ex - e))%Z). set (Y := (7074237752028440 * 2 ^ (-50 - e))%Z).
  assert (PY: (0 < 2 ^ (-50 - e))%Z) by (apply Z.pow_pos_nonneg; lia).
  assert (HY: (0 < Y)%Z) by (unfold Y; lia).
  assert (EX: toR x = IZR X * bpow radix2 e).
  { unfold X. rewrite E, mult_IZR, (IZR_Zpower radix2) by lia. rewrite Rmult_assoc, <- bpow_plus. do 2 f_equal. lia. }
  assert (EY: toR twopi = IZR Y * bpow radix2 e).
  { unfold Y. rewrite (proj2 twopi_R), mult_IZR, (IZR_Zpower radix2) by lia. rewrite Rmult_assoc, <- bpow_plus. do 2 f_equal. lia. }
  assert (S: (Z.abs (Z.rem X Y) <= 2 ^ 53)%Z).
  { destruct (Z.le_gt_cases ex (-50)) as [L|G].
    - assert (X = m) as -> by (unfold X, e; rewrite Z.min_l by lia; rewrite Z.sub_diag; lia).
      pose proof (Z.rem_bound_abs m Y ltac:(lia)). pose proof (Z.quot_rem' m Y). 
      assert (Z.abs (Z.rem m Y) <= Z.abs m)%Z; [|lia].
      rewrite <- Z.rem_abs by lia. apply Z.rem_le; lia.
    - assert (Y = 7074237752028440%Z) as YE by (unfold Y, e; rewrite Z.min_r by lia; reflexivity).
      pose proof (Z.rem_bound_abs X Y ltac:(lia)). lia. }
  destruct (dyadic_R (Z.rem X Y) e) as [FD ED]; [lia|exact S|].
  assert (PB: 0 < bpow radix2 e) by apply bpow_gt_0.
  split; [exact FD|]. split; [|split].
  - exists (Z.quot X Y). rewrite ED, EX, EY. rewrite (Z.quot_rem' X Y) at 2. rewrite plus_IZR, mult_IZR. ring.
  - intro H. rewrite ED, EY. assert (X0: (0 <= X)%Z).
    { apply le_IZR. rewrite EX in H. nra. }
    pose proof (Z.rem_bound_pos X Y X0 HY) as [R1 R2]. apply IZR_le in R1. apply IZR_lt in R2. nra.
  - intro H. rewrite ED, EY. assert (X0: (X <= 0)%Z).
    { apply le_IZR. rewrite EX in H. nra. }
    pose proof (Z.rem_bound_pos (- X) Y ltac:(lia) HY) as [R1 R2]. rewrite Z.rem_opp_l in R1, R2 by lia. apply IZR_le in R1. apply IZR_lt in R2. rewrite opp_IZR in R1, R2. nra.
Qed.

Lemma feq_R : forall x y, fin x -> fin y -> feq x y = true <-> toR x = toR y.
Proof.
  intros x y Fx Fy. unfold feq. rewrite Beqb_correct by assumption. destruct (Req_bool_spec (toR x) (toR y)); split; intros; congruence.
Qed.

Lemma bp53 : bpow radix2 (-53) = / 9007199254740992. Proof. now rewrite bpow_neg. Qed.
Lemma bp50 : bpow radix2 (-50) = / 1125899906842624. Proof. now rewrite bpow_neg. Qed.

Lemma fmodulo_R : forall phi, fin phi -> fin (fmodulo phi twopi) /\ 0 <= toR (fmodulo phi twopi) < toR twopi.
Proof.
  intros phi F. destruct twopi_R as [F2 E2]. rewrite bp50 in E2. assert (P2: 6 < toR twopi < 7) by (rewrite E2; lra).
  destruct (of_int_R 0) as [F0 E0]; [lia|]. unfold fmodulo.
  destruct (fle (of_int 0) phi) eqn:C.
  - apply fle_R in C; [|assumption..]. rewrite E0 in C. destruct (flt phi twopi) eqn:L.
    + apply flt_R in L; [|assumption..]. split; [assumption|lra].
    + destruct (fmod_twopi phi F) as (FM & _ & U & _). split; [assumption|]. now apply U.
  - apply fle_false in C; [|assumption..]. rewrite E0 in C.
    destruct (fmod_twopi phi F) as (FM & _ & _ & U). specialize (U ltac:(lra)).
    destruct (fadd_R (fmod phi twopi) twopi 3 FM F2) as [FA EA]; [lia| |].
    { rewrite bpow_pos. change (IZR (2 ^ 3)) with 8. rewrite Rabs_pos_eq; lra. }
    destruct (feq (fadd (fmod phi twopi) twopi) twopi) eqn:Q.
    + split; [assumption|]. rewrite E0. lra.
    + split; [assumption|].
      assert (L: toR (fadd (fmod phi twopi) twopi) <= toR twopi).
      { rewrite EA. apply Rle_trans with (RN (toR twopi)); [apply RN_le; lra|].
        right. apply round_generic; auto with typeclass_instances. apply generic_format_B2R. }
      assert (NE: toR (fadd (fmod phi twopi) twopi) <> toR twopi).
      { intro K. apply (proj2 (feq_R _ _ FA F2)) in K. congruence. }
      split; [|lra]. rewrite EA. apply (RN_int_ge _ 0); [lia|lra].
Qed.

(** The largest and second largest reduced longitude. *)
Definition last_phi : b64 := dyadic 7074237752028439 (-50).
Lemma last_phi_R : fin last_phi /\ toR last_phi = 7074237752028439 * bpow radix2 (-50).
Proof. apply dyadic_R; lia. Qed.

Lemma below_twopi : forall u, fin u -> 0 <= toR u < toR twopi -> toR u = toR last_phi \/ toR u <= 7074237752028438 * bpow radix2 (-50).
Proof.
  intros u F H. destruct (Rle_lt_dec 4 (toR u)) as [G|L].
  - destruct (b64_fx u 2) as [a A]; [rewrite Rabs_pos_eq by lra; change (bpow radix2 2) with 4; lra|lia|].
    unfold fx in A. change (2 - 52)%Z with (-50)%Z in A. rewrite (proj2 last_phi_R). rewrite (proj2 twopi_R) in H.
    pose proof (bpow_gt_0 radix2 (-50)) as PB. assert (AL: IZR a < 7074237752028440) by (rewrite A in H; nra).
    apply lt_IZR in AL. destruct (Z.eq_dec a 7074237752028439) as [->|N]; [left; exact A|right].
    assert (IZR a <= 7074237752028438) by (apply IZR_le; lia). rewrite A. apply Rmult_le_compat_r; lra.
  - right. rewrite bp50. lra.
Qed.

Lemma turn_R : forall phi, fin phi -> let tt := fmul (fmodulo phi twopi) inv_halfpi in
  fin tt /\ 0 <= toR tt <= 4 - / 2251799813685248 /\ (toR (fmodulo phi twopi) <> toR last_phi -> toR tt <= 4 - / 1125899906842624).
Proof.
  intros phi F tt. destruct (fmodulo_R phi F) as [FU BU]. set (u := fmodulo phi twopi) in *.
  destruct inv_halfpi_R as [FI EI]. destruct twopi_R as [F2 E2].
  pose proof bp50 as B50. pose proof bp53 as B53.
  assert (U1: 0 <= toR u <= 7074237752028439 * bpow radix2 (-50)).
  { destruct (below_twopi u FU BU) as [K|K]; [rewrite K, (proj2 last_phi_R)|]; rewrite B50 in *; lra. }
  assert (PI': 0 <= toR inv_halfpi) by (rewrite EI, B53; lra).
  destruct (fmul_R u inv_halfpi 3 FU FI) as [FT ET]; [lia| |].
  { rewrite EI, B53, Rabs_pos_eq by (rewrite B50 in U1; lra). rewrite bpow_pos. change (IZR (2 ^ 3)) with 8. rewrite B50 in U1. lra. }
  fold tt in ET. split; [exact FT|].
  assert (C1: toR (fmul last_phi inv_halfpi) = 4 - / 2251799813685248).
  { replace (fmul last_phi inv_halfpi) with (dyadic 9007199254740991 (-51)) by (apply b64_eq; vm_compute; reflexivity).
    rewrite (proj2 (dyadic_R 9007199254740991 (-51) ltac:(lia) ltac:(lia))), bpow_neg. change (IZR (2 ^ 51)) with 2251799813685248. lra. }
  assert (C2: toR (fmul (dyadic 7074237752028438 (-50)) inv_halfpi) = 4 - / 1125899906842624).
  { replace (fmul (dyadic 7074237752028438 (-50)) inv_halfpi) with (dyadic 9007199254740990 (-51)) by (apply b64_eq; vm_compute; reflexivity).
    rewrite (proj2 (dyadic_R 9007199254740990 (-51) ltac:(lia) ltac:(lia))), bpow_neg. change (IZR (2 ^ 51)) with 2251799813685248. lra. }
  assert (M: forall m, (0 <= m <= 7074237752028439)%Z -> toR (fmul (dyadic m (-50)) inv_halfpi) = RN (IZR m * bpow radix2 (-50) * toR inv_halfpi)).
  { intros m Hm. destruct (dyadic_R m (-50) ltac:(lia) ltac:(lia)) as [FM EM].
    destruct (fmul_R (dyadic m (-50)) inv_halfpi 3 FM FI) as [_ EF]; [lia| |now rewrite EF, EM].
    assert (0 <= IZR m <= 7074237752028439) by (split; apply IZR_le; lia).
    rewrite EM, EI, B53, B50, Rabs_pos_eq by lra. rewrite bpow_pos. change (IZR (2 ^ 3)) with 8. lra. }
  split; [split|].
  - rewrite ET. apply (RN_int_ge _ 0); [lia|]. nra.
  - rewrite ET, <- C1. unfold last_phi. rewrite M by lia. apply RN_le. nra.
  - intro N. rewrite ET, <- C2. rewrite M by lia. apply RN_le. destruct (below_twopi u FU BU) as [K|K]; [contradiction|]. nra.
Qed.

(** Products with a power of two are exact. *)
Lemma scale_exact : forall a x, (0 <= a <= 30)%Z -> fin x -> Rabs (toR x) <= 1024 ->
  fin (fmul (of_int (2 ^ a)) x) /\ toR (fmul (of_int (2 ^ a)) x) = bpow radix2 a * toR x.
Proof.
  intros a x Ha F B. assert (P: (2 ^ a <= 2 ^ 30)%Z) by (apply Z.pow_le_mono_r; lia). assert (P0: (0 < 2 ^ a)%Z) by (apply Z.pow_pos_nonneg; lia).
  destruct (of_int_R (2 ^ a)) as [FN EN]; [lia|]. assert (EB: toR (of_int (2 ^ a)) = bpow radix2 a) by (rewrite EN; apply (IZR_Zpower radix2); lia).
  destruct (fmul_R (of_int (2 ^ a)) x 40 FN F) as [FM EM]; [lia| |].
  { rewrite EB, Rabs_mult, (Rabs_pos_eq (bpow radix2 a)) by apply bpow_ge_0. change 40%Z with (30 + 10)%Z. rewrite bpow_plus.
    apply Rmult_le_compat; [apply bpow_ge_0|apply Rabs_pos|apply bpow_le; lia|change (bpow radix2 10) with 1024; lra]. }
  split; [exact FM|]. rewrite EM, EB. apply round_generic; auto with typeclass_instances. rewrite Rmult_comm.
  apply (mult_bpow_pos_exact_FLT radix2 (-1074) 53); [|lia]. apply (generic_format_B2R 53 1024 x).
Qed.

Lemma power_R : forall a, (0 <= a)%Z -> bpow radix2 a = IZR (2 ^ a).
Proof. intros a Ha. symmetry. apply (IZR_Zpower radix2). exact Ha. Qed.

Lemma RN_ub : forall k a c x, (-1074 <= k)%Z -> fx k a c -> (Z.abs a <= 2 ^ 53)%Z -> x <= c -> RN x <= c.
Proof. intros k a c x Hk X Ha H. apply Rle_trans with (RN c); [now apply RN_le|]. right. now apply (RN_fx k a). Qed.
Lemma RN_lb : forall k a c x, (-1074 <= k)%Z -> fx k a c -> (Z.abs a <= 2 ^ 53)%Z -> c <= x -> c <= RN x.
Proof. intros k a c x Hk X Ha H. apply Rle_trans with (RN c); [|now apply RN_le]. right. symmetry. now apply (RN_fx k a). Qed.

Lemma RN_scaled_le : forall a x m, (0 <= a <= 30)%Z -> (Z.abs m <= 2 ^ 53)%Z -> x <= bpow radix2 a * (IZR m * bpow radix2 (-50)) ->
  RN x <= bpow radix2 a * (IZR m * bpow radix2 (-50)).
Proof.
  intros a x m Ha Hm H. rewrite <- (RN_fx (a - 50) m (bpow radix2 a * (IZR m * bpow radix2 (-50)))); [now apply RN_le|lia| |exact Hm].
  unfold fx. replace (a - 50)%Z with (a + -50)%Z by lia. rewrite bpow_plus. ring.
Qed.

Lemma trunc_to_int : forall x M, fin x -> (0 <= M <= 2147483647)%Z -> 0 <= toR x -> toR x < IZR M + 1 -> exists j, to_int x = Ok j /\ (0 <= j <= M)%Z /\ j = Ztrunc (toR x).
Proof.
  intros x M F HM H0 H1. destruct (trunc_bounds (toR x)) as [T _]. specialize (T H0).
  set (j := Ztrunc (toR x)) in *. assert (-1 < j)%Z by (apply lt_IZR; lra).
  assert (j < M + 1)%Z by (apply lt_IZR; rewrite plus_IZR; lra).
  exists j. split; [|lia]. apply to_int_R; [exact F|fold j; lia].
Qed.

Lemma face_range : forall p m, (0 <= p <= 4)%Z -> (0 <= m <= 5)%Z -> (0 <= face_of p m < 12)%Z.
Proof.
  intros p m Hp Hm. unfold face_of.
  assert (p = 0 \/ p = 1 \/ p = 2 \/ p = 3 \/ p = 4)%Z as K by lia. 
  destruct (Z.eqb_spec p m); [subst m; repeat (destruct K as [K|K]; [subst p; cbn; lia|]); subst p; cbn; lia|].
  destruct (Z.ltb_spec p m); lia.
Qed.

Lemma half_R' : fin (lit 1 2) /\ toR (lit 1 2) = / 2. Proof. exact half_val. Qed.
Lemma lit34 : fin (lit 3 4) /\ toR (lit 3 4) = 3 / 4.
Proof.
  destruct (lit_exact 3 4 (-2) 3) as [F X]; try lia; [rewrite bpow_neg; change (IZR (2 ^ 2)) with 4; lra|].
  split; [exact F|]. unfold fx in X. rewrite X, bpow_neg. change (IZR (2 ^ 2)) with 4. lra.
Qed.
Lemma twothird_R : fin twothird /\ toR twothird = 6004799503160661 / 9007199254740992.
Proof.
  replace twothird with (dyadic 6004799503160661 (-53)) by (apply b64_eq; vm_compute; reflexivity).
  destruct (dyadic_R 6004799503160661 (-53)) as [F E]; [lia|lia|]. split; [exact F|]. rewrite E, bp53. lra.
Qed.

(** The equatorial belt. *)
Definition corner (z phi : b64) : Prop := toR (fmodulo phi twopi) = toR last_phi /\ toR z < - (66666666666666 / 100000000000000).

Lemma belt_ok : forall a z phi, (0 <= a <= 13)%Z -> fin z -> fin phi -> fle (Babs z) twothird = true -> ~ corner z phi ->
  exists x y f, ang2xyf (2 ^ a) z phi = Ok (x, y, f) /\ on_grid (2 ^ a) x y f.
Proof.
  intros a z phi Ha Fz Fp C NC. unfold ang2xyf. rewrite C.
  destruct (turn_R phi Fp) as (FT & BT & BT'). set (tt := fmul (fmodulo phi twopi) inv_halfpi) in *.
  destruct half_R' as [FH EH]. destruct lit34 as [F34 E34]. destruct twothird_R as [F23 E23].
  assert (FA: fin (Babs z)) by (unfold fin; rewrite is_finite_Babs; exact Fz).
  apply fle_R in C; [|assumption..]. rewrite B2R_Babs, E23 in C.
  assert (ZB: - (6004799503160661 / 9007199254740992) <= toR z <= 6004799503160661 / 9007199254740992) by (apply Rabs_le_inv; exact C).
  (* 0.5 + tt *)
  destruct (fadd_R (lit 1 2) tt 3 FH FT) as [FA1 EA1]; [lia| |].
  { rewrite EH, bpow_pos. change (IZR (2 ^ 3)) with 8. rewrite Rabs_pos_eq; lra. }
  set (A := fadd (lit 1 2) tt) in *. rewrite EH in EA1.
  assert (A1: / 2 <= toR A <= 9 / 2).
  { rewrite EA1. split.
    - apply (RN_lb (-1) 1); [lia|unfold fx; rewrite bpow_neg; change (IZR (2 ^ 1)) with 2; lra|lia|lra].
    - apply (RN_ub (-1) 9); [lia|unfold fx; rewrite bpow_neg; change (IZR (2 ^ 1)) with 2; lra|lia|lra]. }
  assert (A2: toR (fmodulo phi twopi) <> toR last_phi -> toR A <= 9 / 2 - / 1125899906842624).
  { intro N. specialize (BT' N). rewrite EA1.
    apply (RN_ub (-50) 5066549580791807); [lia|unfold fx; rewrite bp50; lra|lia|lra]. }
  (* 0.75 z *)
  destruct (fmul_R z (lit 3 4) 0 Fz F34) as [FB EB]; [lia| |].
  { rewrite E34. change (bpow radix2 0) with 1. apply Rabs_le. lra. }
  set (B := fmul z (lit 3 4)) in *. rewrite E34 in EB.
  assert (B1: - / 2 <= toR B <= / 2).
  { rewrite EB. split.
    - apply (RN_lb (-1) (-1)); [lia|unfold fx; rewrite bpow_neg; change (IZR (2 ^ 1)) with 2; lra|lia|lra].
    - apply (RN_ub (-1) 1); [lia|unfold fx; rewrite bpow_neg; change (IZR (2 ^ 1)) with 2; lra|lia|lra]. }
  assert (B2: - (66666666666666 / 100000000000000) <= toR z -> - (1 / 2) + / 1125899906842624 <= toR B).
  { intro N. rewrite EB.
    apply (RN_lb (-50) (-562949953421311)); [lia|unfold fx; rewrite bp50; lra|lia|lra]. }
  destruct (scale_exact a A) as [FT1 ET1]; [lia|exact FA1|apply Rabs_le; lra|].
  destruct (scale_exact a B) as [FT2 ET2]; [lia|exact FB|apply Rabs_le; lra|].
  set (n := (2 ^ a)%Z) in *. set (t1 := fmul (of_int n) A) in *. set (t2 := fmul (of_int n) B) in *.
  set (N := bpow radix2 a) in *.
  assert (NE: N = IZR n) by (apply power_R; lia).
  assert (N1: (1 <= n <= 8192)%Z).
  { split; [assert (0 < n)%Z by (apply Z.pow_pos_nonneg; lia); lia|]. change 8192%Z with (2 ^ 13)%Z. apply Z.pow_le_mono_r; lia. }
  assert (N1': 1 <= N <= 8192) by (rewrite NE; split; apply IZR_le; lia).
  assert (NC1: toR A - toR B <= 5 - / 1125899906842624).
  { destruct (Rle_lt_dec (- (66666666666666 / 100000000000000)) (toR z)) as [G|L].
    - specialize (B2 G). lra.
    - assert (toR (fmodulo phi twopi) <> toR last_phi) as K by (intro K; apply NC; split; assumption). specialize (A2 K). lra. }
  assert (LIM: forall w, fin w -> forall r, toR w = RN (N * r) -> 0 <= r -> r <= 5 - / 1125899906842624 ->
    exists j, to_int w = Ok j /\ (0 <= j < 5 * n)%Z).
  { intros w Fw r Ew R0 R1. assert (W0: 0 <= toR w) by (rewrite Ew; apply (RN_int_ge _ 0); [lia|nra]).
    assert (W1: toR w <= N * (5629499534213119 * bpow radix2 (-50))).
    { rewrite Ew. apply RN_scaled_le; [lia|lia|]. apply Rmult_le_compat_l; [fold N; lra|]. rewrite bp50. lra. }
    rewrite bp50 in W1. destruct (trunc_to_int w (5 * n - 1)) as (j & Ej & Bj & _); [exact Fw|lia|exact W0| |exists j; split; [exact Ej|lia]].
    rewrite minus_IZR, mult_IZR, <- NE. nra. }
  destruct (fsub_R t1 t2 17 FT1 FT2) as [FS ES]; [lia| |].
  { rewrite ET1, ET2, bpow_pos. change (IZR (2 ^ 17)) with 131072. fold N. apply Rabs_le. nra. }
  destruct (fadd_R t1 t2 17 FT1 FT2) as [FP EP]; [lia| |].
  { rewrite ET1, ET2, bpow_pos. change (IZR (2 ^ 17)) with 131072. fold N. apply Rabs_le. nra. }
  rewrite ET1, ET2 in ES, EP. rewrite <- Rmult_minus_distr_l in ES. rewrite <- Rmult_plus_distr_l in EP. fold N in ES, EP.
  destruct (LIM _ FS _ ES) as (jp & -> & Jp); [lra|exact NC1|]. cbn [bind].
  assert (M: exists jm, to_int (fadd t1 t2) = Ok jm /\ (0 <= jm <= 5 * n)%Z).
  { assert (W0: 0 <= toR (fadd t1 t2)) by (rewrite EP; apply (RN_int_ge _ 0); [lia|nra]).
    assert (W1: toR (fadd t1 t2) <= N * 5).
    { rewrite EP. replace (N * 5) with (N * (5629499534213120 * bpow radix2 (-50))) by (rewrite bp50; lra). apply RN_scaled_le; [lia|lia|].
      apply Rmult_le_compat_l; [fold N; lra|]. rewrite bp50. lra. }
    destruct (trunc_to_int (fadd t1 t2) (5 * n)) as (jm & Ejm & Bjm & _); [exact FP|lia|exact W0|rewrite mult_IZR, <- NE; lra|].
    exists jm. split; [exact Ejm|exact Bjm]. }
  destruct M as (jm & -> & Jm). cbn [bind]. eexists _, _, _. split; [reflexivity|].
  unfold n. replace (2 ^ a - 1)%Z with (Z.ones a) by (rewrite Z.ones_equiv; lia). rewrite !Z.land_ones by lia. fold n.
  pose proof (Z.mod_pos_bound jm n ltac:(lia)). pose proof (Z.mod_pos_bound jp n ltac:(lia)).
  rewrite !Z.quot_div_nonneg by lia. unfold on_grid. split; [lia|]. split; [lia|]. apply face_range.
  - split; [apply Z.div_pos; lia|]. assert (jp / n < 5)%Z by (apply Z.div_lt_upper_bound; lia). lia.
  - split; [apply Z.div_pos; lia|]. assert (jm / n < 6)%Z by (apply Z.div_lt_upper_bound; lia). lia.
Qed.

(** The polar caps. *)
Lemma cap_ok : forall a z phi, (0 <= a <= 13)%Z -> fin z -> fin phi -> Rabs (toR z) <= 1 -> fle (Babs z) twothird = false ->
  exists x y f, ang2xyf (2 ^ a) z phi = Ok (x, y, f) /\ on_grid (2 ^ a) x y f.
Proof.
  intros a z phi Ha Fz Fp Z1 C. unfold ang2xyf. rewrite C.
  destruct (turn_R phi Fp) as (FT & BT & _). set (tt := fmul (fmodulo phi twopi) inv_halfpi) in *.
  destruct twothird_R as [F23 E23].
  assert (FA: fin (Babs z)) by (unfold fin; rewrite is_finite_Babs; exact Fz).
  apply fle_false in C; [|assumption..]. rewrite B2R_Babs, E23 in C. set (za := Rabs (toR z)) in *.
  destruct (of_int_R 1) as [F1 E1]; [lia|]. destruct (of_int_R 3) as [F3 E3]; [lia|].
  set (n := (2 ^ a)%Z) in *. set (N := bpow radix2 a). assert (NE: N = IZR n) by (apply power_R; lia).
  assert (N1: (1 <= n <= 8192)%Z).
  { split; [assert (0 < n)%Z by (apply Z.pow_pos_nonneg; lia); lia|]. change 8192%Z with (2 ^ 13)%Z. apply Z.pow_le_mono_r; lia. }
  assert (N1': 1 <= N <= 8192) by (rewrite NE; split; apply IZR_le; lia).
  (* quadrant *)
  destruct (trunc_to_int tt 3 FT) as (q & -> & Bq & Tq); [lia|lra|lra|]. cbn [bind].
  rewrite (proj2 (Z.leb_gt 4 q)) by lia. destruct (trunc_bounds (toR tt)) as [TB _]. specialize (TB (proj1 BT)). rewrite <- Tq in TB.
  destruct (of_int_R q) as [FQ EQ]; [lia|].
  destruct (fsub_R tt (of_int q) 3 FT FQ) as [FP EP]; [lia|rewrite EQ, bpow_pos; change (IZR (2 ^ 3)) with 8; apply Rabs_le; lra|].
  set (tp := fsub tt (of_int q)) in *. rewrite EQ in EP.
  assert (P1: 0 <= toR tp <= 1) by (rewrite EP; split; [apply (RN_int_ge _ 0)|apply (RN_int_le _ 1)]; [lia|lra|lia|lra]).
  destruct (fsub_R (of_int 1) tp 3 F1 FP) as [FM EM]; [lia|rewrite E1, bpow_pos; change (IZR (2 ^ 3)) with 8; apply Rabs_le; lra|].
  set (tm := fsub (of_int 1) tp) in *. rewrite E1 in EM.
  assert (M1: 0 <= toR tm <= 1) by (rewrite EM; split; [apply (RN_int_ge _ 0)|apply (RN_int_le _ 1)]; [lia|lra|lia|lra]).
  (* 3 (1 - za) *)
  destruct (fsub_R (of_int 1) (Babs z) 3 F1 FA) as [FD ED]; [lia|rewrite E1, B2R_Babs, bpow_pos; fold za; change (IZR (2 ^ 3)) with 8; apply Rabs_le; lra|].
  set (d := fsub (of_int 1) (Babs z)) in *. rewrite E1, B2R_Babs in ED. fold za in ED.
  assert (D1: 0 <= toR d <= 1) by (rewrite ED; split; [apply (RN_int_ge _ 0)|apply (RN_int_le _ 1)]; [lia|lra|lia|lra]).
  destruct (fmul_R (of_int 3) d 3 F3 FD) as [F3D E3D]; [lia|rewrite E3, bpow_pos; change (IZR (2 ^ 3)) with 8; apply Rabs_le; lra|].
  set (g := fmul (of_int 3) d) in *. rewrite E3 in E3D.
  assert (G1: 0 <= toR g <= 3) by (rewrite E3D; split; [apply (RN_int_ge _ 0)|apply (RN_int_le _ 3)]; [lia|lra|lia|lra]).
  destruct (fsqrt_R g F3D (proj1 G1)) as [FR ER]. set (r := fsqrt g) in *.
  assert (R1: 0 <= toR r <= 2).
  { rewrite ER. split; [apply (RN_int_ge _ 0); [lia|apply sqrt_pos]|apply (RN_int_le _ 2); [lia|]]. apply sqrt_le_of; lra. }
  destruct (scale_exact a r) as [FS ES]; [lia|exact FR|apply Rabs_le; lra|]. fold n N in FS, ES. set (tmp := fmul (of_int n) r) in *.
  assert (K: forall w, fin w -> 0 <= toR w <= 1 -> exists j, to_int (fmul w tmp) = Ok j /\ (0 <= j)%Z).
  { intros w Fw Bw. assert (TB': 0 <= toR tmp <= 16384) by (rewrite ES; nra).
    destruct (fmul_R w tmp 14 Fw FS) as [FW EW]; [lia|rewrite bpow_pos; change (IZR (2 ^ 14)) with 16384; apply Rabs_le; nra|].
    assert (W: 0 <= toR (fmul w tmp) <= 16384) by (rewrite EW; split; [apply (RN_int_ge _ 0)|apply (RN_int_le _ 16384)]; [lia|nra|lia|nra]).
    destruct (trunc_to_int (fmul w tmp) 16384 FW) as (j & E & B & _); [lia|lra|lra|]. exists j. split; [exact E|lia]. }
  destruct (K tp FP P1) as (jp & -> & Jp). destruct (K tm FM M1) as (jm & -> & Jm). cbn [bind].
  set (jp' := if (n <=? jp)%Z then (n - 1)%Z else jp). set (jm' := if (n <=? jm)%Z then (n - 1)%Z else jm).
  assert (Jp': (0 <= jp' < n)%Z) by (unfold jp'; destruct (Z.leb_spec n jp); lia).
  assert (Jm': (0 <= jm' < n)%Z) by (unfold jm'; destruct (Z.leb_spec n jm); lia).
  destruct (fle (of_int 0) z); eexists _, _, _; (split; [reflexivity|unfold on_grid; lia]).
Qed.

Lemma pixel_ok : forall nside z phi, power_of_two_upto 13 nside -> fin z -> fin phi -> Rabs (toR z) <= 1 -> ~ corner z phi ->
  exists p, ang2pix_nest_z_phi nside z phi = Ok p /\ valid_pixel nside p.
Proof.
  intros nside z phi H Fz Fp Z1 NC. pose proof H as H'. destruct H' as (a & Ha & ->). unfold ang2pix_nest_z_phi.
  assert (X: exists x y f, ang2xyf (2 ^ a) z phi = Ok (x, y, f) /\ on_grid (2 ^ a) x y f).
  { destruct (fle (Babs z) twothird) eqn:C; [now apply belt_ok|now apply cap_ok]. }
  destruct X as (x & y & f & -> & G). cbn [bind]. destruct (nest_encode (2 ^ a) x y f H G) as (q & -> & _ & V & _). eexists. split; [reflexivity|exact V].
Qed.
