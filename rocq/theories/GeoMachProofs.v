(** get_satellite_ra_dec_delta in binary64: the distance is right to a few units in the last place, and the argument of asin is
    never beyond 1. *)
From Coq Require Import ZArith Bool Reals Lra Lia Psatz.
From Flocq Require Import Core IEEE754.BinarySingleNaN Relative.
From Verif Require Import CLib FloatModel FloatLemmas ArithModel GeoModel GeoSpec GeoMachSpec HealpixProofs3 AngleProofs.
Open Scope R_scope.

Definition uu := / 9007199254740992.
Lemma uu_bpow : uu = bpow radix2 (-53).
Proof. unfold uu. cbn. lra. Qed.
Lemma RN0 : RN 0 = 0. Proof. apply round_0; auto with typeclass_instances. Qed.
Lemma RN_opp x : RN (- x) = - RN x.
Proof. unfold RN. apply round_NE_opp. Qed.
Lemma RN_rel x : x = 0 \/ bpow radix2 (-1000) <= Rabs x -> Rabs (RN x - x) <= uu * Rabs x.
Proof.
  intros [-> | H].
  - rewrite RN0, Rminus_eq_0, Rabs_R0. unfold uu. lra.
  - assert (K := relative_error_N_FLT radix2 (-1074) 53 ltac:(lia) (fun n => negb (Z.even n)) x).
    assert (B : bpow radix2 (-1074 + 53 - 1) <= Rabs x) by (eapply Rle_trans; [|exact H]; apply bpow_le; lia). specialize (K B).
    eapply Rle_trans; [exact K|]. apply Req_le. rewrite uu_bpow. change (/ 2) with (bpow radix2 (-1)). rewrite <- bpow_plus. reflexivity.
Qed.
Lemma RN_rel_pos x : x = 0 \/ bpow radix2 (-1000) <= x -> (1 - uu) * x <= RN x <= (1 + uu) * x.
Proof.
  intros H. assert (P : 0 <= x) by (destruct H as [->|H]; [lra|assert (B := bpow_gt_0 radix2 (-1000)); lra]).
  assert (K := RN_rel x). rewrite Rabs_pos_eq in K by exact P. specialize (K H). apply Rabs_le_inv in K. lra.
Qed.

(** The square root of the rounded square of a double, rounded, is not below the double. *)
Lemma sqrt_square (x : b64) : bpow radix2 (-450) <= toR x <= bpow radix2 450 -> toR x <= RN (sqrt (RN (toR x * toR x))).
Proof.
  intros [L U]. set (r := toR x) in *. assert (B := bpow_gt_0 radix2 (-450)). assert (P : 0 < r) by lra.
  assert (FR : generic_format radix2 fexp64 r) by apply generic_format_B2R.
  destruct (mag radix2 r) as [e He]. cbn in He. specialize (He ltac:(lra)). rewrite Rabs_pos_eq in He by lra.
  assert (E1 : (-450 < e)%Z) by (apply (lt_bpow radix2); lra).
  assert (E2 : (e - 1 <= 450)%Z). { apply (le_bpow radix2). lra. }
  destruct (b64_fx x (e - 1)) as [M HM]; [fold r; rewrite Rabs_pos_eq; lra|lia|]. fold r in HM. unfold fx in HM.
  replace (e - 1 - 52)%Z with (e - 53)%Z in HM by lia. set (h := bpow radix2 (e - 53)) in *. assert (Hh : 0 < h) by apply bpow_gt_0.
  assert (T1 : bpow radix2 (e - 1) = 4503599627370496 * h).
  { unfold h. replace (e - 1)%Z with (52 + (e - 53))%Z by lia. rewrite bpow_plus. cbn. lra. }
  assert (T2 : bpow radix2 e = 9007199254740992 * h).
  { unfold h. replace e with (53 + (e - 53))%Z at 1 by lia. rewrite bpow_plus. cbn. lra. }
  rewrite T1, T2, HM in He. destruct He as [H1 H2].
  apply Rmult_le_reg_r in H1; [|exact Hh]. apply Rmult_lt_reg_r in H2; [|exact Hh]. apply le_IZR in H1. apply lt_IZR in H2.
  assert (SQ : bpow radix2 (-1000) <= r * r).
  { apply Rle_trans with (bpow radix2 (-450) * bpow radix2 (-450)); [rewrite <- bpow_plus; apply bpow_le; lia|]. apply Rmult_le_compat; lra. }
  destruct (Z.eq_dec M 4503599627370496) as [Q|Q].
  - assert (X : r = bpow radix2 (e - 1)) by (rewrite HM, Q, T1; reflexivity).
    assert (R2 : RN (r * r) = r * r). { apply RN_gen. rewrite X, <- bpow_plus. apply generic_format_bpow. rewrite fexp64_eq. lia. }
    rewrite R2, sqrt_square by lra. rewrite RN_gen by exact FR. lra.
  - assert (A := RN_rel_pos (r * r) (or_intror SQ)). set (w := RN (r * r)) in *. set (y := sqrt w).
    assert (W : 0 <= w) by (unfold uu in A; nra). assert (Y0 : 0 <= y) by apply sqrt_pos. assert (YY : y * y = w) by (apply sqrt_sqrt; exact W).
    destruct (Rle_lt_dec r y) as [G|G]. { rewrite <- (RN_gen r) at 1 by exact FR. apply RN_le. exact G. }
    assert (MB : 4503599627370497 <= IZR M <= 9007199254740991) by (split; [apply (IZR_le 4503599627370497)|apply (IZR_le _ 9007199254740991)]; lia).
    assert (HALF : r - h / 2 < y).
    { apply Rnot_le_lt. intros C. assert (K0 : y * y <= (r - h / 2) * (r - h / 2)) by (apply Rmult_le_compat; lra).
      assert (K1 : (1 - uu) * (r * r) <= (r - h / 2) * (r - h / 2)) by lra. rewrite HM in K1.
      replace ((1 - uu) * (IZR M * h * (IZR M * h))) with ((IZR M * IZR M - uu * IZR M * IZR M) * (h * h)) in K1 by ring.
      replace ((IZR M * h - h / 2) * (IZR M * h - h / 2)) with ((IZR M * IZR M - IZR M + 1 / 4) * (h * h)) in K1 by field.
      apply Rmult_le_reg_r in K1; [|nra]. assert (uu * IZR M <= 1 - uu) by (unfold uu; lra). 
      assert (uu * IZR M * IZR M <= (1 - uu) * IZR M) by (apply Rmult_le_compat_r; lra). assert (1 / 2 < uu * IZR M) by (unfold uu; lra). lra. }
    apply Rnot_lt_le. intros C.
    assert (GY : generic_format radix2 fexp64 (RN y)) by (apply generic_format_round; auto with typeclass_instances).
    assert (LY : bpow radix2 (e - 1) <= RN y).
    { rewrite <- (RN_gen (bpow radix2 (e - 1))) by (apply generic_format_bpow; rewrite fexp64_eq; lia). apply RN_le. rewrite T1.
      assert (4503599627370497 * h <= r) by (rewrite HM; apply Rmult_le_compat_r; lra). lra. }
    assert (MY : exists N, RN y = IZR N * h).
    { assert (CE : (e - 53 <= cexp radix2 fexp64 (RN y))%Z).
      { unfold cexp. rewrite fexp64_eq. assert (e <= mag radix2 (RN y))%Z; [|lia]. apply mag_ge_bpow. rewrite Rabs_pos_eq; [exact LY|]. assert (Z := bpow_gt_0 radix2 (e - 1)). lra. }
      rewrite GY. unfold F2R. cbn [Fnum Fexp]. set (c := cexp radix2 fexp64 (RN y)) in *. exists (Ztrunc (scaled_mantissa radix2 fexp64 (RN y)) * radix2 ^ (c - (e - 53)))%Z.
      rewrite mult_IZR, IZR_Zpower by lia. rewrite Rmult_assoc. unfold h. rewrite <- bpow_plus. do 2 f_equal. lia. }
    destruct MY as [N HN]. assert (NM : (N < M)%Z). { apply lt_IZR. apply Rmult_lt_reg_r with h; [exact Hh|]. rewrite <- HN, <- HM. exact C. }
    assert (NM' : RN y <= r - h). { rewrite HN, HM. assert (IZR N <= IZR M - 1) by (rewrite <- minus_IZR; apply IZR_le; lia). nra. }
    destruct (round_N_pt radix2 fexp64 (fun n => negb (Z.even n)) y) as [_ NP]. specialize (NP r FR). fold (RN y) in NP. change (round radix2 fexp64 _ y) with (RN y) in NP.
    rewrite (Rabs_left1 (RN y - y)) in NP by lra. rewrite (Rabs_pos_eq (r - y)) in NP by lra. lra.
Qed.

(** A sum of squares under construction: at least 2^-800 unless zero. *)
Definition term (k : Z) (a : R) : Prop := a = 0 \/ bpow radix2 (-800) <= a <= bpow radix2 k.
Lemma term_pos k a : term k a -> 0 <= a.
Proof. intros [->|H]; [lra|]. assert (B := bpow_gt_0 radix2 (-800)). lra. Qed.
Lemma pow2_bpow n : 2 ^ n = bpow radix2 (Z.of_nat n).
Proof. rewrite bpow_powerRZ. rewrite <- pow_powerRZ. reflexivity. Qed.
Lemma squarable_bpow d : squarable d -> d = 0 \/ bpow radix2 (-400) <= Rabs d <= bpow radix2 400.
Proof.
  intros [H|H]; [left; exact H|right]. rewrite pow2_bpow in H. change (Z.of_nat 400) with 400%Z in H. rewrite <- bpow_opp in H. exact H.
Qed.

Lemma component (s o : b64) : fin s -> fin o -> squarable (toR s - toR o) ->
  let d := toR s - toR o in let v := fsub s o in
  fin v /\ toR v = RN d /\ (toR v = 0 <-> d = 0) /\ Rabs (toR v) <= bpow radix2 400 /\ (toR v = 0 \/ bpow radix2 (-400) <= Rabs (toR v)) /\
  fin (fmul v v) /\ toR (fmul v v) = RN (toR v * toR v) /\ term 800 (toR (fmul v v)) /\
  (1 - uu) ^ 3 * (d * d) <= toR (fmul v v) <= (1 + uu) ^ 3 * (d * d).
Proof.
  intros Fs Fo Q d v. apply squarable_bpow in Q. fold d in Q. assert (B4 := bpow_gt_0 radix2 (-400)).
  assert (D4 : Rabs d <= bpow radix2 400). { destruct Q as [->|Q]; [rewrite Rabs_R0; apply bpow_ge_0|apply Q]. }
  destruct (fsub_R s o 400 Fs Fo ltac:(lia) D4) as [Fv Ev]. fold v in Fv, Ev. fold d in Ev.
  assert (VU : Rabs (toR v) <= bpow radix2 400) by (rewrite Ev; apply RN_abs_le; [lia|exact D4]).
  assert (VL : d <> 0 -> bpow radix2 (-400) <= Rabs (toR v)).
  { intros N. destruct Q as [Q|Q]; [contradiction|]. rewrite Ev. apply abs_round_ge_generic; auto with typeclass_instances; [|apply Q].
    apply generic_format_bpow. rewrite fexp64_eq. lia. }
  assert (VZ : toR v = 0 <-> d = 0).
  { split; intros Z. - destruct (Req_dec d 0) as [|N]; [assumption|]. specialize (VL N). rewrite Z, Rabs_R0 in VL. lra. - rewrite Ev, Z. apply RN0. }
  assert (S8 : Rabs (toR v * toR v) <= bpow radix2 800).
  { rewrite Rabs_mult. change 800%Z with (400 + 400)%Z. rewrite bpow_plus. apply Rmult_le_compat; try apply Rabs_pos; exact VU. }
  destruct (fmul_R v v 800 Fv Fv ltac:(lia) S8) as [Fq Eq].
  assert (ST : toR v * toR v = 0 \/ bpow radix2 (-800) <= toR v * toR v).
  { destruct (Req_dec d 0) as [Z|N]; [left; apply VZ in Z; rewrite Z; ring|right]. specialize (VL N).
    replace (toR v * toR v) with (Rabs (toR v) * Rabs (toR v)) by (rewrite <- Rabs_mult; apply Rabs_pos_eq; nra).
    change (-800)%Z with (-400 + -400)%Z. rewrite bpow_plus. apply Rmult_le_compat; lra. }
  split; [exact Fv|]. split; [exact Ev|]. split; [exact VZ|]. split; [exact VU|].
  split. { destruct (Req_dec d 0) as [Z|N]; [left; apply VZ; exact Z|right; apply VL; exact N]. }
  split; [exact Fq|]. split; [exact Eq|]. split.
  - rewrite Eq. destruct ST as [Z|N]; [left; rewrite Z; apply RN0|right]. rewrite Rabs_pos_eq in S8 by nra. split.
    + rewrite <- (RN_gen (bpow radix2 (-800))) by (apply generic_format_bpow; rewrite fexp64_eq; lia). apply RN_le. exact N.
    + rewrite <- (RN_gen (bpow radix2 800)) by (apply generic_format_bpow; rewrite fexp64_eq; lia). apply RN_le. exact S8.
  - assert (K := RN_rel_pos (toR v * toR v)). assert (KK : toR v * toR v = 0 \/ bpow radix2 (-1000) <= toR v * toR v).
    { destruct ST as [Z|N]; [left; exact Z|right]. eapply Rle_trans; [|exact N]. apply bpow_le. lia. }
    specialize (K KK). rewrite <- Eq in K.
    assert (J := RN_rel d). assert (JJ : d = 0 \/ bpow radix2 (-1000) <= Rabs d).
    { destruct Q as [Z|N]; [left; exact Z|right]. eapply Rle_trans; [|apply N]. apply bpow_le. lia. }
    specialize (J JJ). rewrite <- Ev in J. assert (AV : (1 - uu) * Rabs d <= Rabs (toR v) <= (1 + uu) * Rabs d).
    { assert (T1 := Rabs_triang_inv (toR v) d). assert (T2 := Rabs_triang_inv d (toR v)). rewrite (Rabs_minus_sym d) in T2. lra. }
    assert (DD : d * d = Rabs d * Rabs d) by (rewrite <- Rabs_mult; symmetry; apply Rabs_pos_eq; nra).
    assert (DV : toR v * toR v = Rabs (toR v) * Rabs (toR v)) by (rewrite <- Rabs_mult; symmetry; apply Rabs_pos_eq; nra).
    rewrite DD. rewrite DV in K. set (a := Rabs d) in *. set (b := Rabs (toR v)) in *. assert (0 <= a) by apply Rabs_pos. assert (0 <= b) by apply Rabs_pos.
    assert (U : 0 < uu < 1) by (unfold uu; lra).
    assert (b * b <= (1 + uu) * a * ((1 + uu) * a)) by (apply Rmult_le_compat; lra).
    assert ((1 - uu) * a * ((1 - uu) * a) <= b * b) by (apply Rmult_le_compat; try lra; apply Rmult_le_pos; lra). 
    split.
    + apply Rle_trans with ((1 - uu) * (b * b)); [|lra]. replace ((1 - uu) ^ 3 * (a * a)) with ((1 - uu) * ((1 - uu) * a * ((1 - uu) * a))) by ring. apply Rmult_le_compat_l; lra.
    + apply Rle_trans with ((1 + uu) * (b * b)); [lra|]. replace ((1 + uu) ^ 3 * (a * a)) with ((1 + uu) * ((1 + uu) * a * ((1 + uu) * a))) by ring. apply Rmult_le_compat_l; lra.
Qed.

Lemma add_term (a b : b64) k : (800 <= k < 900)%Z -> fin a -> fin b -> term k (toR a) -> term k (toR b) ->
  fin (fadd a b) /\ term (k + 1) (toR (fadd a b)) /\ toR a <= toR (fadd a b) /\ toR b <= toR (fadd a b) /\
  (1 - uu) * (toR a + toR b) <= toR (fadd a b) <= (1 + uu) * (toR a + toR b).
Proof.
  intros Hk Fa Fb Ta Tb. assert (Pa := term_pos k _ Ta). assert (Pb := term_pos k _ Tb). assert (B := bpow_gt_0 radix2 k). assert (B8 := bpow_gt_0 radix2 (-800)).
  assert (Ua : toR a <= bpow radix2 k) by (destruct Ta as [->|T]; lra). assert (Ub : toR b <= bpow radix2 k) by (destruct Tb as [->|T]; lra).
  assert (K1 : bpow radix2 (k + 1) = 2 * bpow radix2 k) by (rewrite bpow_plus; cbn; lra).
  destruct (fadd_R a b (k + 1) Fa Fb ltac:(lia)) as [F E]; [rewrite Rabs_pos_eq by lra; lra|]. rewrite E.
  split; [exact F|]. split; [|split; [|split]].
  - destruct Ta as [Za|Na]; [destruct Tb as [Zb|Nb]|].
    + left. rewrite Za, Zb, Rplus_0_l. apply RN0.
    + right. split; [rewrite <- (RN_gen (bpow radix2 (-800))) by (apply generic_format_bpow; rewrite fexp64_eq; lia)|rewrite <- (RN_gen (bpow radix2 (k + 1))) by (apply generic_format_bpow; rewrite fexp64_eq; lia)]; apply RN_le; lra.
    + right. split; [rewrite <- (RN_gen (bpow radix2 (-800))) by (apply generic_format_bpow; rewrite fexp64_eq; lia)|rewrite <- (RN_gen (bpow radix2 (k + 1))) by (apply generic_format_bpow; rewrite fexp64_eq; lia)]; apply RN_le; lra.
  - rewrite <- (RN_gen (toR a)) at 1 by apply gen. apply RN_le. lra.
  - rewrite <- (RN_gen (toR b)) at 1 by apply gen. apply RN_le. lra.
  - apply RN_rel_pos. assert (bpow radix2 (-1000) <= bpow radix2 (-800)) by (apply bpow_le; lia).
    destruct Ta as [Za|Na]; [destruct Tb as [Zb|Nb]|]; [left|right|right]; lra.
Qed.

Lemma zero64 : fin (round_ratio 0 1) /\ toR (round_ratio 0 1) = 0.
Proof. split; reflexivity. Qed.
Lemma term_up j k a : (j <= k)%Z -> term j a -> term k a.
Proof. intros H [Z|T]; [left; exact Z|right]. split; [apply T|]. eapply Rle_trans; [apply T|apply bpow_le; exact H]. Qed.

Lemma distance_64 m (obs sat : b64 * b64 * b64) ra dec delta : finite3 obs -> finite3 sat ->
  squarable3 (minus (stored sat) (stored obs)) -> minus (stored sat) (stored obs) <> (0, 0, 0) ->
  get_satellite_ra_dec_delta (machine m) obs sat = (ra, dec, delta) ->
  fin delta /\ 0 < toR delta /\
  Rabs (toR delta - norm (minus (stored sat) (stored obs))) <= / 2 ^ 50 * norm (minus (stored sat) (stored obs)) /\
  exists q, dec = m_asin m q /\ fin q /\ Rabs (toR q) <= 1.
Proof.
  destruct obs as [[o0 o1] o2], sat as [[s0 s1] s2]. cbn [finite3 stored minus squarable3].
  intros (Fo0 & Fo1 & Fo2) (Fs0 & Fs1 & Fs2) (Q0 & Q1 & Q2) NZ E.
  set (n := norm _).
  assert (E' : delta = fsqrt (fadd (fadd (fadd (round_ratio 0 1) (fmul (fsub s0 o0) (fsub s0 o0))) (fmul (fsub s1 o1) (fsub s1 o1))) (fmul (fsub s2 o2) (fsub s2 o2))) /\ dec = m_asin m (fdiv (fsub s2 o2) delta)).
  { unfold get_satellite_ra_dec_delta in E. cbn [vx vy vz fst snd] in E. injection E as _ D1 D2. subst delta dec. split; reflexivity. }
  clear E. destruct E' as [ED EQ].
  destruct (component s0 o0 Fs0 Fo0 Q0) as (Fv0 & Ev0 & Z0 & U0 & L0 & Fq0 & Eq0 & T0 & R0).
  destruct (component s1 o1 Fs1 Fo1 Q1) as (Fv1 & Ev1 & Z1 & U1 & L1 & Fq1 & Eq1 & T1 & R1).
  destruct (component s2 o2 Fs2 Fo2 Q2) as (Fv2 & Ev2 & Z2 & U2 & L2 & Fq2 & Eq2 & T2 & R2). cbv zeta in *.
  set (v2 := fsub s2 o2) in *. set (q0 := fmul (fsub s0 o0) (fsub s0 o0)) in *. set (q1 := fmul (fsub s1 o1) (fsub s1 o1)) in *. set (q2 := fmul v2 v2) in *.
  set (d0 := toR s0 - toR o0) in *. set (d1 := toR s1 - toR o1) in *. set (d2 := toR s2 - toR o2) in *.
  assert (A0 : fin (fadd (round_ratio 0 1) q0) /\ toR (fadd (round_ratio 0 1) q0) = toR q0).
  { assert (P := term_pos _ _ T0). destruct (fadd_R (round_ratio 0 1) q0 801) as [F V]; [apply zero64|exact Fq0|lia| |].
    - rewrite (proj2 zero64), Rplus_0_l, Rabs_pos_eq by exact P. destruct T0 as [->|T0]; [apply bpow_ge_0|]. eapply Rle_trans; [apply T0|apply bpow_le; lia].
    - split; [exact F|]. rewrite V, (proj2 zero64), Rplus_0_l. apply RN_gen. apply gen. }
  destruct A0 as [FA0 EA0]. set (a0 := fadd (round_ratio 0 1) q0) in *.
  destruct (add_term a0 q1 800) as (F1 & S1 & M1a & M1b & K1); [lia|exact FA0|exact Fq1|rewrite EA0; exact T0|exact T1|]. set (a1 := fadd a0 q1) in *.
  destruct (add_term a1 q2 801) as (F2 & S2 & M2a & M2b & K2); [lia|exact F1|exact Fq2|exact S1|apply (term_up 800); [lia|exact T2]|]. set (a2 := fadd a1 q2) in *.
  rewrite EA0 in *. assert (P2 := term_pos _ _ S2). destruct (fsqrt_R a2 F2 P2) as [FD VD]. rewrite <- ED in FD, VD.
  assert (D0 : 0 <= d0 * d0) by apply Rle_0_sqr. assert (D1 : 0 <= d1 * d1) by apply Rle_0_sqr. assert (D2 : 0 <= d2 * d2) by apply Rle_0_sqr.
  set (S := d0 * d0 + d1 * d1 + d2 * d2). assert (SP : 0 < S).
  { unfold S. destruct (Req_dec d0 0) as [e0|e0]; [|assert (0 < d0 * d0) by (apply Rsqr_pos_lt; assumption); lra]. destruct (Req_dec d1 0) as [e1|e1]; [|assert (0 < d1 * d1) by (apply Rsqr_pos_lt; assumption); lra]. destruct (Req_dec d2 0) as [e2|e2]; [|assert (0 < d2 * d2) by (apply Rsqr_pos_lt; assumption); lra]. exfalso. apply NZ. rewrite e0, e1, e2. reflexivity. }
  assert (n = sqrt S) as Hn by reflexivity. assert (NP : 0 < n) by (rewrite Hn; apply sqrt_lt_R0; exact SP).
  assert (NN : n * n = S) by (rewrite Hn; apply sqrt_sqrt; lra).
  assert (U : 0 < uu < / 1000000) by (unfold uu; lra).
  assert (HI : toR a2 <= (1 + uu) ^ 5 * S).
  { assert (toR a1 <= (1 + uu) ^ 4 * (d0 * d0 + d1 * d1)).
    { replace ((1 + uu) ^ 4 * (d0 * d0 + d1 * d1)) with ((1 + uu) * ((1 + uu) ^ 3 * (d0 * d0) + (1 + uu) ^ 3 * (d1 * d1))) by ring. eapply Rle_trans; [apply K1|]. apply Rmult_le_compat_l; lra. }
    assert ((1 + uu) ^ 3 * (d2 * d2) <= (1 + uu) ^ 4 * (d2 * d2)). { apply Rmult_le_compat_r; [exact D2|]. apply Rle_pow; [lra|auto with arith]. }
    unfold S. replace ((1 + uu) ^ 5 * (d0 * d0 + d1 * d1 + d2 * d2)) with ((1 + uu) * ((1 + uu) ^ 4 * (d0 * d0 + d1 * d1) + (1 + uu) ^ 4 * (d2 * d2))) by ring.
    eapply Rle_trans; [apply K2|]. apply Rmult_le_compat_l; lra. }
  assert (LO : (1 - uu) ^ 5 * S <= toR a2).
  { assert ((1 - uu) ^ 4 * (d0 * d0 + d1 * d1) <= toR a1).
    { replace ((1 - uu) ^ 4 * (d0 * d0 + d1 * d1)) with ((1 - uu) * ((1 - uu) ^ 3 * (d0 * d0) + (1 - uu) ^ 3 * (d1 * d1))) by ring. eapply Rle_trans; [|apply K1]. apply Rmult_le_compat_l; lra. }
    assert ((1 - uu) ^ 4 * (d2 * d2) <= (1 - uu) ^ 3 * (d2 * d2)).
    { apply Rmult_le_compat_r; [exact D2|]. replace ((1 - uu) ^ 4) with ((1 - uu) * (1 - uu) ^ 3) by ring. assert (PW : 0 <= (1 - uu) ^ 3) by (apply pow_le; lra). rewrite <- (Rmult_1_l ((1 - uu) ^ 3)) at 2. apply Rmult_le_compat_r; [exact PW|lra]. }
    unfold S. replace ((1 - uu) ^ 5 * (d0 * d0 + d1 * d1 + d2 * d2)) with ((1 - uu) * ((1 - uu) ^ 4 * (d0 * d0 + d1 * d1) + (1 - uu) ^ 4 * (d2 * d2))) by ring.
    eapply Rle_trans; [|apply K2]. apply Rmult_le_compat_l; lra. }
  assert (C5 : (1 + uu) ^ 5 <= (1 + 3 * uu) * (1 + 3 * uu)) by (unfold uu; lra).
  assert (C5' : (1 - 3 * uu) * (1 - 3 * uu) <= (1 - uu) ^ 5) by (unfold uu; lra).
  assert (SQ1 : sqrt (toR a2) <= (1 + 3 * uu) * n).
  { rewrite <- (sqrt_Rsqr ((1 + 3 * uu) * n)) by (apply Rmult_le_pos; lra). apply sqrt_le_1_alt. unfold Rsqr. eapply Rle_trans; [exact HI|].
    replace ((1 + 3 * uu) * n * ((1 + 3 * uu) * n)) with ((1 + 3 * uu) * (1 + 3 * uu) * (n * n)) by ring. rewrite NN. apply Rmult_le_compat_r; lra. }
  assert (SQ2 : (1 - 3 * uu) * n <= sqrt (toR a2)).
  { rewrite <- (sqrt_Rsqr ((1 - 3 * uu) * n)) by (apply Rmult_le_pos; lra). apply sqrt_le_1_alt. unfold Rsqr. eapply Rle_trans; [|exact LO].
    replace ((1 - 3 * uu) * n * ((1 - 3 * uu) * n)) with ((1 - 3 * uu) * (1 - 3 * uu) * (n * n)) by ring. rewrite NN. apply Rmult_le_compat_r; lra. }
  assert (AP : 0 < toR a2). { eapply Rlt_le_trans; [|exact LO]. apply Rmult_lt_0_compat; [apply pow_lt; lra|exact SP]. }
  assert (A8 : bpow radix2 (-800) <= toR a2) by (destruct S2 as [Z|S2]; [lra|apply S2]).
  assert (SB : bpow radix2 (-400) <= sqrt (toR a2)).
  { rewrite <- (sqrt_Rsqr (bpow radix2 (-400))) by apply bpow_ge_0. apply sqrt_le_1_alt. unfold Rsqr. rewrite <- bpow_plus. exact A8. }
  assert (B4 := bpow_gt_0 radix2 (-400)).
  assert (DP : bpow radix2 (-400) <= toR delta).
  { rewrite VD. rewrite <- (RN_gen (bpow radix2 (-400))) by (apply generic_format_bpow; rewrite fexp64_eq; lia). apply RN_le. exact SB. }
  split; [exact FD|]. split; [lra|]. split.
  - assert (K := RN_rel_pos (sqrt (toR a2))). rewrite <- VD in K.
    assert (KK : sqrt (toR a2) = 0 \/ bpow radix2 (-1000) <= sqrt (toR a2)) by (right; eapply Rle_trans; [|exact SB]; apply bpow_le; lia). specialize (K KK).
    assert (W1 : toR delta <= (1 + uu) * ((1 + 3 * uu) * n)) by (eapply Rle_trans; [apply K|]; apply Rmult_le_compat_l; lra).
    assert (W2 : (1 - uu) * ((1 - 3 * uu) * n) <= toR delta) by (eapply Rle_trans; [|apply K]; apply Rmult_le_compat_l; lra).
    assert (Y : / 2 ^ 50 = 8 * uu) by (unfold uu; lra). rewrite Y. apply Rabs_le.
    assert (UN : 0 <= uu * n) by (apply Rmult_le_pos; lra). assert (uu * (uu * n) <= / 1000000 * (uu * n)) by (apply Rmult_le_compat_r; lra).
    replace ((1 + uu) * ((1 + 3 * uu) * n)) with (n + 4 * (uu * n) + 3 * (uu * (uu * n))) in W1 by ring.
    replace ((1 - uu) * ((1 - 3 * uu) * n)) with (n - 4 * (uu * n) + 3 * (uu * (uu * n))) in W2 by ring.
    assert (0 <= uu * (uu * n)) by (apply Rmult_le_pos; lra). clear - W1 W2 UN H H0. split; lra.
  - exists (fdiv v2 delta). split; [exact EQ|].
    assert (VD2 : Rabs (toR v2) <= toR delta).
    { destruct L2 as [Z|L2]; [rewrite Z, Rabs_R0; lra|]. rewrite VD.
      assert (X : Rabs (toR v2) <= RN (sqrt (RN (toR v2 * toR v2)))).
      { assert (Y : exists w : b64, toR w = Rabs (toR v2)) by (exists (fabs v2); apply B2R_Babs). destruct Y as [w W].
        assert (bpow radix2 (-450) <= bpow radix2 (-400)) by (apply bpow_le; lia). assert (bpow radix2 400 <= bpow radix2 450) by (apply bpow_le; lia).
        assert (H1 := sqrt_square w). rewrite W in H1. replace (toR v2 * toR v2) with (Rabs (toR v2) * Rabs (toR v2)) by (rewrite <- Rabs_mult; apply Rabs_pos_eq; apply Rle_0_sqr). apply H1. lra. }
      eapply Rle_trans; [exact X|]. apply RN_le. apply sqrt_le_1_alt. rewrite <- Eq2. exact M2b. }
    assert (DV : Rabs (toR v2 / toR delta) <= bpow radix2 0).
    { unfold Rdiv. rewrite Rabs_mult, Rabs_inv, (Rabs_pos_eq (toR delta)) by lra. apply Rmult_le_reg_r with (toR delta); [lra|]. rewrite Rmult_assoc, Rinv_l by lra. change (bpow radix2 0) with 1. rewrite Rmult_1_r, Rmult_1_l. exact VD2. }
    destruct (fdiv_R v2 delta 0 Fv2 ltac:(lra) ltac:(lia) DV) as [FQ VQ]. split; [exact FQ|]. rewrite VQ. apply (RN_abs_le _ 0); [lia|exact DV].
Qed.

Lemma TWOPI64_R : fin TWOPI64 /\ toR TWOPI64 = 7074237752028440 / 1125899906842624.
Proof.
  split; [vm_compute; reflexivity|]. rewrite <- SF2R_B2SF. replace (B2SF TWOPI64) with (SpecFloat.S754_finite false 7074237752028440 (-50)) by (vm_compute; reflexivity).
  cbn. unfold F2R. cbn. lra.
Qed.

Lemma direction_64 m (obs sat : b64 * b64 * b64) ra dec delta : half_turn (m_atan2 m) PI64 -> finite3 obs -> finite3 sat ->
  squarable3 (minus (stored sat) (stored obs)) ->
  get_satellite_ra_dec_delta (machine m) obs sat = (ra, dec, delta) ->
  fin ra /\ 0 <= toR ra <= toR TWOPI64.
Proof.
  destruct obs as [[o0 o1] o2], sat as [[s0 s1] s2]. cbn [finite3 stored minus squarable3].
  intros HT (Fo0 & Fo1 & Fo2) (Fs0 & Fs1 & Fs2) (Q0 & Q1 & Q2) E.
  destruct (component s0 o0 Fs0 Fo0 Q0) as (Fv0 & _). destruct (component s1 o1 Fs1 Fo1 Q1) as (Fv1 & _). cbv zeta in *.
  set (a := m_atan2 m (fsub s1 o1) (fsub s0 o0)).
  assert (E' : ra = if flt a (round_ratio 0 1) then fadd a TWOPI64 else a).
  { unfold get_satellite_ra_dec_delta in E. cbn [vx vy vz fst snd] in E. assert (Q := f_equal (fun t => fst (fst t)) E). cbn [fst] in Q. rewrite <- Q. reflexivity. }
  clear E. destruct (HT _ _ Fv1 Fv0) as [FA BA]. fold a in FA, BA. destruct TWOPI64_R as [FT VT]. destruct PI64_R as [_ VP]. rewrite VP in BA. apply Rabs_le_inv in BA.
  subst ra. destruct (flt a (round_ratio 0 1)) eqn:C.
  - apply flt_R in C; [|exact FA|apply zero64]. rewrite (proj2 zero64) in C.
    destruct (fadd_R a TWOPI64 3 FA FT ltac:(lia)) as [F V]. { apply Rabs_le. rewrite VT. cbn. lra. }
    split; [exact F|]. rewrite V. split.
    + rewrite <- RN0. apply RN_le. lra.
    + rewrite <- (RN_gen (toR TWOPI64)) at 2 by apply gen. apply RN_le. lra.
  - apply flt_false in C; [|exact FA|apply zero64]. rewrite (proj2 zero64) in C. split; [exact FA|]. lra.
Qed.

(** Adding a turn to an angle just below zero gives the whole turn. *)
Lemma whole_turn (a : b64) : fin a -> - / 2 ^ 52 <= toR a < 0 -> toR (fadd a TWOPI64) = toR TWOPI64.
Proof.
  intros FA BA. destruct TWOPI64_R as [FT VT]. destruct (fadd_R a TWOPI64 3 FA FT ltac:(lia)) as [F V]. { apply Rabs_le. rewrite VT. cbn. lra. }
  rewrite V. apply Rle_antisym. { rewrite <- (RN_gen (toR TWOPI64)) at 2 by apply gen. apply RN_le. lra. }
  apply Rnot_lt_le. intros C. set (x := toR a + toR TWOPI64) in *.
  assert (GY : generic_format radix2 fexp64 (RN x)) by (apply generic_format_round; auto with typeclass_instances).
  assert (LY : bpow radix2 2 <= RN x).
  { rewrite <- (RN_gen (bpow radix2 2)) by (apply generic_format_bpow; rewrite fexp64_eq; lia). apply RN_le. unfold x. rewrite VT. cbn. lra. }
  assert (B2 := bpow_gt_0 radix2 2).
  assert (MY : exists N, RN x = IZR N * / 1125899906842624).
  { assert (CE : (-50 <= cexp radix2 fexp64 (RN x))%Z).
    { unfold cexp. rewrite fexp64_eq. assert (3 <= mag radix2 (RN x))%Z; [|lia]. apply mag_ge_bpow. rewrite Rabs_pos_eq; [exact LY|lra]. }
    rewrite GY. unfold F2R. cbn [Fnum Fexp]. set (c := cexp radix2 fexp64 (RN x)) in *. exists (Ztrunc (scaled_mantissa radix2 fexp64 (RN x)) * radix2 ^ (c - -50))%Z.
    rewrite mult_IZR, IZR_Zpower by lia. rewrite Rmult_assoc. replace (/ 1125899906842624) with (bpow radix2 (-50)) by (cbn; lra). rewrite <- bpow_plus. do 2 f_equal. lia. }
  destruct MY as [N HN]. rewrite HN, VT in C.
  assert (NM : (N < 7074237752028440)%Z). { apply lt_IZR. lra. } assert (IZR N <= 7074237752028439) by (apply (IZR_le N 7074237752028439); lia).
  destruct (round_N_pt radix2 fexp64 (fun n => negb (Z.even n)) x) as [_ NP]. specialize (NP (toR TWOPI64) (gen _)). change (round radix2 fexp64 _ x) with (RN x) in NP.
  assert (X1 : toR TWOPI64 - x <= / 2 ^ 52) by (unfold x; lra). assert (X2 : x < toR TWOPI64) by (unfold x; lra).
  assert (Y : RN x <= toR TWOPI64 - / 2 ^ 50) by (rewrite HN, VT; lra).
  rewrite (Rabs_left1 (RN x - x)) in NP by lra. rewrite (Rabs_pos_eq (toR TWOPI64 - x)) in NP by lra. lra.
Qed.
