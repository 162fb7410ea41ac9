(** The steps of the resonance integrator in binary64. *)
From Coq Require Import ZArith List Reals Lra Lia Bool.
From Flocq Require Import Core IEEE754.BinarySingleNaN Sterbenz.
From Verif Require Import CLib FloatModel ArithModel FloatLemmas GeoLemmas OrbModel AngleProofs DeepModel DeepTerms DeepProofs1 DeepProofs2 DeepProofs3.
Import ListNotations.
Open Scope R_scope.

Definition F720 : b64 := round_ratio 720 1.
Lemma F720_R : fin F720 /\ toR F720 = 720.
Proof. split; [vm_compute; reflexivity|]. rewrite <- SF2R_B2SF. replace (B2SF F720) with (SpecFloat.S754_finite false 6333186975989760 (-43)) by (vm_compute; reflexivity). cbn. unfold F2R. cbn. lra. Qed.
Definition M720 : b64 := fopp F720.
Lemma M720_R : fin M720 /\ toR M720 = -720.
Proof. destruct F720_R as [A B]. unfold M720, fopp, fin in *. rewrite is_finite_Bopp. split; [exact A|]. rewrite (B2R_Bopp 53 1024), B. lra. Qed.
Lemma clip64 m x : clip (machine m) x = if flt F720 x then (F720, false) else if flt x M720 then (M720, false) else (x, true).
Proof. reflexivity. Qed.

(** More turns do not change a result. *)
Lemma dpsec_more A n derivs xfact t : forall n' atime xni xli r, (n <= n')%nat ->
  dpsec_loop A n derivs xfact t atime xni xli = Some r -> dpsec_loop A n' derivs xfact t atime xni xli = Some r.
Proof.
  induction n as [|n IH]; intros n' atime xni xli r L H; [discriminate H|]. destruct n' as [|n']; [lia|].
  destruct (clip A (sub A t atime)) as [d fl] eqn:C. rewrite (dpsec_1 A n _ _ _ _ _ _ _ _ C) in H. rewrite (dpsec_1 A n' _ _ _ _ _ _ _ _ C). cbn zeta in *.
  destruct fl; [exact H|]. apply IH; [lia | exact H].
Qed.

Lemma p40 : bpow radix2 40 = 1099511627776. Proof. rewrite bpow_pos. reflexivity. Qed.
Lemma p42 : bpow radix2 42 = 4398046511104. Proof. rewrite bpow_pos. reflexivity. Qed.
Lemma m12 : bpow radix2 (-12) = / 4096. Proof. rewrite bpow_neg. reflexivity. Qed.

(** One step that is not the last. *)
Lemma far_step t a d s : fin t -> fin a -> fin d -> (s = 1 \/ s = -1) -> toR d = s * 720 -> Rabs (toR t) <= bpow radix2 40 -> Rabs (toR t - toR a) <= bpow radix2 41 ->
  720 < s * (toR t - toR a) ->
  fin (fadd a d) /\ -1 <= s * (toR t - toR (fadd a d)) <= s * (toR t - toR a) - 719.
Proof.
  intros Ft Fa Fd Hs Hd Bt B L.
  assert (Ba : Rabs (toR a + toR d) <= bpow radix2 42).
  { rewrite p42. rewrite p40 in Bt. replace (bpow radix2 41) with 2199023255552 in B by (rewrite bpow_pos; reflexivity). apply Rabs_le_inv in Bt, B. rewrite Hd. apply Rabs_le. destruct Hs as [-> | ->]; lra. }
  destruct (fadd_R a d 42 Fa Fd) as [G V]; [lia | exact Ba|]. split; [exact G|]. rewrite V. fold (RN (toR a + toR d)).
  assert (E := RN_err (toR a + toR d) 42 ltac:(lia) Ba). change (42 - 54)%Z with (-12)%Z in E. rewrite m12 in E. apply Rabs_le_inv in E. rewrite Hd in E |- *.
  set (w := RN (toR a + s * 720)) in *. clearbody w. destruct Hs as [-> | ->]; lra.
Qed.
(** The last step. *)
Lemma last_step t a : fin t -> fin a -> Rabs (toR t) <= bpow radix2 40 -> Rabs (toR t - toR a) <= bpow radix2 41 ->
  Rabs (toR (fsub t a)) <= 720 ->
  fin (fsub t a) /\ fin (fadd a (fsub t a)) /\ Rabs (toR t - toR a) <= 721 /\ Rabs (toR (fadd a (fsub t a)) - toR t) <= bpow radix2 (-42)
  /\ (1500 <= Rabs (toR t) -> toR (fadd a (fsub t a)) = toR t).
Proof.
  intros Ft Fa Bt B L.
  destruct (fsub_R t a 41 Ft Fa) as [G V]; [lia | exact B|]. fold (RN (toR t - toR a)) in V. split; [exact G|].
  assert (D : Rabs (toR t - toR a) <= 721).
  { rewrite V in L. assert (E := RN_err (toR t - toR a) 41 ltac:(lia) B). change (41 - 54)%Z with (-13)%Z in E. replace (bpow radix2 (-13)) with (/ 8192) in E by (rewrite bpow_neg; reflexivity).
    apply Rabs_le_inv in E, L. apply Rabs_le. set (w := RN (toR t - toR a)) in *. clearbody w. lra. }
  assert (E1 : Rabs (toR (fsub t a) - (toR t - toR a)) <= bpow radix2 (-44)).
  { rewrite V. apply (RN_err (toR t - toR a) 10 ltac:(lia)). replace (bpow radix2 10) with 1024 by (rewrite bpow_pos; reflexivity). lra. }
  assert (X : 1500 <= Rabs (toR t) -> toR (fsub t a) = toR t - toR a).
  { intros H. rewrite V. apply round_generic; [typeclasses eauto|].
    assert (GT : generic_format radix2 fexp64 (toR t)) by apply generic_format_B2R. assert (GA : generic_format radix2 fexp64 (toR a)) by apply generic_format_B2R.
    apply Rabs_le_inv in D. destruct (Rle_or_lt 0 (toR t)) as [P|P].
    - rewrite Rabs_pos_eq in H by exact P. apply sterbenz; [apply fexp_correct; reflexivity | apply fexp_monotone | exact GT | exact GA | lra].
    - rewrite Rabs_left in H by exact P. replace (toR t - toR a) with (- (- toR t - - toR a)) by ring. apply generic_format_opp.
      apply sterbenz; [apply fexp_correct; reflexivity | apply fexp_monotone | apply generic_format_opp, GT | apply generic_format_opp, GA | lra]. }
  assert (S42 : Rabs (toR a + toR (fsub t a)) <= bpow radix2 42).
  { rewrite p42. rewrite p40 in Bt. apply Rabs_le_inv in Bt, L, D. apply Rabs_le. lra. }
  destruct (fadd_R a (fsub t a) 42 Fa G) as [G2 V2]; [lia | exact S42|]. fold (RN (toR a + toR (fsub t a))) in V2. split; [exact G2|]. split; [exact D|].
  assert (Y : 1500 <= Rabs (toR t) -> toR (fadd a (fsub t a)) = toR t).
  { intros H. rewrite V2, (X H). replace (toR a + (toR t - toR a)) with (toR t) by ring. apply round_generic; [typeclasses eauto|]. apply generic_format_B2R. }
  split; [|exact Y]. destruct (Rle_or_lt 1500 (Rabs (toR t))) as [H|H].
  - rewrite (Y H), Rminus_diag_eq, Rabs_R0 by reflexivity. apply bpow_ge_0.
  - rewrite V2. assert (S11 : Rabs (toR a + toR (fsub t a)) <= bpow radix2 11).
    { replace (bpow radix2 11) with 2048 by (rewrite bpow_pos; reflexivity). replace (bpow radix2 (-44)) with (/ 17592186044416) in E1 by (rewrite bpow_neg; reflexivity). apply Rabs_le_inv in E1. apply Rabs_def2 in H. apply Rabs_le. lra. }
    assert (E2 := RN_err _ 11 ltac:(lia) S11). change (11 - 54)%Z with (-43)%Z in E2. set (w := RN (toR a + toR (fsub t a))) in *. clearbody w.
    replace (bpow radix2 (-43)) with (/ 8796093022208) in E2 by (rewrite bpow_neg; reflexivity). replace (bpow radix2 (-44)) with (/ 17592186044416) in E1 by (rewrite bpow_neg; reflexivity).
    replace (bpow radix2 (-42)) with (/ 4398046511104) by (rewrite bpow_neg; reflexivity). apply Rabs_le_inv in E1, E2. apply Rabs_le. lra.
Qed.

Lemma dpsec64_aux m derivs xfact t N : fin t -> Rabs (toR t) <= bpow radix2 40 -> forall a xni xli, fin a -> Rabs (toR t - toR a) <= bpow radix2 41 -> Rabs (toR t - toR a) <= 719 * INR N ->
  exists a' xni' xli', dpsec_loop (machine m) (S N) derivs xfact t a xni xli = Some (a', xni', xli')
    /\ fin a' /\ Rabs (toR a' - toR t) <= bpow radix2 (-42) /\ (1500 <= Rabs (toR t) -> toR a' = toR t).
Proof.
  intros Ft Bt. destruct F720_R as [O1 O2]. destruct M720_R as [N1 N2].
  induction N as [|N IH]; intros a xni xli Fa B C; destruct (fsub_R t a 41 Ft Fa) as [G V]; try lia; try exact B; fold (RN (toR t - toR a)) in V.
  all: assert (Last : Rabs (toR (fsub t a)) <= 720 -> exists a' xni' xli', forall n, dpsec_loop (machine m) (S n) derivs xfact t a xni xli = Some (a', xni', xli')
    /\ fin a' /\ Rabs (toR a' - toR t) <= bpow radix2 (-42) /\ (1500 <= Rabs (toR t) -> toR a' = toR t)).
  1, 3: intros L; destruct (last_step t a Ft Fa Bt B L) as (_ & L2 & _ & L3 & L4);
    assert (K : clip (machine m) (sub (machine m) t a) = (fsub t a, true));
    [ rewrite clip64; change (sub (machine m) t a) with (fsub t a); apply Rabs_le_inv in L;
      replace (flt F720 (fsub t a)) with false by (symmetry; apply flt_false; [assumption | assumption | rewrite O2; lra]);
      replace (flt (fsub t a) M720) with false by (symmetry; apply flt_false; [assumption | assumption | rewrite N2; lra]); reflexivity
    | do 3 eexists; intros n; rewrite (dpsec_1 (machine m) n derivs xfact t a xni xli _ _ K); cbn zeta; split; [reflexivity | split; [exact L2 | split; [exact L3 | exact L4]]] ].
  - destruct Last as (a' & x' & l' & H); [|exists a', x', l'; apply H]. cbn [INR] in C. assert (Z : toR t - toR a = 0) by (apply Rabs_le_inv in C; lra). rewrite V, Z. unfold RN. rewrite round_0 by typeclasses eauto. rewrite Rabs_R0. lra.
  - destruct (Rle_or_lt (Rabs (toR (fsub t a))) 720) as [Sm|Sm]; [destruct (Last Sm) as (a' & x' & l' & H); exists a', x', l'; apply H|].
    rewrite S_INR in C.
    assert (exists d s, clip (machine m) (sub (machine m) t a) = (d, false) /\ fin d /\ (s = 1 \/ s = -1) /\ toR d = s * 720 /\ 720 < s * (toR t - toR a)) as (d & s & K & Fd & Hs & Hd & L).
    { rewrite clip64. change (sub (machine m) t a) with (fsub t a). destruct (flt F720 (fsub t a)) eqn:Q.
      - apply flt_R in Q; [|assumption|assumption]. exists F720, 1. split; [reflexivity|]. split; [exact O1|]. split; [left; reflexivity|]. split; [lra|].
        destruct (Rle_or_lt (toR t - toR a) 720) as [W|W]; [|lra]. apply (RN_int_le _ 720) in W; [|lia]. rewrite V, O2 in Q. lra.
      - apply flt_false in Q; [|assumption|assumption]. rewrite O2 in Q. destruct (flt (fsub t a) M720) eqn:Q2.
        + apply flt_R in Q2; [|assumption|assumption]. exists M720, (-1). split; [reflexivity|]. split; [exact N1|]. split; [right; reflexivity|]. split; [lra|].
          destruct (Rle_or_lt (-720) (toR t - toR a)) as [W|W]; [|lra]. apply (RN_int_ge _ (-720)) in W; [|lia]. rewrite V, N2 in Q2. lra.
        + apply flt_false in Q2; [|assumption|assumption]. rewrite N2 in Q2. exfalso. assert (Rabs (toR (fsub t a)) <= 720) by (apply Rabs_le; lra). lra. }
    destruct (far_step t a d s Ft Fa Fd Hs Hd Bt B L) as (Fa' & [P1 P2]).
    assert (P3 : Rabs (toR t - toR (fadd a d)) <= Rmax 1 (Rabs (toR t - toR a) - 719)).
    { assert (Q : Rabs (toR t - toR a) = s * (toR t - toR a)) by (destruct Hs as [-> | ->]; [rewrite Rabs_pos_eq by lra | rewrite Rabs_left by lra]; lra). rewrite Q.
      assert (M1' := Rmax_l 1 (s * (toR t - toR a) - 719)). assert (M2' := Rmax_r 1 (s * (toR t - toR a) - 719)). apply Rabs_le. destruct Hs as [-> | ->]; lra. }
    rewrite (dpsec_1 (machine m) (S N) derivs xfact t a xni xli _ _ K). cbn zeta. change (add (machine m) a d) with (fadd a d).
    assert (P4 : 1 <= Rabs (toR t - toR a) - 719).
    { assert (s * (toR t - toR a) <= Rabs (toR t - toR a)); [|lra]. destruct Hs as [-> | ->]; [rewrite Rmult_1_l; apply Rle_abs|]. rewrite <- Rabs_Ropp. replace (-1 * (toR t - toR a)) with (- (toR t - toR a)) by ring. apply Rle_abs. }
    rewrite Rmax_right in P3 by exact P4. apply IH; [exact Fa' | lra | lra].
Qed.
(** From any point reached: at most |t - a|/719 + 2 turns. *)
Lemma dpsec64 m derivs xfact t a xni xli : fin t -> fin a -> Rabs (toR t) <= bpow radix2 40 -> Rabs (toR t - toR a) <= bpow radix2 41 ->
  exists n a' xni' xli', INR n <= Rabs (toR t - toR a) / 719 + 2
    /\ (forall n', (n <= n')%nat -> dpsec_loop (machine m) n' derivs xfact t a xni xli = Some (a', xni', xli'))
    /\ fin a' /\ Rabs (toR a' - toR t) <= bpow radix2 (-42) /\ (1500 <= Rabs (toR t) -> toR a' = toR t).
Proof.
  intros Ft Fa Bt B. set (x := Rabs (toR t - toR a) / 719). assert (P : 0 <= x) by (unfold x; assert (Q := Rabs_pos (toR t - toR a)); lra).
  destruct (archimed x) as [U1 U2]. assert (PU : (0 <= up x)%Z) by (apply le_IZR; lra).
  destruct (dpsec64_aux m derivs xfact t (Z.to_nat (up x)) Ft Bt a xni xli Fa B) as (a' & xni' & xli' & E & R).
  { rewrite INR_IZR_INZ, Z2Nat.id by exact PU. assert (HX : Rabs (toR t - toR a) = 719 * x) by (unfold x; field). rewrite HX. lra. }
  exists (S (Z.to_nat (up x))), a', xni', xli'. split; [rewrite S_INR, INR_IZR_INZ, Z2Nat.id by exact PU; fold x; clear -U2; lra|]. split; [|exact R].
  intros n' L. exact (dpsec_more (machine m) _ derivs xfact t n' a xni xli _ L E).
Qed.

(** Where the integration starts, in binary64. *)
Lemma start64 m g r s v : fin s -> fin (v_atime (machine m) v) -> Rabs (toR s) <= bpow radix2 40 -> Rabs (toR s - toR (v_atime (machine m) v)) <= bpow radix2 41 ->
  exists a x l, dpsec_start (machine m) g r s v = (a, x, l) /\ fin a /\ Rabs (toR s - toR a) <= Rmin (Rabs (toR s)) (Rabs (toR s - toR (v_atime (machine m) v))) + 1
   /\ (toR a = 0 \/ a = v_atime (machine m) v).
Proof.
  intros Fs Fv Bs B. set (v0 := v_atime (machine m) v) in *.
  assert (E : dpsec_start (machine m) g r s v = if flt (fabs s) (fabs (fsub s v0)) then (F0, i_xnodp (machine m) (k_start (machine m) (g_com (machine m) g)), r_xlamo (machine m) r) else (v0, v_xni (machine m) v, v_xli (machine m) v)) by reflexivity.
  rewrite E. clear E. destruct (fsub_R s v0 41 Fs Fv) as [G V]; [lia | exact B|]. fold (RN (toR s - toR v0)) in V.
  assert (A1 : forall x, fin x -> fin (fabs x) /\ toR (fabs x) = Rabs (toR x)).
  { intros x Fx. unfold fabs, fin in *. rewrite is_finite_Babs, (B2R_Babs 53 1024). auto. }
  destruct (A1 s Fs) as [S1 S2]. destruct (A1 _ G) as [T1 T2].
  assert (Er := RN_err (toR s - toR v0) 41 ltac:(lia) B). change (41 - 54)%Z with (-13)%Z in Er. replace (bpow radix2 (-13)) with (/ 8192) in Er by (rewrite bpow_neg; reflexivity). rewrite <- V in Er.
  assert (Er2 : Rabs (toR (fsub s v0)) - / 8192 <= Rabs (toR s - toR v0) <= Rabs (toR (fsub s v0)) + / 8192).
  { assert (X1 := Rabs_triang_inv (toR (fsub s v0)) (toR s - toR v0)). assert (X2 := Rabs_triang_inv (toR s - toR v0) (toR (fsub s v0))). rewrite (Rabs_minus_sym (toR s - toR v0)) in X2. lra. }
  destruct (flt (fabs s) (fabs (fsub s v0))) eqn:L.
  - apply flt_R in L; [|assumption|assumption]. rewrite S2, T2 in L. exists F0, (i_xnodp (machine m) (k_start (machine m) (g_com (machine m) g))), (r_xlamo (machine m) r).
    split; [reflexivity|]. split; [reflexivity|]. change (toR F0) with 0. rewrite Rminus_0_r. split; [|left; reflexivity]. unfold Rmin. destruct (Rle_dec _ _); lra.
  - apply flt_false in L; [|assumption|assumption]. rewrite S2, T2 in L. exists v0, (v_xni (machine m) v), (v_xli (machine m) v).
    split; [reflexivity|]. split; [exact Fv|]. split; [|right; reflexivity]. unfold Rmin. destruct (Rle_dec _ _); lra.
Qed.

Lemma near_hd a b e : Rabs (a - b) <= e -> Rabs a <= Rabs b + e.
Proof. intros H. assert (X := Rabs_triang_inv a b). lra. Qed.
Lemma p39 : bpow radix2 39 = 549755813888. Proof. rewrite bpow_pos. reflexivity. Qed.
Lemma p41 : bpow radix2 41 = 2199023255552. Proof. rewrite bpow_pos. reflexivity. Qed.
Lemma m42 : bpow radix2 (-42) = / 4398046511104. Proof. rewrite bpow_neg. reflexivity. Qed.
Lemma apart x y : Rabs x <= bpow radix2 39 -> Rabs y <= bpow radix2 39 + 1 -> Rabs (x - y) <= bpow radix2 41 /\ Rabs x <= bpow radix2 40.
Proof. rewrite p39, p40, p41. intros H K. apply Rabs_le_inv in H, K. split; apply Rabs_le; lra. Qed.
(** Within 2^-42 minutes of the last time asked for. *)
Lemma stands64 m t g r ts v : g_res (machine m) g = Some r -> called (machine m) t g ts v -> Forall sane ts ->
  fin (v_atime (machine m) v) /\ Rabs (toR (v_atime (machine m) v) - toR (hd F0 ts)) <= bpow radix2 (-42) /\ Rabs (toR (v_atime (machine m) v)) <= bpow radix2 39 + 1.
Proof.
  intros R C. induction C as [|ts n s v v' out C IH H]; intros FS.
  - unfold fresh. cbn [v_atime hd]. change (int (machine m) 0) with F0. split; [reflexivity|]. rewrite Rminus_diag_eq, Rabs_R0 by reflexivity. split; [apply bpow_ge_0|]. change (toR F0) with 0. rewrite Rabs_R0. assert (Q := bpow_ge_0 radix2 39). lra.
  - inversion FS as [|s0 ts0 [Fs Bs] FS']; subst. destruct (IH FS') as (Fv & _ & Bv). cbn [hd].
    destruct (apart _ _ Bs Bv) as [B B40].
    destruct (start64 m g r s v Fs Fv B40 B) as (a & x & l & E & Fa & Da & _).
    apply sdp_atime in H. rewrite R in H. rewrite E in H. destruct H as (l' & H & _).
    assert (Da' : Rabs (toR s - toR a) <= bpow radix2 41).
    { assert (M := Rmin_l (Rabs (toR s)) (Rabs (toR s - toR (v_atime (machine m) v)))). rewrite p41. rewrite p39 in Bs. lra. }
    destruct (dpsec64 m (compute_dpsec_derivs (machine m) (g_omegaq (machine m) g) (k_omgdot (machine m) (g_com (machine m) g)) (r_coefs (machine m) r)) (r_xfact (machine m) r) s a x l Fs Fa B40 Da')
      as (k & a' & x' & l2 & _ & K & Fa' & D & _).
    assert (K2 := K (max n k) (Nat.le_max_r _ _)). apply (dpsec_more (machine m) n _ _ _ (max n k) _ _ _ _ (Nat.le_max_l _ _)) in H. rewrite K2 in H. apply (f_equal (fun o => match o with Some (q, _, _) => q | None => a' end)) in H. cbn in H. rewrite <- H.
    split; [exact Fa'|]. split; [exact D|]. apply near_hd in D. rewrite m42 in D. lra.
Qed.
(** Every request ends. *)
Lemma resonance64 m t g r ts v s : g_res (machine m) g = Some r -> called (machine m) t g ts v -> Forall sane (s :: ts) ->
  exists a x l n a' x' l', dpsec_start (machine m) g r s v = (a, x, l)
    /\ INR n <= Rmin (Rabs (toR s)) (Rabs (toR s - toR (hd F0 ts))) / 719 + 3
    /\ (forall n', (n <= n')%nat -> dpsec_loop (machine m) n' (compute_dpsec_derivs (machine m) (g_omegaq (machine m) g) (k_omgdot (machine m) (g_com (machine m) g)) (r_coefs (machine m) r))
          (r_xfact (machine m) r) s a x l = Some (a', x', l'))
    /\ fin a' /\ Rabs (toR a' - toR s) <= bpow radix2 (-42) /\ (1500 <= Rabs (toR s) -> toR a' = toR s).
Proof.
  intros R C FS. inversion FS as [|s0 ts0 [Fs Bs] FS']; subst. destruct (stands64 m t g r ts v R C FS') as (Fv & Dv & Bv).
  destruct (apart _ _ Bs Bv) as [B B40]. destruct (start64 m g r s v Fs Fv B40 B) as (a & x & l & E & Fa & Da & _).
  assert (Da' : Rabs (toR s - toR a) <= bpow radix2 41).
  { assert (M := Rmin_l (Rabs (toR s)) (Rabs (toR s - toR (v_atime (machine m) v)))). rewrite p41. rewrite p39 in Bs. lra. }
  destruct (dpsec64 m (compute_dpsec_derivs (machine m) (g_omegaq (machine m) g) (k_omgdot (machine m) (g_com (machine m) g)) (r_coefs (machine m) r)) (r_xfact (machine m) r) s a x l Fs Fa B40 Da')
      as (k & a' & x' & l2 & K1 & K & Fa' & D).
  exists a, x, l, k, a', x', l2. split; [exact E|]. split; [|split; [exact K | split; [exact Fa' | exact D]]].
  assert (Q : Rabs (toR s - toR (v_atime (machine m) v)) <= Rabs (toR s - toR (hd F0 ts)) + bpow radix2 (-42)).
  { replace (toR s - toR (v_atime (machine m) v)) with ((toR s - toR (hd F0 ts)) - (toR (v_atime (machine m) v) - toR (hd F0 ts))) by ring. eapply Rle_trans; [apply Rabs_triang|]. rewrite Rabs_Ropp. lra. }
  rewrite m42 in Q. assert (W : Rmin (Rabs (toR s)) (Rabs (toR s - toR (v_atime (machine m) v))) <= Rmin (Rabs (toR s)) (Rabs (toR s - toR (hd F0 ts))) + 1).
  { unfold Rmin. destruct (Rle_dec _ _), (Rle_dec _ _); lra. }
  lra.
Qed.
(** Times that are never reached: the sum stays at or below 2^63. *)
Definition F64 : b64 := round_ratio (2 ^ 64) 1.
Lemma F64_R : fin F64 /\ toR F64 = bpow radix2 64.
Proof. split; [vm_compute; reflexivity|]. rewrite <- SF2R_B2SF. replace (B2SF F64) with (SpecFloat.S754_finite false 4503599627370496 12) by (vm_compute; reflexivity). rewrite bpow_pos. cbn. unfold F2R. cbn. lra. Qed.
Lemma RN63 : RN (bpow radix2 63 + 720) = bpow radix2 63.
Proof.
  assert (X : toR (fadd (round_ratio (2 ^ 63) 1) F720) = bpow radix2 63).
  { rewrite <- SF2R_B2SF. replace (B2SF (fadd (round_ratio (2 ^ 63) 1) F720)) with (SpecFloat.S754_finite false 4503599627370496 11) by (vm_compute; reflexivity). rewrite bpow_pos. cbn. unfold F2R. cbn. lra. }
  assert (Y : fin (round_ratio (2 ^ 63) 1) /\ toR (round_ratio (2 ^ 63) 1) = bpow radix2 63).
  { split; [vm_compute; reflexivity|]. rewrite <- SF2R_B2SF. replace (B2SF (round_ratio (2 ^ 63) 1)) with (SpecFloat.S754_finite false 4503599627370496 11) by (vm_compute; reflexivity). rewrite bpow_pos. cbn. unfold F2R. cbn. lra. }
  destruct Y as [Y1 Y2]. destruct F720_R as [O1 O2]. destruct (fadd_R _ _ 64 Y1 O1) as [_ V]; [lia | rewrite Y2, O2, !bpow_pos; apply Rabs_le; lra|].
  rewrite Y2, O2 in V. rewrite <- V. exact X.
Qed.
Lemma never m derivs xfact t : (forall a, fin a -> 0 <= toR a <= bpow radix2 63 -> clip (machine m) (fsub t a) = (F720, false)) ->
  forall n a xni xli, fin a -> 0 <= toR a <= bpow radix2 63 -> dpsec_loop (machine m) n derivs xfact t a xni xli = None.
Proof.
  intros K n. induction n as [|n IH]; intros a xni xli Fa B; [reflexivity|].
  rewrite (dpsec_1 (machine m) n derivs xfact t a xni xli F720 false); [|apply K; assumption]. cbn zeta. change (add (machine m) a F720) with (fadd a F720).
  destruct F720_R as [O1 O2]. destruct (fadd_R a F720 64 Fa O1) as [G V]; [lia | rewrite O2; rewrite bpow_pos in *; apply Rabs_le; lra|]. fold (RN (toR a + toR F720)) in V.
  apply IH; [exact G|]. rewrite V, O2. split.
  - apply (RN_int_ge _ 0); [lia | lra].
  - rewrite <- RN63. apply RN_le. lra.
Qed.
Lemma clip_inf m a : fin a -> 0 <= toR a <= bpow radix2 63 -> clip (machine m) (fsub (B754_infinity false) a) = (F720, false).
Proof.
  intros Fa _. assert (E : fsub (B754_infinity false) a = B754_infinity false) by (destruct a; [reflexivity | discriminate Fa | discriminate Fa | reflexivity]).
  rewrite clip64, E. replace (flt F720 (B754_infinity false)) with true by (vm_compute; reflexivity). reflexivity.
Qed.
Lemma clip_64 m a : fin a -> 0 <= toR a <= bpow radix2 63 -> clip (machine m) (fsub F64 a) = (F720, false).
Proof.
  intros Fa B. destruct F64_R as [T1 T2]. destruct F720_R as [O1 O2].
  destruct (fsub_R F64 a 64 T1 Fa) as [G V]; [lia | rewrite T2, !bpow_pos in *; apply Rabs_le; lra|]. fold (RN (toR F64 - toR a)) in V.
  rewrite clip64. replace (flt F720 (fsub F64 a)) with true; [reflexivity|]. symmetry. apply flt_R; [assumption | assumption|]. rewrite V, O2.
  apply Rlt_le_trans with 721; [lra|]. apply RN_int_ge; [lia|]. rewrite T2, !bpow_pos in *. lra.
Qed.
Lemma start_fresh m g r t : flt (fabs t) (fabs (fsub t F0)) = false -> dpsec_start (machine m) g r t (fresh (machine m) g) = (F0, v_xni (machine m) (fresh (machine m) g), v_xli (machine m) (fresh (machine m) g)).
Proof.
  intros L. unfold dpsec_start. cbn [v_atime fresh]. change (int (machine m) 0) with F0. change (ltn (machine m) (c_fabs (machine m) t) (c_fabs (machine m) (sub (machine m) t F0))) with (flt (fabs t) (fabs (fsub t F0))). rewrite L. reflexivity.
Qed.
Lemma sdp_stuck A n t o g v r a x l : g_res A g = Some r -> dpsec_start A g r t v = (a, x, l) ->
  dpsec_loop A n (compute_dpsec_derivs A (g_omegaq A g) (k_omgdot A (g_com A g)) (r_coefs A r)) (r_xfact A r) t a x l = None -> SDP4_deep A n t o g v = Ok None.
Proof. intros R S L. unfold SDP4_deep, Deep_dpsec. rewrite R, S, L. reflexivity. Qed.
Lemma zero_in : fin F0 /\ 0 <= toR F0 <= bpow radix2 63.
Proof. split; [reflexivity|]. change (toR F0) with 0. split; [lra | apply bpow_ge_0]. Qed.
Lemma never_inf m n o g r : g_res (machine m) g = Some r -> SDP4_deep (machine m) n (B754_infinity false) o g (fresh (machine m) g) = Ok None.
Proof.
  intros R. destruct zero_in as [Z1 Z2]. eapply sdp_stuck; [exact R | apply start_fresh; vm_compute; reflexivity|]. apply never; [apply clip_inf | exact Z1 | exact Z2].
Qed.
Lemma never_64 m n o g r : g_res (machine m) g = Some r -> SDP4_deep (machine m) n F64 o g (fresh (machine m) g) = Ok None.
Proof.
  intros R. destruct zero_in as [Z1 Z2]. eapply sdp_stuck; [exact R | apply start_fresh; vm_compute; reflexivity|]. apply never; [apply clip_64 | exact Z1 | exact Z2].
Qed.
