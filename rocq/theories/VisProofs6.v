(** Times of the samples as real numbers; the duration. *)
From Coq Require Import String Ascii ZArith List Bool Lia Reals Lra.
From Flocq Require Import Core IEEE754.BinarySingleNaN.
From Verif Require Import CLib FloatModel FloatLemmas CalendarModel CalendarProofs2 CalendarProofs3 CalendarProofs5 CalendarProofs6 TleModel IoModel SkymapModel CliModel CliProofs2 VisCliModel VisModel VisSpec VisProofs1 VisProofs2 VisProofs3 VisProofs4 VisProofs5.
Import ListNotations.
Open Scope R_scope.

Section Times.
Context (E : Z) (HE : (15 <= E <= 30)%Z) (p : vparams) (Hd : (1 <= v_delta_time p <= 2147483647)%Z).
Context (t0 last : b64) (F0 : fin t0) (Fl : fin last) (B0 : Rabs (toR t0) <= bpow radix2 E) (Bl : Rabs (toR last) <= bpow radix2 E).
Let s := vstep p.
Let u := bpow radix2 (E - 53).

Lemma ticks_up : forall n, (forall i, (i < n)%nat -> fle (ticks s t0 i) last = true) ->
  forall i, (i <= n)%nat -> fin (ticks s t0 i) /\ Rabs (toR (ticks s t0 i) - (toR t0 + INR i * toR s)) <= INR i * u /\ toR t0 <= toR (ticks s t0 i) /\
    ((i < n)%nat -> Rabs (toR (ticks s t0 i)) <= bpow radix2 E) /\ Rabs (toR (ticks s t0 i)) <= bpow radix2 (E + 1).
Proof.
  intros n H. destruct (step_pos p Hd) as (Fs & _ & Bs). fold s in Fs, Bs. pose proof (slack E HE) as Sl. fold u in Sl. pose proof (bpow_ge_0 radix2 (E - 53)) as Pz. fold u in Pz.
  assert (Up: bpow radix2 E <= bpow radix2 (E + 1)) by (apply bpow_le; lia).
  induction i as [|i IH]; intro Hi.
  - cbn [ticks INR]. split; [exact F0|]. split; [apply Rabs_le; lra|]. split; [lra|]. split; [intros _; exact B0|lra].
  - destruct (IH ltac:(lia)) as (Fi & Di & Li & Bi & _). specialize (Bi ltac:(lia)). cbn [ticks]. rewrite S_INR.
    destruct (tick_on E (ticks s t0 i) s HE Fi Fs Bi ltac:(lra)) as (F & D & B). fold u in D. apply Rabs_le_inv in D, Di.
    split; [exact F|]. split; [apply Rabs_le; lra|]. split; [lra|]. split; [|exact B]. intro Hn. specialize (H (S i) Hn). cbn [ticks] in H. apply fle_R in H; [|assumption..]. apply Rabs_le_inv in B0, Bl. apply Rabs_le. lra.
Qed.

(** The number of samples. *)
Lemma count : forall l, timed s t0 l -> Forall (fun m => fle (m_t m) last = true) l -> l <> [] -> (INR (length l) - 1) * (toR s - u) <= toR last - toR t0.
Proof.
  intros l T H Ne. assert (K: forall i, (i < length l)%nat -> fle (ticks s t0 i) last = true).
  { intros i Hi. destruct (nth_error l i) as [m|] eqn:Em; [|apply nth_error_None in Em; lia]. rewrite <- (T i m Em). rewrite Forall_forall in H. apply H. exact (nth_error_In _ _ Em). }
  assert (Ln: (0 < length l)%nat) by (destruct l; [congruence|cbn; lia]).
  destruct (ticks_up _ K (length l - 1)%nat ltac:(lia)) as (F & D & _). specialize (K (length l - 1)%nat ltac:(lia)). apply fle_R in K; [|assumption..]. rewrite minus_INR in D by lia. change (INR 1) with 1 in D. apply Rabs_le_inv in D. lra.
Qed.
End Times.

(** ** The first sample *)
Lemma first_at : forall E e fuel p t0, (15 <= E <= 30)%Z -> bnd E (range_begin p) -> bnd E (range_end p) -> first_sample e fuel p t0 ->
  fin t0 /\ toR (range_begin p) <= toR t0 /\ (Rabs (toR t0) <= bpow radix2 E \/ toR (range_end p) < toR t0).
Proof.
  intros E e fuel p t0 HE (F0 & B0) (F1 & B1) H. unfold first_sample in H. destruct (v_skip p).
  - destruct minute_R as (Fs & Bs). rewrite bpow_neg in Bs. apply Rabs_le_inv in Bs. assert (Bs': 0 <= toR (lit 6456360425798343 9223372036854775808) <= 1). { change (IZR (2 ^ 62)) with 4611686018427387904 in Bs. lra. } clear Bs. pose proof (slack E HE) as Sl. pose proof (bpow_ge_0 radix2 (E - 53)) as Pz.
    assert (Bs: 6999 / 10000000 <= toR (lit 6456360425798343 9223372036854775808)). { destruct minute_R as (_ & M). rewrite bpow_neg in M. apply Rabs_le_inv in M. change (IZR (2 ^ 62)) with 4611686018427387904 in M. lra. }
    set (s := lit _ _) in *.
    revert H. generalize F0, B0. generalize (range_begin p). induction fuel as [|f IH]; intros t Ft Bt H; cbn [daytime] in H; destruct (flt (l_sun_alt (n_lib e) t) (of_int 0) || flt (range_end p) t) eqn:El.
    + apply ok_eq in H. subst t0. split; [exact Ft|]. split; [lra|left; exact Bt].
    + discriminate.
    + apply ok_eq in H. subst t0. split; [exact Ft|]. split; [lra|left; exact Bt].
    + apply orb_false_elim in El. destruct El as (_ & El). apply flt_false in El; [|assumption..]. fold s in H.
      destruct (tick_on E t s HE Ft Fs Bt ltac:(lra)) as (F' & D & B'). apply Rabs_le_inv in D.
      destruct (Rlt_or_le (toR (range_end p)) (toR (fadd t s))) as [K|K].
      * assert (t0 = fadd t s). { assert (X: flt (range_end p) (fadd t s) = true) by (apply flt_R; assumption). destruct f; cbn [daytime] in H; rewrite X, orb_true_r in H; apply ok_eq in H; congruence. }
        subst t0. split; [exact F'|]. split; [lra|right; exact K].
      * assert (Ba: Rabs (toR (fadd t s)) <= bpow radix2 E). { apply Rabs_le_inv in Bt, B1. apply Rabs_le. lra. }
        destruct (IH (fadd t s) F' Ba H) as (A1 & A2 & A3). split; [exact A1|]. split; [lra|exact A3].
  - subst t0. split; [exact F0|]. split; [lra|left; exact B0].
Qed.

(** ** Duration *)
Lemma jdoff_fin : fin JD_OFF. Proof. exact (proj1 lit_JD). Qed.
Lemma less_jd : forall E x, (22 <= E <= 40)%Z -> bnd E x -> bnd (E + 1) (fsub x JD_OFF) /\ Rabs (toR (fsub x JD_OFF) - (toR x - 2400000.5)) <= bpow radix2 (E - 53).
Proof.
  intros E x HE (F & B). split; [apply bnd_sub; [lia|split; assumption|apply (bnd_le 22); [lia|exact jdoff_bnd]]|].
  assert (K: Rabs (toR x - toR JD_OFF) <= bpow radix2 (E + 1)).
  { rewrite bpow_plus. change (bpow radix2 1) with 2. rewrite JD_OFF_val. assert (4194304 <= bpow radix2 E) by (change 4194304 with (bpow radix2 22); apply bpow_le; lia). apply Rabs_le_inv in B. apply Rabs_le. lra. }
  destruct (fsub_R x JD_OFF (E + 1) F jdoff_fin ltac:(lia) K) as (_ & V). rewrite V. pose proof (RN_err _ (E + 1) ltac:(lia) K) as X. rewrite JD_OFF_val in X at 2. rewrite JD_OFF_val in *.
  replace (E - 53)%Z with (E + 1 - 54)%Z by lia. exact X.
Qed.
Lemma sub_err : forall E x y, (-100 <= E <= 900)%Z -> bnd E x -> bnd E y -> bnd (E + 1) (fsub x y) /\ Rabs (toR (fsub x y) - (toR x - toR y)) <= bpow radix2 (E - 53).
Proof.
  intros E x y HE (Fx & Bx) (Fy & By). split; [apply bnd_sub; [lia|split; assumption..]|].
  assert (K: Rabs (toR x - toR y) <= bpow radix2 (E + 1)). { rewrite bpow_plus. change (bpow radix2 1) with 2. apply Rabs_le_inv in Bx, By. apply Rabs_le. lra. }
  destruct (fsub_R x y (E + 1) Fx Fy ltac:(lia) K) as (_ & V). rewrite V. replace (E - 53)%Z with (E + 1 - 54)%Z by lia. apply RN_err; [lia|exact K].
Qed.
Lemma minutes_R : forall x e, (-30 <= e <= 60)%Z -> bnd e x -> fin (fmul (widen (narrow x)) (of_int 1440)) /\ Rabs (toR (fmul (widen (narrow x)) (of_int 1440)) - 1440 * toR x) <= 1440 * bpow radix2 (e - 24).
Proof.
  intros x e He (F & B). destruct (narrow_R x e F ltac:(lia) B) as (Fn & En). destruct (widen_R _ Fn) as (Fw & Ew). pose proof (RN32_err _ e ltac:(lia) B) as X. rewrite <- En, <- Ew in X.
  set (y := widen (narrow x)) in *. assert (By: Rabs (toR y) <= bpow radix2 (e + 1)).
  { rewrite bpow_plus. change (bpow radix2 1) with 2. assert (bpow radix2 (e - 25) <= bpow radix2 e) by (apply bpow_le; lia). apply Rabs_le_inv in B, X. apply Rabs_le. lra. }
  destruct (of_int_R 1440 ltac:(lia)) as (F1 & V1). assert (K: Rabs (toR y * toR (of_int 1440)) <= bpow radix2 (e + 12)).
  { rewrite V1, Rabs_mult, (Rabs_pos_eq 1440) by lra. replace (e + 12)%Z with (e + 1 + 11)%Z by lia. rewrite bpow_plus. change (bpow radix2 11) with 2048. pose proof (Rabs_pos (toR y)). nra. }
  destruct (fmul_R y (of_int 1440) (e + 12) Fw F1 ltac:(lia) K) as (Fm & Vm). split; [exact Fm|]. rewrite Vm. pose proof (RN_err _ (e + 12) ltac:(lia) K) as Y. rewrite V1 in *.
  replace (e + 12 - 54)%Z with (e - 25 + -17)%Z in Y by lia. rewrite bpow_plus in Y. change (bpow radix2 (-17)) with (/ 131072) in Y.
  replace (e - 24)%Z with (e - 25 + 1)%Z by lia. rewrite bpow_plus. change (bpow radix2 1) with 2. pose proof (bpow_ge_0 radix2 (e - 25)). apply Rabs_le_inv in X, Y. apply Rabs_le. lra.
Qed.

Section Duration.
Context (E : Z) (HE : (22 <= E <= 30)%Z) (p : vparams) (Hd : (1 <= v_delta_time p <= 2147483647)%Z).
Context (t0 last : b64) (F0 : fin t0) (Fl : fin last) (B0 : Rabs (toR t0) <= bpow radix2 E) (Bl : Rabs (toR last) <= bpow radix2 E).
Let s := vstep p.
Lemma span : forall l idle lit en first final e, timed s t0 l -> Forall (fun m => fle (m_t m) last = true) l ->
  l = idle ++ lit ++ last_ones en -> nth_error l (length idle) = Some first -> nth_error lit (length lit - 1) = Some final ->
  (-17 <= e <= 31)%Z -> toR (m_t final) - toR (m_t first) + toR s <= bpow radix2 e ->
  toR (m_t first) <= toR (m_t final) /\
  let d := duration (begin_clock s t0 (length idle)) (end_clock s t0 (length l) en) in
  fin d /\ Rabs (toR d - 1440 * (toR (m_t final) - toR (m_t first) + extra_steps en * toR s)) <= 1440 * (bpow radix2 (E - 48) + bpow radix2 (e - 23)).
Proof.
  intros l idle lit en first final e T H Sp Hf Hl He Hb. destruct (step_pos p Hd) as (Fs & _ & Bs). fold s in Fs, Bs. pose proof (slack E ltac:(lia)) as Sl.
  assert (K: forall i, (i < length l)%nat -> fle (ticks s t0 i) last = true).
  { intros i Hi. destruct (nth_error l i) as [m|] eqn:Em; [|apply nth_error_None in Em; lia]. rewrite <- (T i m Em). rewrite Forall_forall in H. apply H. exact (nth_error_In _ _ Em). }
  assert (Ln: (0 < length lit)%nat) by (destruct lit; [discriminate Hl|cbn; lia]).
  set (i := length idle) in *. set (j := (i + (length lit - 1))%nat).
  assert (Lj: (j < length l)%nat) by (subst l j; rewrite !app_length; fold i; lia).
  assert (Hj: nth_error l j = Some final). { subst l j. unfold i. rewrite nth_error_app2 by lia. replace (length idle + (length lit - 1) - length idle)%nat with (length lit - 1)%nat by lia. rewrite nth_error_app1 by lia. exact Hl. }
  rewrite (T _ _ Hf), (T _ _ Hj) in *.
  pose proof (fun k Hk => ticks_up E ltac:(lia) p Hd t0 last F0 Fl B0 Bl (length l) K k Hk) as TU. fold s in TU.
  destruct (TU i ltac:(subst j; lia)) as (Fi & Di & _ & Bi & _). specialize (Bi ltac:(subst j; lia)).
  destruct (TU j ltac:(lia)) as (Fj & Dj & _ & Bj & _). specialize (Bj ltac:(lia)).
  assert (Mono: forall k, (i + k <= j)%nat -> toR (ticks s t0 i) <= toR (ticks s t0 (i + k))).
  { induction k as [|k IH]; intro Hk; [rewrite Nat.add_0_r; lra|]. rewrite Nat.add_succ_r. cbn [ticks]. destruct (TU (i + k)%nat ltac:(lia)) as (Fk & _ & _ & Bk & _). specialize (Bk ltac:(lia)).
    destruct (tick_on E (ticks s t0 (i + k)) s ltac:(lia) Fk Fs Bk ltac:(lra)) as (_ & D & _). apply Rabs_le_inv in D. specialize (IH ltac:(lia)). lra. }
  split. { specialize (Mono (length lit - 1)%nat ltac:(subst j; lia)). exact Mono. }
  cbv zeta. unfold duration.
  destruct (TU (S i) ltac:(subst j; lia)) as (Fi1 & _ & _ & _ & Bi1). destruct (TU (length l) ltac:(lia)) as (Fn & _ & _ & _ & Bn).
  destruct (tick_on E (ticks s t0 i) s ltac:(lia) Fi Fs Bi ltac:(lra)) as (_ & D1 & _).
  unfold begin_clock. set (u := bpow radix2 (E - 53)) in *. assert (U: forall k, (0 <= k)%Z -> bpow radix2 (E - 53 + k) = IZR (2 ^ k) * u). { intros k Hk. rewrite bpow_plus. rewrite <- (IZR_Zpower radix2 k Hk). unfold u. change (radix_val radix2) with 2%Z. ring. }
  assert (Pu: 0 <= u) by apply bpow_ge_0.
  destruct (less_jd (E + 1) (ticks s t0 (S i)) ltac:(lia) (conj Fi1 Bi1)) as (Bb & Db). replace (E + 1 - 53)%Z with (E - 53 + 1)%Z in Db by lia. rewrite U in Db by lia.
  set (b := fsub (ticks s t0 (S i)) JD_OFF) in *. cbn [ticks] in Db.
  assert (Z: exists z, end_clock s t0 (length l) en = z /\ bnd (E + 3) z /\ Rabs (toR z - (toR (ticks s t0 j) + (1 + extra_steps en) * toR s - 2400000.5)) <= 8 * u).
  { assert (Bsm: bnd (E + 1) s). { split; [exact Fs|]. apply (Rle_trans _ (bpow radix2 15)); [change (bpow radix2 15) with 32768; rewrite Rabs_pos_eq by lra; lra|apply bpow_le; lia]. }
    destruct (tick_on E (ticks s t0 j) s ltac:(lia) Fj Fs Bj ltac:(lra)) as (_ & D2 & _).
    destruct en as [m|m|]; cbn [last_ones extra_steps end_clock] in *.
    - assert (Nn: length l = S (S j)) by (subst l j; rewrite !app_length; cbn [length]; fold i; lia). rewrite Nn in *. eexists. split; [reflexivity|].
      destruct (TU (S j) ltac:(lia)) as (Fj1 & _ & _ & Bj1 & _). specialize (Bj1 ltac:(lia)). destruct (tick_on E (ticks s t0 (S j)) s ltac:(lia) Fj1 Fs Bj1 ltac:(lra)) as (_ & D3 & _).
      destruct (less_jd (E + 1) (ticks s t0 (S (S j))) ltac:(lia) (conj Fn Bn)) as (Bz & Dz). split; [apply (bnd_le (E + 1 + 1)); [lia|exact Bz]|]. replace (E + 1 - 53)%Z with (E - 53 + 1)%Z in Dz by lia. rewrite U in Dz by lia. change (IZR (2 ^ 1)) with 2 in Dz.
      cbn [ticks] in D2, D3, Dz |- *. fold u in D2, D3. apply Rabs_le_inv in D2, D3, Dz. apply Rabs_le. lra.
    - assert (Nn: length l = S (S j)) by (subst l j; rewrite !app_length; cbn [length]; fold i; lia). rewrite Nn in *. eexists. split; [reflexivity|].
      destruct (TU (S j) ltac:(lia)) as (Fj1 & _ & _ & Bj1 & _). specialize (Bj1 ltac:(lia)). destruct (tick_on E (ticks s t0 (S j)) s ltac:(lia) Fj1 Fs Bj1 ltac:(lra)) as (_ & D3 & _).
      destruct (sub_err (E + 1) (ticks s t0 (S (S j))) s ltac:(lia) (conj Fn Bn) Bsm) as (By & Dy).
      destruct (less_jd (E + 1 + 1) _ ltac:(lia) By) as (Bz & Dz). split; [apply (bnd_le (E + 1 + 1 + 1)); [lia|exact Bz]|]. replace (E + 1 - 53)%Z with (E - 53 + 1)%Z in Dy by lia. replace (E + 1 + 1 - 53)%Z with (E - 53 + 2)%Z in Dz by lia. rewrite U in Dy, Dz by lia. change (IZR (2 ^ 1)) with 2 in Dy. change (IZR (2 ^ 2)) with 4 in Dz.
      cbn [ticks] in D2, D3, Dy, Dz |- *. fold u in D2, D3. apply Rabs_le_inv in D2, D3, Dy, Dz. apply Rabs_le. lra.
    - assert (Nn: length l = S j) by (subst l j; rewrite !app_length; cbn [length]; fold i; lia). rewrite Nn in *. eexists. split; [reflexivity|].
      destruct (sub_err (E + 1) (ticks s t0 (S j)) s ltac:(lia) (conj Fn Bn) Bsm) as (By & Dy).
      destruct (less_jd (E + 1 + 1) _ ltac:(lia) By) as (Bz & Dz). split; [apply (bnd_le (E + 1 + 1 + 1)); [lia|exact Bz]|]. replace (E + 1 - 53)%Z with (E - 53 + 1)%Z in Dy by lia. replace (E + 1 + 1 - 53)%Z with (E - 53 + 2)%Z in Dz by lia. rewrite U in Dy, Dz by lia. change (IZR (2 ^ 1)) with 2 in Dy. change (IZR (2 ^ 2)) with 4 in Dz.
      cbn [ticks] in D2, Dy, Dz |- *. fold u in D2. apply Rabs_le_inv in D2, Dy, Dz. apply Rabs_le. lra. }
  destruct Z as (z & -> & Bz & Dz).
  destruct (sub_err (E + 3) z b ltac:(lia) Bz (bnd_le (E + 1 + 1) (E + 3) b ltac:(lia) Bb)) as ((Fd & _) & Dd). replace (E + 3 - 53)%Z with (E - 53 + 3)%Z in Dd by lia. rewrite U in Dd by lia. change (IZR (2 ^ 3)) with 8 in Dd. change (IZR (2 ^ 1)) with 2 in Db. fold u in D1.
  assert (Dt: Rabs (toR (fsub z b) - (toR (ticks s t0 j) - toR (ticks s t0 i) + extra_steps en * toR s)) <= 19 * u). { apply Rabs_le_inv in D1, Db, Dz, Dd. apply Rabs_le. lra. }
  replace (E - 48)%Z with (E - 53 + 5)%Z by lia. rewrite U by lia. change (IZR (2 ^ 5)) with 32.
  assert (Ue: 19 * u <= bpow radix2 e). { assert (A: 32 * u <= bpow radix2 (-17)). { change 32 with (IZR (2 ^ 5)). rewrite <- U by lia. apply bpow_le. lia. } assert (bpow radix2 (-17) <= bpow radix2 e) by (apply bpow_le; lia). lra. }
  assert (Bd: bnd (e + 1) (fsub z b)). { split; [exact Fd|]. rewrite bpow_plus. change (bpow radix2 1) with 2. specialize (Mono (length lit - 1)%nat ltac:(subst j; lia)). fold j in Mono. assert (-1 <= extra_steps en <= 1) by (destruct en; cbn; lra). assert (- toR s <= extra_steps en * toR s <= toR s) by nra. apply Rabs_le_inv in Dt. apply Rabs_le. lra. }
  destruct (minutes_R _ (e + 1) ltac:(lia) Bd) as (Ff & Df). split; [exact Ff|]. replace (e + 1 - 24)%Z with (e - 23)%Z in Df by lia. apply Rabs_le_inv in Dt, Df. apply Rabs_le. lra.
Qed.
End Duration.
