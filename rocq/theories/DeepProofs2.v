(** The steps of the integrators in binary64. *)
From Coq Require Import ZArith List Reals Lra Lia Bool.
From Flocq Require Import Core IEEE754.BinarySingleNaN.
From Verif Require Import CLib FloatModel ArithModel FloatLemmas GeoLemmas OrbModel AngleProofs DeepModel DeepTerms DeepProofs1.
Import ListNotations.
Open Scope R_scope.

Definition F1 : b64 := round_ratio 1 1.
Lemma F1_R : fin F1 /\ toR F1 = 1.
Proof. split; [vm_compute; reflexivity|]. rewrite <- SF2R_B2SF. replace (B2SF F1) with (SpecFloat.S754_finite false 4503599627370496 (-52)) by (vm_compute; reflexivity). cbn. unfold F2R. cbn. lra. Qed.
Definition M1 : b64 := fopp F1.
Lemma M1_R : fin M1 /\ toR M1 = -1.
Proof. destruct F1_R as [A B]. unfold M1, fopp, fin in *. rewrite is_finite_Bopp. split; [exact A|]. rewrite (B2R_Bopp 53 1024), B. lra. Qed.

(** Going one day towards 0 is exact up to 2^53 days. *)
Lemma toward t u (s : Z) : fin t -> fin u -> (s = 1 \/ s = -1)%Z -> toR u = IZR s -> 1 <= IZR s * toR t <= IZR (2 ^ 53) -> fin (fsub t u) /\ toR (fsub t u) = toR t - IZR s.
Proof.
  intros Ft Fu Hs Hu B.
  assert (X : exists k a b, (-1074 <= k <= 900)%Z /\ fx k a (toR t) /\ fx k b (toR u) /\ (Z.abs (a - b) <= 2 ^ 53)%Z).
  { destruct t as [s0| | |s0 m e Hb]; try discriminate Ft.
    - cbn in B. lra.
    - destruct (bounded_range m e Hb) as [M E]. unfold B2R, F2R in B. cbn [Fnum Fexp] in B. set (M0 := cond_Zopp s0 (Z.pos m)) in *.
      assert (AM : (Z.abs M0 < 2 ^ 53)%Z) by (unfold M0, cond_Zopp; destruct s0; lia).
      destruct (Z_le_gt_dec e 0) as [L|G].
      + exists e, M0, (s * 2 ^ (- e))%Z. split; [lia|]. split; [reflexivity|]. split.
        * unfold fx. rewrite Hu. rewrite <- (Rmult_1_r (IZR s)). change 1 with (bpow radix2 0). rewrite (scaled s 0 e L). replace (0 - e)%Z with (- e)%Z by lia. reflexivity.
        * rewrite <- Rmult_assoc, <- mult_IZR in B.
          assert (P : (2 ^ (- e) <= s * M0)%Z).
          { apply le_IZR. apply Rmult_le_reg_r with (bpow radix2 e); [apply bpow_gt_0|]. change 2%Z with (radix_val radix2). rewrite IZR_Zpower by lia. rewrite <- bpow_plus. replace (- e + e)%Z with 0%Z by lia. cbn [bpow]. lra. }
          assert (Q : (0 < 2 ^ (- e))%Z) by (apply Z.pow_pos_nonneg; lia). destruct Hs as [-> | ->]; nia.
      + exists 0%Z, (M0 * 2 ^ e)%Z, s. split; [lia|]. split.
        * unfold fx, B2R, F2R. cbn [Fnum Fexp]. fold M0. rewrite (scaled M0 e 0) by lia. replace (e - 0)%Z with e by lia. reflexivity.
        * split; [unfold fx; rewrite Hu; cbn; ring|]. rewrite (scaled M0 e 0) in B by lia. replace (e - 0)%Z with e in B by lia. change (bpow radix2 0) with 1 in B. rewrite Rmult_1_r, <- mult_IZR in B.
          destruct B as [B1 B2]. apply le_IZR in B1, B2. destruct Hs as [-> | ->]; lia. }
  destruct X as (k & a & b & K & X1 & X2 & X3). destruct (fsub_exact t u k a b Ft Fu X1 X2 K X3) as (F & V & _). split; [exact F|]. rewrite V, Hu. reflexivity.
Qed.


Lemma feq0 t : fin t -> feq t F0 = true <-> toR t = 0.
Proof.
  intros F. unfold feq. rewrite Beqb_correct by (exact F || reflexivity). change (B2R F0) with 0. case Req_bool_spec; intros H; split; intros; auto; discriminate.
Qed.
(** |t - t| <= 0 *)
Lemma self_sub t : fin t -> fin (fsub t t) /\ toR (fsub t t) = 0.
Proof.
  intros F. destruct (fsub_R t t 0 F F) as [G V]; [lia | rewrite Rminus_diag_eq, Rabs_R0 by reflexivity; apply bpow_ge_0|].
  split; [exact G|]. rewrite V, Rminus_diag_eq by reflexivity. apply round_0. typeclasses eauto.
Qed.

Lemma high64_aux m N : forall t, fin t -> Rabs (toR t) <= INR N -> Rabs (toR t) <= IZR (2 ^ 53) ->
  exists dts, Forall (signed64 (toR t)) dts /\ sum64 dts = toR t /\ INR (length dts) < Rabs (toR t) + 1
  /\ forall n h jd s, ((length dts <= n)%nat -> high_loop (machine m) n h jd t s = Some (walk (machine m) dts h jd s))
                      /\ ((n < length dts)%nat -> high_loop (machine m) n h jd t s = None).
Proof.
  assert (Z : forall t, fin t -> toR t = 0 -> exists dts, Forall (signed64 (toR t)) dts /\ sum64 dts = toR t /\ INR (length dts) < Rabs (toR t) + 1
  /\ forall n h jd s, ((length dts <= n)%nat -> high_loop (machine m) n h jd t s = Some (walk (machine m) dts h jd s))
                      /\ ((n < length dts)%nat -> high_loop (machine m) n h jd t s = None)).
  { intros t F E. exists []. split; [constructor|]. split; [rewrite E; reflexivity|]. split; [rewrite E, Rabs_R0; cbn; lra|]. intros n h jd s. split; [|cbn; lia]. intros _.
    rewrite high_0; [reflexivity|]. exact (proj2 (feq0 t F) E). }
  destruct F1_R as [O1 O2]. destruct M1_R as [N1 N2].
  induction N as [|N IH]; intros t F B C.
  - apply Z; [exact F|]. cbn [INR] in B. unfold Rabs in B; destruct (Rcase_abs (toR t)); lra.
  - destruct (Req_dec (toR t) 0) as [E|NZ]; [apply Z; assumption|].
    set (dt := if flt F1 t then F1 else if flt t M1 then M1 else t).
    assert (E : (if ltn (machine m) (int (machine m) 1) t then int (machine m) 1 else if ltn (machine m) t (opp (machine m) (int (machine m) 1)) then opp (machine m) (int (machine m) 1) else t) = dt) by reflexivity.
    assert (EN : eqn (machine m) t (int (machine m) 0) = false).
    { change (feq t F0 = false). destruct (feq t F0) eqn:X; [|reflexivity]. apply (feq0 t F) in X. contradiction. }
    rewrite S_INR in B.
    assert (D : fin (fsub t dt) /\ toR (fsub t dt) = toR t - toR dt /\ Rabs (toR t - toR dt) <= INR N /\ Rabs (toR t - toR dt) <= IZR (2 ^ 53) /\ signed64 (toR t) dt
       /\ (0 < toR t -> 0 <= toR t - toR dt) /\ (toR t < 0 -> toR t - toR dt <= 0) /\ (toR t - toR dt = 0 \/ Rabs (toR t - toR dt) = Rabs (toR t) - 1)).
    { assert (P := pos_INR N). assert (Q : 0 <= IZR (2 ^ 53)) by (apply IZR_le; lia). unfold dt, signed64, signed. destruct (flt F1 t) eqn:L.
      - apply flt_R in L; [|assumption|assumption]. rewrite O2 in L. rewrite Rabs_pos_eq in B, C by lra.
        destruct (toward t F1 1 F O1 (or_introl eq_refl) O2) as [G V]; [lra|]. rewrite O2.
        split; [exact G|]. split; [exact V|]. rewrite (Rabs_pos_eq (toR t - 1)), (Rabs_pos_eq 1), (Rabs_pos_eq (toR t)) by lra. repeat split; try assumption; try lra.
      - apply flt_false in L; [|assumption|assumption]. rewrite O2 in L. destruct (flt t M1) eqn:L2.
        + apply flt_R in L2; [|assumption|assumption]. rewrite N2 in L2. rewrite Rabs_left in B, C by lra.
          destruct (toward t M1 (-1) F N1 (or_intror eq_refl) N2) as [G V]; [lra|]. rewrite N2.
          split; [exact G|]. split; [exact V|]. rewrite (Rabs_left (toR t - -1)), (Rabs_left (-1)), (Rabs_left (toR t)) by lra. repeat split; try assumption; try lra.
        + apply flt_false in L2; [|assumption|assumption]. rewrite N2 in L2. destruct (self_sub t F) as [G V]. replace (toR t - toR t) with 0 by ring. rewrite Rabs_R0.
          repeat split; try assumption; try lra. apply Rabs_le. lra. }
    destruct D as (G & V & D1 & D1' & D2 & D3 & D4 & D5).
    destruct (IH (fsub t dt) G) as (r & FA & SU & LB & H); [rewrite V; exact D1 | rewrite V; exact D1'|]. rewrite V in FA, SU, LB.
    exists (dt :: r). split; [|split; [|split]].
    + constructor; [exact D2|]. destruct (Req_dec (toR t - toR dt) 0) as [Y|Y].
      * assert (r = []) as ->; [|constructor]. rewrite Y, Rabs_R0 in LB. destruct r as [|r0 r']; [reflexivity|]. cbn [length] in LB. rewrite S_INR in LB. assert (P := pos_INR (length r')). lra.
      * revert FA. apply Forall_impl. intros x (X0 & X1 & X2 & X3). split; [exact X0|]. unfold signed. repeat split; [exact X1| |]; intros; [apply X2 | apply X3]; lra.
    + unfold sum64 in *. cbn [map sum fold_right]. change (fold_right Rplus 0 (map toR r)) with (sum (map toR r)). rewrite SU. ring.
    + cbn [length]. rewrite S_INR. destruct D5 as [Y|Y].
      * rewrite Y, Rabs_R0 in LB. destruct r as [|r0 r']; [|cbn [length] in LB; rewrite S_INR in LB; assert (P := pos_INR (length r')); lra]. cbn [length INR]. assert (P := Rabs_pos_lt (toR t) NZ). lra.
      * lra.
    + intros n h jd s. cbn [length]. split.
      * intros LE. destruct n as [|n]; [lia|]. rewrite (high_1 (machine m) n h jd t s dt EN E), walk_1. change (sub (machine m) t dt) with (fsub t dt). apply H. lia.
      * intros LE. destruct n as [|n]; [apply high_none, EN|]. rewrite (high_1 (machine m) n h jd t s dt EN E). change (sub (machine m) t dt) with (fsub t dt). apply H. lia.
Qed.
Lemma high64 m t : fin t -> Rabs (toR t) <= IZR (2 ^ 53) ->
  exists dts, Forall (signed64 (toR t)) dts /\ sum64 dts = toR t /\ INR (length dts) < Rabs (toR t) + 1
  /\ forall n h jd s, ((length dts <= n)%nat -> high_loop (machine m) n h jd t s = Some (walk (machine m) dts h jd s))
                      /\ ((n < length dts)%nat -> high_loop (machine m) n h jd t s = None).
Proof.
  intros F B. apply (high64_aux m (Z.to_nat (up (Rabs (toR t)))) t F); [|exact B].
  destruct (archimed (Rabs (toR t))) as [U _]. assert (P := Rabs_pos (toR t)). rewrite INR_IZR_INZ, Z2Nat.id; [lra|]. apply le_IZR. lra.
Qed.

(** A time that a step does not change is never left. *)
Lemma stuck A t dt : eqn A t (int A 0) = false ->
  (if ltn A (int A 1) t then int A 1 else if ltn A t (opp A (int A 1)) then opp A (int A 1) else t) = dt -> sub A t dt = t ->
  forall n h jd s, high_loop A n h jd t s = None.
Proof.
  intros E D S n. induction n as [|n IH]; intros h jd s; [apply high_none, E|]. rewrite (high_1 A n h jd t s dt E D), S. apply IH.
Qed.
Definition big : b64 := round_ratio (2 ^ 54) 1.
Lemma stuck_nan m n h jd s : high_loop (machine m) n h jd B754_nan s = None.
Proof. apply (stuck (machine m) B754_nan B754_nan); reflexivity. Qed.
Lemma stuck_inf m n h jd s : high_loop (machine m) n h jd (B754_infinity false) s = None.
Proof. apply (stuck (machine m) (B754_infinity false) F1); [reflexivity | reflexivity|]. change (fsub (B754_infinity false) F1 = B754_infinity false). apply b64_eq. vm_compute. reflexivity. Qed.
Lemma stuck_big m n h jd s : high_loop (machine m) n h jd big s = None.
Proof.
  assert (L : flt F1 big = true) by (vm_compute; reflexivity).
  apply (stuck (machine m) big F1).
  - change (feq big F0 = false). vm_compute. reflexivity.
  - change ((if flt F1 big then F1 else if flt big M1 then M1 else big) = F1). rewrite L. reflexivity.
  - change (fsub big F1 = big). apply b64_eq. vm_compute. reflexivity.
Qed.
