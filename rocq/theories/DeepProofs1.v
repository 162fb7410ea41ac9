(** The cache of sdp4.c and the steps of its integrator. *)
From Coq Require Import ZArith List Reals Lra Lia Bool.
From Flocq Require Import Core IEEE754.BinarySingleNaN.
From Verif Require Import CLib FloatModel ArithModel FloatLemmas GeoLemmas OrbModel AngleProofs DeepModel DeepTerms.
Import ListNotations.
Open Scope R_scope.

(** ** The cache *)
Section Cache.
Context (A : arith).
Lemma cached_new h jd : eqn A (h_jd A h) jd = false ->
  snd (cached_lunar_solar_position A h jd) = lunar_solar_position A jd
  /\ fst (cached_lunar_solar_position A h jd) = mk_cache A jd (fst (lunar_solar_position A jd)) (snd (lunar_solar_position A jd)).
Proof. intros E. unfold cached_lunar_solar_position. rewrite E. cbn [negb]. destruct (lunar_solar_position A jd). split; reflexivity. Qed.
Lemma cached_old h jd : eqn A (h_jd A h) jd = true ->
  cached_lunar_solar_position A h jd = (h, (h_lunar A h, h_solar A h)).
Proof. intros E. unfold cached_lunar_solar_position. rewrite E. reflexivity. Qed.
(** The cache is the initial one, or holds the positions for its date. *)
Definition sound (h : cache A) : Prop := (h_lunar A h, h_solar A h) = lunar_solar_position A (h_jd A h).
Lemma cached_sound h jd : sound h -> sound (fst (cached_lunar_solar_position A h jd)).
Proof.
  intros S. destruct (eqn A (h_jd A h) jd) eqn:E.
  - rewrite (cached_old h jd E). exact S.
  - destruct (cached_new h jd E) as [_ ->]. unfold sound. cbn [h_lunar h_solar h_jd]. destruct (lunar_solar_position A jd). reflexivity.
Qed.
Lemma new_sound h jd : eqn A (h_jd A h) jd = false -> sound (fst (cached_lunar_solar_position A h jd)).
Proof. intros E. destruct (cached_new h jd E) as [_ ->]. unfold sound. cbn [h_lunar h_solar h_jd]. destruct (lunar_solar_position A jd). reflexivity. Qed.
(** What the proof needs of the comparison: it holds only between dates that have the same positions. *)
Context (eqn_same : forall x y, eqn A x y = true -> lunar_solar_position A x = lunar_solar_position A y).
Lemma sound_right h jd : sound h -> snd (cached_lunar_solar_position A h jd) = lunar_solar_position A jd.
Proof.
  intros S. destruct (eqn A (h_jd A h) jd) eqn:E.
  - rewrite (cached_old h jd E). cbn [snd]. rewrite <- (eqn_same _ _ E). exact S.
  - apply (cached_new h jd E).
Qed.
Lemma after_snoc js x : after_dates A (js ++ [x]) = fst (cached_lunar_solar_position A (after_dates A js) x).
Proof. unfold after_dates. rewrite fold_left_app. reflexivity. Qed.
Lemma after_cases js : (sound (after_dates A js)) \/ ((forall j, In j js -> eqn A (int A 0) j = true) /\ after_dates A js = cache0 A).
Proof.
  induction js as [|x js IH] using rev_ind; [right; split; [intros j []|reflexivity]|]. rewrite after_snoc.
  destruct IH as [S|[Z E]]; [left; apply cached_sound, S|]. destruct (eqn A (int A 0) x) eqn:X.
  - right. rewrite E, (cached_old (cache0 A) x X). split; [|reflexivity]. intros j I. apply in_app_or in I. destruct I as [I|[<-|[]]]; auto.
  - left. rewrite E. apply new_sound. exact X.
Qed.
Lemma transparent js jd : (exists j, In j (jd :: js) /\ eqn A (int A 0) j = false) ->
  snd (cached_lunar_solar_position A (after_dates A js) jd) = lunar_solar_position A jd.
Proof.
  intros (j & I & N). destruct (after_cases js) as [S|[Z E]]; [apply sound_right, S|]. rewrite E.
  destruct I as [<-|I]; [apply (cached_new (cache0 A) jd), N|]. rewrite (Z j I) in N. discriminate.
Qed.
End Cache.

Lemma int_ideal z : int ideal z = IZR z.
Proof. unfold int. cbn. field. Qed.

Lemma cache_ideal js jd : (exists j, In j (jd :: js) /\ j <> 0) ->
  snd (cached_lunar_solar_position ideal (after_dates ideal js) jd) = lunar_solar_position ideal jd.
Proof.
  intros (j & I & N). apply transparent.
  - intros x y E. apply Reqb_t in E. now subst.
  - exists j. split; [exact I|]. rewrite int_ideal. apply Reqb_f. auto.
Qed.

Lemma feq_cases x y : feq x y = true -> x = y \/ (exists s t, x = B754_zero s /\ y = B754_zero t).
Proof.
  intros H. destruct (is_finite x) eqn:Fx; destruct (is_finite y) eqn:Fy.
  - unfold feq in H. rewrite Beqb_correct in H by assumption. revert H. case Req_bool_spec; [intros H _|discriminate].
    destruct x as [sx| | |sx mx ex bx]; try discriminate Fx.
    + destruct y as [sy| | |sy my ey by_]; try discriminate Fy.
      * right. eauto.
      * cbn in H. symmetry in H. apply eq_0_F2R in H. destruct sy; discriminate H.
    + destruct y as [sy| | |sy my ey by_]; try discriminate Fy.
      * cbn in H. apply eq_0_F2R in H. destruct sx; discriminate H.
      * left. apply B2R_inj; [reflexivity | reflexivity | exact H].
  - destruct y as [ |[]| | ]; destruct x as [ |[]| |[]]; discriminate.
  - destruct x as [ |[]| | ]; destruct y as [ |[]| |[]]; discriminate.
  - destruct x as [ |[]| | ]; destruct y as [ |[]| | ]; try discriminate; left; reflexivity.
Qed.
Lemma from_zero A x y : sub A x (int A 2451545) = sub A y (int A 2451545) -> lunar_solar_position A x = lunar_solar_position A y.
Proof. intros H. unfold lunar_solar_position. rewrite H. reflexivity. Qed.
Lemma cache64 m js jd : (exists j, In j (jd :: js) /\ feq (round_ratio 0 1) j = false) ->
  snd (cached_lunar_solar_position (machine m) (after_dates (machine m) js) jd) = lunar_solar_position (machine m) jd.
Proof.
  intros H. apply transparent; [|exact H]. intros x y E. destruct (feq_cases x y E) as [->|(s & t & -> & ->)]; [reflexivity|].
  apply from_zero. change (fsub (B754_zero s) (round_ratio 2451545 1) = fsub (B754_zero t) (round_ratio 2451545 1)).
  apply b64_eq. destruct s, t; vm_compute; reflexivity.
Qed.
(** The Sun is not at the origin. *)
Lemma sun_far jd : 140000000000 < snd (snd (lunar_solar_position ideal jd)).
Proof.
  unfold lunar_solar_position. cbn [snd]. change (num ideal) with R. cbn [ideal mul sub add cst c_cos]. rewrite int_ideal.
  match goal with |- context [cos ?x] => assert (B := COS_bound x); set (c := cos x) in * end. lra.
Qed.
Lemma cache_first : snd (cached_lunar_solar_position ideal (after_dates ideal []) 0) = ((0, 0, 0, 0), (0, 0, 0, 0))
  /\ lunar_solar_position ideal 0 <> ((0, 0, 0, 0), (0, 0, 0, 0)).
Proof.
  split.
  - unfold after_dates. cbn [fold_left]. rewrite cached_old.
    + unfold cache0. cbn [snd h_lunar h_solar]. rewrite !int_ideal. reflexivity.
    + unfold cache0. cbn [h_jd]. rewrite int_ideal. apply Reqb_t. reflexivity.
  - intros E. assert (H := sun_far 0). rewrite E in H. cbn [snd] in H. lra.
Qed.

(** ** The steps of the integrator *)
Section Steps.
Context (A : arith).
Lemma high_0 n h jd t s : eqn A t (int A 0) = true -> high_loop A n h jd t s = Some (h, s).
Proof. intros E. destruct n; cbn [high_loop]; rewrite E; reflexivity. Qed.
Lemma high_none h jd t s : eqn A t (int A 0) = false -> high_loop A 0 h jd t s = None.
Proof. intros E. cbn [high_loop]. rewrite E. reflexivity. Qed.
Lemma high_1 n h jd t s dt : eqn A t (int A 0) = false ->
  (if ltn A (int A 1) t then int A 1 else if ltn A t (opp A (int A 1)) then opp A (int A 1) else t) = dt ->
  high_loop A (S n) h jd t s = high_loop A n (fst (high_step A h jd dt s)) (add A jd dt) (sub A t dt) (snd (high_step A h jd dt s)).
Proof. intros E <-. cbn [high_loop]. rewrite E. destruct (high_step A h jd _ s). reflexivity. Qed.
Lemma walk_1 dt r h jd s : walk A (dt :: r) h jd s = walk A r (fst (high_step A h jd dt s)) (add A jd dt) (snd (high_step A h jd dt s)).
Proof. cbn [walk]. destruct (high_step A h jd dt s). reflexivity. Qed.
End Steps.


Lemma high_ideal_aux N : forall t, Rabs t <= INR N -> exists dts, Forall (signed t) dts /\ sum dts = t /\ (length dts <= N)%nat /\ INR (length dts) < Rabs t + 1
  /\ forall n h jd s, ((length dts <= n)%nat -> high_loop ideal n h jd t s = Some (walk ideal dts h jd s)) /\ ((n < length dts)%nat -> high_loop ideal n h jd t s = None).
Proof.
  induction N as [|N IH]; intros t B.
  - cbn [INR] in B. assert (t = 0) by (unfold Rabs in B; destruct (Rcase_abs t); lra). subst t. exists []. split; [constructor|]. split; [reflexivity|]. split; [cbn; lia|].
    split; [cbn; rewrite Rabs_R0; lra|]. intros n h jd s. split; [|cbn; lia]. intros _. rewrite high_0; [reflexivity|]. rewrite int_ideal. apply Reqb_t. reflexivity.
  - destruct (Req_dec t 0) as [->|NZ].
    { exists []. split; [constructor|]. split; [reflexivity|]. split; [cbn; lia|]. split; [cbn; rewrite Rabs_R0; lra|]. intros n h jd s. split; [|cbn; lia]. intros _. rewrite high_0; [reflexivity|]. rewrite int_ideal. apply Reqb_t. reflexivity. }
    set (dt := if Rltb 1 t then 1 else if Rltb t (- (1)) then - (1) else t).
    assert (E : (if ltn ideal (int ideal 1) t then int ideal 1 else if ltn ideal t (opp ideal (int ideal 1)) then opp ideal (int ideal 1) else t) = dt).
    { rewrite int_ideal. reflexivity. }
    assert (EN : eqn ideal t (int ideal 0) = false) by (rewrite int_ideal; apply Reqb_f; exact NZ).
    rewrite S_INR in B.
    assert (D : Rabs (t - dt) <= INR N /\ signed t dt /\ (0 < t -> 0 <= t - dt) /\ (t < 0 -> t - dt <= 0) /\ (t - dt = 0 \/ Rabs (t - dt) = Rabs t - 1)).
    { assert (P := pos_INR N). unfold dt, signed. destruct (Rltb 1 t) eqn:L.
      - apply Rltb_t in L. rewrite Rabs_pos_eq in B by lra. rewrite (Rabs_pos_eq (t - 1)), (Rabs_pos_eq 1), (Rabs_pos_eq t) by lra. repeat split; try lra.
      - apply Rltb_f in L. destruct (Rltb t (- (1))) eqn:L2.
        + apply Rltb_t in L2. rewrite Rabs_left in B by lra. rewrite (Rabs_left (t - - (1))), (Rabs_left (- (1))), (Rabs_left t) by lra. repeat split; try lra.
        + apply Rltb_f in L2. replace (t - t) with 0 by ring. rewrite Rabs_R0. repeat split; try lra. apply Rabs_le. lra. }
    destruct D as (D1 & D2 & D3 & D4 & D5). destruct (IH (t - dt) D1) as (r & F & S & L & LB & H).
    exists (dt :: r). split; [|split; [|split; [|split]]].
    + constructor; [exact D2|]. destruct (Req_dec (t - dt) 0) as [Z|Z].
      * assert (r = []) as ->; [|constructor]. rewrite Z, Rabs_R0 in LB. destruct r as [|r0 r']; [reflexivity|]. cbn [length] in LB. rewrite S_INR in LB. assert (P := pos_INR (length r')). lra.
      * revert F. apply Forall_impl. intros x (X1 & X2 & X3). unfold signed. repeat split; [exact X1| |]; intros; [apply X2 | apply X3]; try (assert (t - dt <> 0) by exact Z; lra).
    + cbn [sum fold_right]. change (fold_right Rplus 0 r) with (sum r). rewrite S. ring.
    + cbn [length]. lia.
    + cbn [length]. rewrite S_INR. destruct D5 as [Z|Z].
      * rewrite Z, Rabs_R0 in LB. destruct r as [|r0 r']; [|cbn [length] in LB; rewrite S_INR in LB; assert (P := pos_INR (length r')); lra]. cbn [length INR]. assert (P := Rabs_pos_lt t NZ). lra.
      * lra.
    + intros n h jd s. cbn [length]. split.
      * intros LE. destruct n as [|n]; [lia|]. rewrite (high_1 ideal n h jd t s dt EN E), walk_1. change (sub ideal t dt) with (t - dt). apply H. lia.
      * intros LE. destruct n as [|n]; [apply high_none, EN|]. rewrite (high_1 ideal n h jd t s dt EN E). change (sub ideal t dt) with (t - dt). apply H. lia.
Qed.
Lemma high_ideal t : exists dts, Forall (signed t) dts /\ sum dts = t /\ INR (length dts) < Rabs t + 1
  /\ forall n h jd s, ((length dts <= n)%nat -> high_loop ideal n h jd t s = Some (walk ideal dts h jd s)) /\ ((n < length dts)%nat -> high_loop ideal n h jd t s = None).
Proof.
  destruct (high_ideal_aux (Z.to_nat (up (Rabs t))) t) as (dts & F & S & _ & B & H); [|exists dts; auto].
  destruct (archimed (Rabs t)) as [U _]. assert (P := Rabs_pos t). rewrite INR_IZR_INZ, Z2Nat.id; [lra|]. apply le_IZR. lra.
Qed.
