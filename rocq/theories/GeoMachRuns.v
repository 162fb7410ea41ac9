(** Runs of get_satellite_ra_dec_delta in binary64, and witnesses. *)
From Coq Require Import ZArith Bool Reals Lra Lia Psatz.
From Flocq Require Import Core IEEE754.BinarySingleNaN.
From Verif Require Import CLib FloatModel FloatLemmas ArithModel GeoModel GeoSpec GeoMachSpec GeoMachProofs.
Open Scope R_scope.

(** A satellite 40000 km away towards right ascension zero, off that direction by a tenth of a nanometre. *)
Definition near_obs : b64 * b64 * b64 := (round_ratio 6378 1, round_ratio 1000 1, round_ratio 0 1).
Definition near_sat : b64 * b64 * b64 := (round_ratio 46378 1, fsub (round_ratio 1000 1) (round_ratio 1 (2 ^ 43)), round_ratio 0 1).
Lemma near_stored : stored near_obs = (6378, 1000, 0) /\ stored near_sat = (46378, 1000 - / 8796093022208, 0).
Proof.
  assert (V : forall (x : b64) s M e, B2SF x = SpecFloat.S754_finite s M e -> toR x = F2R (Float radix2 (cond_Zopp s (Zpos M)) e)).
  { intros x s M e H. rewrite <- SF2R_B2SF, H. reflexivity. }
  unfold stored, near_obs, near_sat. split.
  - rewrite (V (round_ratio 6378 1) false 7012685161955328%positive (-40)%Z) by (vm_compute; reflexivity).
    rewrite (V (round_ratio 1000 1) false 8796093022208000%positive (-43)%Z) by (vm_compute; reflexivity).
    rewrite (proj2 zero64). unfold F2R. cbn. f_equal. f_equal; lra.
  - rewrite (V (round_ratio 46378 1) false 6374143784124416%positive (-37)%Z) by (vm_compute; reflexivity).
    rewrite (V (fsub (round_ratio 1000 1) (round_ratio 1 (2 ^ 43))) false 8796093022207999%positive (-43)%Z) by (vm_compute; reflexivity).
    rewrite (proj2 zero64). unfold F2R. cbn. f_equal. f_equal; lra.
Qed.
Lemma whole_turn_reached : exists obs sat, finite3 obs /\ finite3 sat /\ squarable3 (minus (stored sat) (stored obs)) /\
  exists y x, minus (stored sat) (stored obs) = (toR x, toR y, 0) /\ 
  forall m, fin (m_atan2 m y x) -> - / 2 ^ 52 <= toR (m_atan2 m y x) < 0 ->
  exists ra dec delta, get_satellite_ra_dec_delta (machine m) obs sat = (ra, dec, delta) /\ toR ra = toR TWOPI64.
Proof.
  destruct near_stored as [E1 E2]. exists near_obs, near_sat. split; [repeat split; vm_compute; reflexivity|]. split; [repeat split; vm_compute; reflexivity|].
  rewrite E1, E2. cbn [minus]. 
  split.
  { assert (H400 : 2 ^ 60 <= 2 ^ 400) by (apply Rle_pow; [lra|repeat constructor]). assert (I : / 2 ^ 400 <= / 2 ^ 60) by (apply Rinv_le_contravar; [apply pow_lt; lra|exact H400]).
    assert (H60 : 100000 <= 2 ^ 60) by lra. assert (I60 : / 2 ^ 60 <= / 8796093022208) by lra.
    split; [|split].
    - right. rewrite Rabs_pos_eq by lra. split; lra.
    - right. rewrite Rabs_left by lra. split; lra.
    - left. lra. }
  exists (fsub (fsub (round_ratio 1000 1) (round_ratio 1 (2 ^ 43))) (round_ratio 1000 1)), (fsub (round_ratio 46378 1) (round_ratio 6378 1)). split.
  { assert (V : forall (x : b64) s M e, B2SF x = SpecFloat.S754_finite s M e -> toR x = F2R (Float radix2 (cond_Zopp s (Zpos M)) e)) by (intros x s M e H; rewrite <- SF2R_B2SF, H; reflexivity).
    rewrite (V (fsub (fsub (round_ratio 1000 1) (round_ratio 1 (2 ^ 43))) (round_ratio 1000 1)) true 4503599627370496%positive (-95)%Z) by (vm_compute; reflexivity).
    rewrite (V (fsub (round_ratio 46378 1) (round_ratio 6378 1)) false 5497558138880000%positive (-37)%Z) by (vm_compute; reflexivity).
    unfold F2R. cbn. f_equal; [f_equal|]; lra. }
  intros m FA BA. destruct (get_satellite_ra_dec_delta (machine m) near_obs near_sat) as [[ra dec] delta] eqn:E. exists ra, dec, delta. split; [reflexivity|].
  set (a := m_atan2 m _ _) in *.
  assert (E' : ra = if flt a (round_ratio 0 1) then fadd a TWOPI64 else a).
  { assert (Q := f_equal (fun t => fst (fst t)) E). cbn [fst] in Q. rewrite <- Q. reflexivity. }
  rewrite E'. assert (C : flt a (round_ratio 0 1) = true) by (apply flt_R; [exact FA|apply zero64|rewrite (proj2 zero64); lra]). rewrite C. apply whole_turn; assumption.
Qed.

(** Runs. *)
Definition len3 (a b c : b64) : b64 := fsqrt (fadd (fadd (fadd (round_ratio 0 1) (fmul a a)) (fmul b b)) (fmul c c)).
Lemma unfold_run m o0 o1 o2 s0 s1 s2 : exists ra, get_satellite_ra_dec_delta (machine m) (o0, o1, o2) (s0, s1, s2) =
  (ra, m_asin m (fdiv (fsub s2 o2) (len3 (fsub s0 o0) (fsub s1 o1) (fsub s2 o2))), len3 (fsub s0 o0) (fsub s1 o1) (fsub s2 o2)).
Proof. eexists. reflexivity. Qed.
Lemma ex_345 m : exists ra, get_satellite_ra_dec_delta (machine m) (round_ratio 1 1, round_ratio 2 1, round_ratio 3 1) (round_ratio 4 1, round_ratio 6 1, round_ratio 3 1) =
  (ra, m_asin m (round_ratio 0 1), round_ratio 5 1).
Proof.
  destruct (unfold_run m (round_ratio 1 1) (round_ratio 2 1) (round_ratio 3 1) (round_ratio 4 1) (round_ratio 6 1) (round_ratio 3 1)) as [ra E]. exists ra. etransitivity; [exact E|].
  assert (L : len3 (fsub (round_ratio 4 1) (round_ratio 1 1)) (fsub (round_ratio 6 1) (round_ratio 2 1)) (fsub (round_ratio 3 1) (round_ratio 3 1)) = round_ratio 5 1) by (apply B2SF_inj; vm_compute; reflexivity).
  rewrite L. assert (Q : fdiv (fsub (round_ratio 3 1) (round_ratio 3 1)) (round_ratio 5 1) = round_ratio 0 1) by (apply B2SF_inj; vm_compute; reflexivity). rewrite Q. reflexivity.
Qed.
(** Two positions 2^-600 km apart: the squares vanish and the distance is reported as zero. *)
Lemma ex_underflow m : exists ra dec, get_satellite_ra_dec_delta (machine m) (round_ratio 0 1, round_ratio 0 1, round_ratio 0 1) (round_ratio 0 1, round_ratio 0 1, round_ratio 1 (2 ^ 600)) =
  (ra, dec, round_ratio 0 1).
Proof.
  destruct (unfold_run m (round_ratio 0 1) (round_ratio 0 1) (round_ratio 0 1) (round_ratio 0 1) (round_ratio 0 1) (round_ratio 1 (2 ^ 600))) as [ra E]. exists ra. eexists. etransitivity; [exact E|].
  assert (L : len3 (fsub (round_ratio 0 1) (round_ratio 0 1)) (fsub (round_ratio 0 1) (round_ratio 0 1)) (fsub (round_ratio 1 (2 ^ 600)) (round_ratio 0 1)) = round_ratio 0 1) by (apply B2SF_inj; vm_compute; reflexivity).
  rewrite L. reflexivity.
Qed.
