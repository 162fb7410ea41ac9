(** dechalat2alt at the nadir, in binary64 with correctly rounded sines and cosines: asin is called on a number below -1. *)
From Coq Require Import ZArith Bool Reals Lra Lia Psatz.
From Flocq Require Import Core IEEE754.BinarySingleNaN.
From Verif Require Import CLib FloatModel FloatLemmas ArithModel GeoModel GeoNadirSpec AngleProofs TrigBounds.
Open Scope R_scope.

Lemma RN_at M k r : (-1074 <= k)%Z -> bpow radix2 (52 + k) <= r < bpow radix2 (53 + k) -> Rabs (r - IZR M * bpow radix2 k) < / 2 * bpow radix2 k ->
  RN r = IZR M * bpow radix2 k.
Proof.
  intros Hk [L U] H. assert (B := bpow_gt_0 radix2 (52 + k)). assert (BK := bpow_gt_0 radix2 k).
  assert (MG : mag radix2 r = (53 + k)%Z :> Z). { apply mag_unique. rewrite Rabs_pos_eq by lra. replace (53 + k - 1)%Z with (52 + k)%Z by lia. split; assumption. }
  assert (CE : cexp radix2 fexp64 r = k) by (unfold cexp; rewrite MG, fexp64_eq; lia).
  unfold RN, round, F2R, scaled_mantissa. rewrite CE. cbn [Fnum Fexp]. f_equal. f_equal. apply Znearest_imp.
  assert (BB : bpow radix2 k * bpow radix2 (- k) = 1) by (rewrite <- bpow_plus; replace (k + - k)%Z with 0%Z by lia; reflexivity).
  assert (BN := bpow_gt_0 radix2 (- k)).
  replace (r * bpow radix2 (- k) - IZR M) with ((r - IZR M * bpow radix2 k) * bpow radix2 (- k)).
  - rewrite Rabs_mult, (Rabs_pos_eq (bpow radix2 (- k))) by lra.
    replace (/ 2) with (/ 2 * bpow radix2 k * bpow radix2 (- k)) by (rewrite Rmult_assoc, BB; lra). apply Rmult_lt_compat_r; assumption.
  - rewrite Rmult_minus_distr_r, Rmult_assoc, BB. ring.
Qed.

(** Eight degrees in radians, and its sine and cosine. *)
Definition lat8 : b64 := fmul (round_ratio 8 1) DEG64.
Definition cos8 : b64 := round_ratio 4459770905381437 4503599627370496.
Definition sin8 : b64 := round_ratio 5014239404989977 36028797018963968.
Lemma of_SF (x : b64) s M e : B2SF x = SpecFloat.S754_finite s M e -> toR x = F2R (Float radix2 (cond_Zopp s (Zpos M)) e).
Proof. intros H. rewrite <- SF2R_B2SF, H. reflexivity. Qed.
Lemma lat8_R : toR lat8 = IZR 5030569068109113 / IZR 36028797018963968.
Proof. rewrite (of_SF lat8 false 5030569068109113%positive (-55)) by (vm_compute; reflexivity). unfold F2R. cbn. lra. Qed.
Lemma cos8_R : toR cos8 = IZR 8919541810762874 * bpow radix2 (-53).
Proof. rewrite (of_SF cos8 false 8919541810762874%positive (-53)) by (vm_compute; reflexivity). reflexivity. Qed.
Lemma sin8_R : toR sin8 = IZR 5014239404989977 * bpow radix2 (-55).
Proof. rewrite (of_SF sin8 false 5014239404989977%positive (-55)) by (vm_compute; reflexivity). reflexivity. Qed.
Lemma cos8_near : RN (cos (toR lat8)) = toR cos8.
Proof.
  rewrite cos8_R, lat8_R.
  assert (B := cos_box 10000000000000000000000000 5030569068109113 36028797018963968 6 9902680687415703153120733 9902680687415703155120733 ltac:(vm_compute; reflexivity)).
  apply RN_at; [lia| |]; cbn; [lra|]. apply Rabs_lt. lra.
Qed.
Lemma sin8_near : RN (sin (toR lat8)) = toR sin8.
Proof.
  rewrite sin8_R, lat8_R.
  assert (B := sin_box 10000000000000000000000000 5030569068109113 36028797018963968 6 1391731009600654416765317 1391731009600654418765317 ltac:(vm_compute; reflexivity)).
  apply RN_at; [lia| |]; cbn; [lra|]. apply Rabs_lt. lra.
Qed.
(** Half a turn. *)
Lemma cos_half_turn : RN (cos (toR PI64)) = -1.
Proof.
  destruct PI64_R as [_ ->]. set (x := 7074237752028440 / 2251799813685248). assert (P := pi_in). set (t := PI - x).
  assert (T : 0 < t < / 1000000000000000) by (unfold t, x; lra).
  assert (E : cos x = - cos t). { unfold t. rewrite Rtrigo_facts.cos_pi_minus. lra. }
  assert (C : 1 - / 2 * (t * t) <= cos t).
  { replace (cos t) with (1 - 2 * sin (t / 2) * sin (t / 2)) by (rewrite <- cos_2a_sin; f_equal; field).
    assert (S1 : 0 < sin (t / 2)) by (apply sin_gt_0; lra). assert (S2 : sin (t / 2) < t / 2) by (apply sin_lt_x; lra).
    assert (sin (t / 2) * sin (t / 2) <= t / 2 * (t / 2)) by (apply Rmult_le_compat; lra). lra. }
  assert (TT : t * t <= / 1000000000000000 * / 1000000000000000) by (apply Rmult_le_compat; lra).
  assert (RO : forall y, RN (- y) = - RN y) by (intros y; unfold RN; apply round_NE_opp).
  rewrite E, RO. cut (RN (cos t) = 1); [lra|]. destruct (COS_bound t) as [_ U]. destruct (Rle_lt_or_eq_dec _ _ U) as [L| ->].
  - rewrite (RN_at 9007199254740992 (-53)); [cbn; lra|lia| |]; cbn; [lra|]. apply Rabs_lt. lra.
  - apply RN_gen. change 1 with (bpow radix2 0). apply generic_format_bpow. rewrite fexp64_eq. lia.
Qed.

Lemma same (x y : b64) : fin x -> toR x = toR y -> is_finite_strict y = true -> x = y.
Proof.
  intros F E Y. apply B2R_inj; [|exact Y|exact E]. destruct x; try discriminate F; [|reflexivity].
  exfalso. cbn in E. destruct y as [|? | |sy My ey By]; try discriminate Y. cbn in E. symmetry in E. apply eq_0_F2R in E. destruct sy; discriminate E.
Qed.

(** The altitude away from the shortcuts, in any arithmetic. *)
Lemma alt_run (A : arith) (dec ha lat : num A) : let l := mul A lat (c_deg A) in
  eqn A ha (int A 0) = false -> ltn A (c_cos A l) (cst A 1 1000000) = false -> eqn A (c_cos A dec) (int A 0) = false ->
  ltn A (c_fabs A (sub A dec l)) (cst A 1 1000000) = false ->
  exists h, dechalat2alt A dec ha lat = Ok h /\
  hz_alt A h = mul A (c_rad A) (c_asin A (add A (mul A (mul A (c_cos A dec) (c_cos A (mul A (mul A ha (int A 15)) (c_deg A)))) (c_cos A l)) (mul A (c_sin A dec) (c_sin A l)))).
Proof.
  intros l H1 H2 H3 H4. unfold dechalat2alt. fold l. cbv zeta. rewrite H1, H2, H3. cbn [bind]. rewrite H4. eexists. split; reflexivity.
Qed.

Lemma half_turn_ha : fmul (fmul (round_ratio 12 1) (round_ratio 15 1)) DEG64 = PI64.
Proof. apply B2SF_inj. vm_compute. reflexivity. Qed.
Definition sum8 : b64 := fadd (fmul (fmul cos8 (round_ratio (-1) 1)) cos8) (fmul (fopp sin8) sin8).
Lemma sum8_low : fin sum8 /\ toR sum8 < -1.
Proof.
  split; [vm_compute; reflexivity|]. rewrite (of_SF sum8 true 4503599627370497%positive (-52)) by (vm_compute; reflexivity). unfold F2R. cbn. lra.
Qed.

Lemma nadir_domain : exists dec ha lat, fin dec /\ fin ha /\ fin lat /\
  forall m, correctly_rounded (m_sin m) sin -> correctly_rounded (m_cos m) cos ->
  exists h q, dechalat2alt (machine m) dec ha lat = Ok h /\ hz_alt (machine m) h = fmul RAD64 (m_asin m q) /\ fin q /\ toR q < -1.
Proof.
  exists (fopp lat8), (round_ratio 12 1), (round_ratio 8 1). split; [vm_compute; reflexivity|]. split; [vm_compute; reflexivity|]. split; [vm_compute; reflexivity|].
  intros m HS HC. assert (F8 : fin lat8) by (vm_compute; reflexivity). assert (FO : fin (fopp lat8)) by (vm_compute; reflexivity).
  assert (VO : toR (fopp lat8) = - toR lat8) by apply B2R_Bopp.
  assert (C1 : m_cos m lat8 = cos8). { destruct (HC _ F8) as [F E]. apply same; [exact F|rewrite E; apply cos8_near|vm_compute; reflexivity]. }
  assert (C2 : m_cos m (fopp lat8) = cos8). { destruct (HC _ FO) as [F E]. apply same; [exact F|rewrite E, VO, cos_neg; apply cos8_near|vm_compute; reflexivity]. }
  assert (S1 : m_sin m lat8 = sin8). { destruct (HS _ F8) as [F E]. apply same; [exact F|rewrite E; apply sin8_near|vm_compute; reflexivity]. }
  assert (S2 : m_sin m (fopp lat8) = fopp sin8).
  { destruct (HS _ FO) as [F E]. apply same; [exact F| |vm_compute; reflexivity]. rewrite E, VO, sin_neg. unfold RN at 1. rewrite round_NE_opp. fold (RN (sin (toR lat8))).
    rewrite sin8_near. symmetry. apply B2R_Bopp. }
  assert (C3 : m_cos m PI64 = round_ratio (-1) 1).
  { destruct PI64_R as [FP _]. destruct (HC _ FP) as [F E]. apply same; [exact F| |vm_compute; reflexivity]. rewrite E, cos_half_turn.
    rewrite (of_SF (round_ratio (-1) 1) true 4503599627370496%positive (-52)) by (vm_compute; reflexivity). unfold F2R. cbn. lra. }
  destruct (alt_run (machine m) (fopp lat8) (round_ratio 12 1) (round_ratio 8 1)) as (h & E & V).
  - vm_compute. reflexivity.
  - change (flt (m_cos m lat8) (round_ratio 1 1000000) = false). rewrite C1. vm_compute. reflexivity.
  - change (feq (m_cos m (fopp lat8)) (round_ratio 0 1) = false). rewrite C2. vm_compute. reflexivity.
  - vm_compute. reflexivity.
  - exists h, sum8. split; [exact E|]. split; [|exact sum8_low].
    etransitivity; [exact V|]. change (fmul RAD64 (m_asin m (fadd (fmul (fmul (m_cos m (fopp lat8)) (m_cos m (fmul (fmul (round_ratio 12 1) (round_ratio 15 1)) DEG64))) (m_cos m lat8)) (fmul (m_sin m (fopp lat8)) (m_sin m lat8)))) = fmul RAD64 (m_asin m sum8)).
    rewrite half_turn_ha, C1, C2, C3, S1, S2. reflexivity.
Qed.

(** There are such functions. *)
Lemma rounded_exists (g : R -> R) : (forall x, Rabs (g x) <= 1) -> exists f, correctly_rounded f g.
Proof.
  intros B. exists (fun x => binary_normalize 53 1024 prec64_gt0 prec64_lt mode_NE (ZnearestE (scaled_mantissa radix2 fexp64 (g (toR x)))) (cexp radix2 fexp64 (g (toR x))) false).
  intros x _. set (r := g (toR x)).
  assert (C := binary_normalize_correct 53 1024 prec64_gt0 prec64_lt mode_NE (ZnearestE (scaled_mantissa radix2 fexp64 r)) (cexp radix2 fexp64 r) false). cbn zeta in C.
  change (F2R _) with (RN r) in C. assert (B1 : Rabs (RN r) <= bpow radix2 0) by (apply RN_abs_le; [lia|apply B]).
  rewrite (no_overflow (RN r) 0 ltac:(lia) B1) in C. destruct C as (C1 & C2 & _). split; [exact C2|]. rewrite C1. 
  change (RN (RN r) = RN r). apply RN_gen. apply generic_format_round; auto with typeclass_instances.
Qed.
Lemma good_library : exists m, correctly_rounded (m_sin m) sin /\ correctly_rounded (m_cos m) cos.
Proof.
  destruct (rounded_exists sin) as [s HS]. { intros x. apply Rabs_le. apply SIN_bound. }
  destruct (rounded_exists cos) as [c HC]. { intros x. apply Rabs_le. apply COS_bound. }
  exists (mk_libm s c s s s (fun y x => y) (fun y x => y)). split; assumption.
Qed.
