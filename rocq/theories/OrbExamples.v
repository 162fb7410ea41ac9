(** Concrete orbits: propagator. *)
From Coq Require Import ZArith Reals Lra Lia Bool List.
From Flocq Require Import IEEE754.BinarySingleNaN.
From Verif Require Import CLib FloatModel ArithModel FloatLemmas GeoLemmas OrbModel OrbSpec OrbProofs1 OrbProofs2 OrbProofs3 OrbProofs4 OrbProofs5 OrbProofs6 AngleProofs TimeProofs2.
Import ListNotations.
Open Scope R_scope.

Lemma Rltb_yes x y : x < y -> Rltb x y = true. Proof. intros. apply Rltb_t. assumption. Qed.
Lemma Rltb_no x y : y <= x -> Rltb x y = false. Proof. intros. apply Rltb_f. assumption. Qed.

Lemma Rtrunc_0 : Rtrunc 0 = 0%Z.
Proof.
  assert (T := Rtrunc_near 0). apply Rabs_def2 in T. assert ((-1 < Rtrunc 0)%Z) by (apply lt_IZR; lra). assert ((Rtrunc 0 < 1)%Z) by (apply lt_IZR; lra). lia.
Qed.
Lemma centralize_0 : centralize_angle ideal 0 = 0.
Proof.
  assert (P := PI_RGT_0). unfold centralize_angle, int. cbn [c_fmod ltn opp sub add ideal]. rewrite o_twopi_eq, o_pi_eq.
  assert (F : Rfmod 0 (2 * PI) = 0). { unfold Rfmod. unfold Rdiv. rewrite Rmult_0_l, Rtrunc_0. ring. }
  rewrite F. rewrite Rltb_no by lra. rewrite Rltb_no by lra. reflexivity.
Qed.

Lemma kepler_now A n first ax ay U ecc E :
  ltn A (c_fabs A (add A (sub A U E) (sub A (mul A ax (c_sin A E)) (mul A ay (c_cos A E))))) (cst A 1 1000000000000) = true ->
  kepler A (S n) first ax ay U ecc E = Some E.
Proof. intros H. cbn [kepler]. rewrite H. reflexivity. Qed.

(** A circular equatorial orbit seen at its node. *)
Section Circle.
Context (a : R) (Ha : 0 < a).
Lemma circ_axn : q_axn 0 0 = 0. Proof. unfold q_axn. ring. Qed.
Lemma circ_ayn : q_ayn a 0 0 0 = 0. Proof. unfold q_ayn. ring. Qed.
Lemma circ_capu : q_capu 0 a 0 1 0 0 0 = 0.
Proof. unfold q_capu, q_xlt. rewrite circ_axn. rewrite Rmult_0_r. replace (0 + 0 - 0) with 0 by ring. apply centralize_0. Qed.
Lemma circ_kepler : kepler ideal 10 true 0 0 0 0 0 = Some 0.
Proof.
  apply (kepler_now ideal 9). cbn [add sub mul cst ltn c_fabs c_sin c_cos ideal]. apply Rltb_yes.
  replace (0 - 0 + (0 * sin 0 - 0 * cos 0)) with 0 by ring. rewrite Rabs_R0. lra.
Qed.
Lemma circ : sxpx_posn_vel ideal 0 a 0 1 0 0 0 0 = mk_place ideal (if Rlt_dec a 1 then -4 else 0)%Z (q_pos 0 a 0 1 0 0 0 0) (q_vel 0 a 0 1 0 0 0 0).
Proof.
  rewrite posn_mirror. assert (F : q_first a 0 0 0 = 0%Z).
  { unfold q_first, q_elsq. rewrite circ_axn, circ_ayn. rewrite Rltb_no by lra. rewrite Rltb_no by lra. reflexivity. }
  rewrite F. cbn [negb Z.eqb]. rewrite circ_axn, circ_ayn, circ_capu, circ_kepler. f_equal.
  unfold q_code, Rltb. destruct (Rlt_dec (a * (1 / 1 - 0)) (1 / 1)); destruct (Rlt_dec (a * (1 / 1 + 0)) (1 / 1)); destruct (Rlt_dec a 1); try reflexivity; exfalso; lra.
Qed.
End Circle.
Lemma ex_ok : pl_code ideal (sxpx_posn_vel ideal 0 2 0 1 0 0 0 0) = 0%Z.
Proof. rewrite circ by lra. cbn [pl_code]. destruct (Rlt_dec 2 1); [lra | reflexivity]. Qed.
Lemma ex_perigee : pl_code ideal (sxpx_posn_vel ideal 0 (1 / 2) 0 1 0 0 0 0) = (-4)%Z.
Proof. rewrite circ by lra. cbn [pl_code]. destruct (Rlt_dec (1 / 2) 1); [reflexivity | lra]. Qed.
(** Both apsides of that orbit are inside the Earth. *)
Lemma ex_axis : pl_code ideal (sxpx_posn_vel ideal 0 (-1) 0 1 0 0 0 0) = (-2)%Z.
Proof.
  rewrite posn_mirror. assert (F : q_first (-1) 0 0 0 = (-2)%Z).
  { unfold q_first, q_elsq. rewrite circ_axn, circ_ayn. rewrite Rltb_no by lra. rewrite Rltb_yes by lra. reflexivity. }
  rewrite F. reflexivity.
Qed.
Lemma ex_parabolic : pl_code ideal (sxpx_posn_vel ideal 0 1 2 1 0 0 0 0) = (-1)%Z.
Proof.
  rewrite posn_mirror. assert (F : q_first 1 2 0 0 = (-1)%Z).
  { unfold q_first, q_elsq, q_axn, q_ayn. rewrite cos_0, sin_0. rewrite Rltb_yes by lra. reflexivity. }
  rewrite F. reflexivity.
Qed.
(** The position of the first orbit: on the first axis, at 2 - 3/2 k2 Earth radii. *)
Lemma ex_position : vec_of (pl_pos ideal (sxpx_posn_vel ideal 0 2 0 1 0 0 0 0)) = v3 (XKMPER * (2 - 3 / 4 * J2)) 0 0.
Proof.
  rewrite circ by lra. cbn [pl_pos].
  assert (EX := circ_axn). assert (EY := circ_ayn 2).
  assert (EL : q_elsq 2 0 0 0 = 0) by (unfold q_elsq; rewrite EX, EY; ring).
  assert (ES : q_esin 2 0 0 0 0 = 0) by (unfold q_esin; rewrite EX, EY; ring).
  assert (EC : q_ecos 2 0 0 0 0 = 0) by (unfold q_ecos; rewrite EX, EY; ring).
  assert (R2 : q_r 2 0 0 0 0 = 2) by (unfold q_r; rewrite EC; lra).
  assert (PL : q_pl 2 0 0 0 = 2) by (unfold q_pl; rewrite EL; lra).
  assert (BE : q_betal 2 0 0 0 = 1) by (unfold q_betal; rewrite EL; replace (1 / 1 - 0) with 1 by lra; apply sqrt_1).
  assert (CU : q_cosu 2 0 0 0 0 = 1) by (unfold q_cosu; rewrite R2, EX, EY, cos_0; lra).
  assert (SU : q_sinu 2 0 0 0 0 = 0) by (unfold q_sinu; rewrite R2, EX, EY, sin_0; lra).
  assert (S2 : q_sin2u 2 0 0 0 0 = 0) by (unfold q_sin2u; rewrite SU; lra).
  assert (U0 : q_u 2 0 0 0 0 = 0). { unfold q_u. rewrite CU, SU. unfold Ratan2. destruct (Rlt_dec 0 1); [|lra]. unfold Rdiv. rewrite Rmult_0_l. apply atan_0. }
  assert (T1 : q_t1 2 0 0 0 = K2 / 2) by (unfold q_t1; rewrite PL, ck2_eq; reflexivity).
  assert (T2 : q_t2 2 0 0 0 = K2 / 4) by (unfold q_t2; rewrite T1, PL; lra).
  assert (UK : q_uk 2 0 1 0 0 0 = 0) by (unfold q_uk; rewrite U0, S2; ring).
  assert (NK : q_nodek 0 2 0 1 0 0 0 = 0) by (unfold q_nodek; rewrite S2; ring).
  assert (IK : q_inck 2 0 1 0 0 0 0 = 0) by (unfold q_inck; ring).
  assert (RK : q_rk 2 0 1 0 0 0 = 2 - 3 / 4 * J2).
  { unfold q_rk, q_x3, q_s2. rewrite R2, T1, T2, BE. unfold K2. lra. }
  unfold vec_of, q_pos, q_ux, q_uy, q_uz. cbn [fst snd]. rewrite UK, NK, IK, RK, km_eq, sin_0, cos_0. f_equal; ring.
Qed.

(** ** An element set at 2 Earth radii *)
(** Inclination with cos^2 = 1/3: the flattening does not change the mean motion. *)
Definition i_third : R := acos (sqrt (1 / 3)).
Definition n_two : R := KE / (2 * sqrt 2).
Definition o_two : orb ideal := mk_orb ideal (1 / 10000) i_third 1 0 0 0 n_two 48.
Lemma third : cos i_third ^ 2 = 1 / 3.
Proof.
  unfold i_third. assert (S : sqrt (1 / 3) * sqrt (1 / 3) = 1 / 3) by (apply sqrt_sqrt; lra). assert (P := sqrt_pos (1 / 3)).
  rewrite cos_acos by nra. simpl. lra.
Qed.
Lemma two_a1 : a_1 n_two = 2.
Proof.
  unfold a_1, n_two. assert (P : 0 < sqrt 2) by (apply sqrt_lt_R0; lra). replace (KE / (KE / (2 * sqrt 2))) with (2 * sqrt 2).
  2: { assert (0 < KE) by (unfold KE; lra). field. split; lra. }
  replace (2 * sqrt 2) with (Rpower 2 (3 / 2)).
  - rewrite Rpower_mult. replace (3 / 2 * (2 / 3)) with 1 by lra. apply Rpower_1. lra.
  - replace (3 / 2) with (1 + / 2) by lra. rewrite Rpower_plus, Rpower_1, Rpower_sqrt by lra. reflexivity.
Qed.
Lemma two_delta a : delta_of i_third 0 a = 0.
Proof. unfold delta_of. rewrite third. unfold Rdiv. replace (3 * (1 * / 3) - 1) with 0 by lra. ring. Qed.
Lemma two_a : a0'' i_third 0 n_two = 2.
Proof. unfold a0'', a_0. cbv zeta. rewrite two_delta, two_a1. rewrite two_delta. field. Qed.
Lemma two_hyps : 0 <= o_eo ideal o_two < 1 /\ 0 < o_xno ideal o_two /\ 0 < a0'' (o_xincl ideal o_two) (o_eo ideal o_two) (o_xno ideal o_two)
  /\ a0'' (o_xincl ideal o_two) (o_eo ideal o_two) (o_xno ideal o_two) <> s_star (o_xincl ideal o_two) (o_eo ideal o_two) (o_xno ideal o_two)
  /\ eta0 (o_xincl ideal o_two) (o_eo ideal o_two) (o_xno ideal o_two) ^ 2 <> 1.
Proof.
  cbn [o_eo o_xincl o_xno o_two]. rewrite two_a. split; [lra|]. split; [|split; [lra|]].
  { unfold n_two. apply Rdiv_lt_0_compat; [unfold KE; lra|]. assert (P : 0 < sqrt 2) by (apply sqrt_lt_R0; lra). lra. }
  split.
  - unfold s_star, perigee_km. rewrite two_a. unfold XKMPER. destruct (Rle_dec _ 98); [lra|]. destruct (Rlt_dec _ 156); lra.
  - unfold eta0. rewrite two_a. intros H. replace (2 * 0 * xi i_third 0 n_two) with 0 in H by ring. lra.
Qed.
Lemma two_not_low : low i_third 0 n_two = false.
Proof. unfold low. rewrite two_a. destruct (Rlt_dec _ _) as [H|]; [unfold XKMPER in H; lra | reflexivity]. Qed.

(** ** Kepler's equation without an answer in binary64 *)
Lemma kepler_nan m : forall n first ax ay ecc E, kepler (machine m) n first ax ay B754_nan ecc E = None.
Proof.
  induction n as [|n IH]; intros; [reflexivity|]. cbn [kepler]. cbn [ltn c_fabs sub machine]. 
  set (q := add (machine m) (fsub B754_nan E) _).
  assert (Q : q = B754_nan) by (unfold q; cbn [add machine fsub Bminus]; unfold fadd, fsub; destruct E; reflexivity).
  rewrite Q. cbn [fabs Babs]. replace (flt _ _) with false by (cbn [cst machine]; vm_compute; reflexivity).
  destruct (if first then _ else _) as [d s]. apply IH.
Qed.

Lemma sub_fin x y : fin (fsub x y) -> fin x /\ fin y.
Proof. unfold fin, fsub. destruct x, y; cbn; intros; try discriminate; try (split; reflexivity); repeat match goal with H : context [Bool.eqb ?a ?b] |- _ => destruct (Bool.eqb a b) end; try discriminate. Qed.
Lemma div_zero x : ~ fin (fdiv x (B754_zero false)).
Proof. unfold fin, fdiv. destruct x; cbn; discriminate. Qed.
Lemma fmod_nonfinite x y : ~ fin x -> ffmod x y = B754_nan.
Proof. unfold fin. destruct x; cbn; intros H; try (destruct H; reflexivity); destruct y; reflexivity. Qed.
Lemma centralize_nonfinite m x : ~ fin x -> centralize_angle (machine m) x = B754_nan.
Proof.
  intros H. unfold centralize_angle. cbn [c_fmod machine]. rewrite fmod_nonfinite by assumption. cbn [ltn opp sub add machine].
  replace (flt (o_pi (machine m)) B754_nan) with false by (change (o_pi (machine m)) with PI64; vm_compute; reflexivity).
  replace (flt B754_nan (fopp (o_pi (machine m)))) with false by (change (o_pi (machine m)) with PI64; vm_compute; reflexivity). reflexivity.
Qed.
Definition MINUS1 : b64 := fopp (round_ratio 1 1).
(** With cos(inclination) = -1 no satellite is placed. *)
Lemma no_place m node a e si i w xl : In (pl_code (machine m) (sxpx_posn_vel (machine m) node a e MINUS1 si i w xl)) [-1; -2; -6]%Z.
Proof.
  unfold sxpx_posn_vel.
  set (t1 := ltn (machine m) _ (add (machine m) (mul (machine m) (mul (machine m) e (c_cos (machine m) w)) _) _)). set (t2 := ltn (machine m) a _).
  destruct t1; [cbn; auto|]. destruct t2; [cbn; auto|]. cbn [negb Z.eqb].
  match goal with |- context [kepler (machine m) 10 true ?x ?y ?c e ?c] => assert (C : c = B754_nan) end.
  { apply centralize_nonfinite. cbn [add sub mul div machine].
    intros F. apply sub_fin in F. destruct F as [F _]. apply nan_add_r in F. destruct F as [_ F].
    apply mul_fin in F. destruct F as [F _]. apply mul_fin in F. destruct F as [_ F].
    match type of F with fin (fdiv ?n ?d) => assert (Z : d = B754_zero false) end.
    { apply b64_eq. vm_compute. reflexivity. }
    rewrite Z in F. exact (div_zero _ F). }
  rewrite C, kepler_nan. cbn. auto.
Qed.
Definition TWO64 : b64 := round_ratio 2 1.
Definition ZERO64 : b64 := B754_zero false.
Lemma ex_no_convergence m : pl_code (machine m) (sxpx_posn_vel (machine m) ZERO64 TWO64 ZERO64 MINUS1 ZERO64 PI64 ZERO64 ZERO64) = (-6)%Z.
Proof.
  unfold sxpx_posn_vel.
  match goal with |- context [kepler (machine m) 10 true ?x ?y ?c ?e ?c] => assert (C : c = B754_nan) end.
  { apply centralize_nonfinite. cbn [add sub mul div machine].
    intros F. apply sub_fin in F. destruct F as [F _]. apply nan_add_r in F. destruct F as [_ F].
    apply mul_fin in F. destruct F as [F _]. apply mul_fin in F. destruct F as [_ F].
    match type of F with fin (fdiv ?n ?d) => assert (Z : d = B754_zero false) end.
    { apply b64_eq. vm_compute. reflexivity. }
    rewrite Z in F. exact (div_zero _ F). }
  rewrite C. clear C. cbn [c_cos c_sin add sub mul ltn machine].
  assert (E : forall x, fmul ZERO64 x = B754_nan \/ exists s, fmul ZERO64 x = B754_zero s) by (intros [s|s| |s mm ee b]; cbn; eauto).
  set (t1 := flt _ (fadd _ _)). set (t2 := flt TWO64 _).
  assert (T2 : t2 = false) by (vm_compute; reflexivity). 
  assert (T1 : t1 = false).
  { unfold t1. clear t1 t2 T2. destruct (E (m_cos m ZERO64)) as [-> | [s1 ->]]; destruct (E (m_sin m ZERO64)) as [-> | [s2 ->]];
      try destruct s1; try destruct s2; vm_compute; reflexivity. }
  rewrite T1, T2. cbn [negb Z.eqb]. rewrite kepler_nan. reflexivity.
Qed.

Lemma ok_inj (X : Type) (a b : X) : Ok a = Ok b -> a = b.
Proof. intros H. injection H. auto. Qed.
Lemma start_is A o : k_start A (sxpx_common_init A o) = sxpall_common_init A o.
Proof. unfold sxpx_common_init. set (P := if ltn A _ _ then _ else _). destruct P as [s4 q4]. reflexivity. Qed.
Lemma sgp4_shape A t o q p : SGP4 A t o q = Ok p ->
  exists nd a e w xl, p = sxpx_posn_vel A nd a e (p_cosio A q) (p_sinio A q) (o_xincl A o) w xl.
Proof.
  intros H. unfold SGP4 in H. set (step := if negb (p_simple A q) then _ else _) in H.
  destruct step as [[[[[xmp om] ta] te] tl]|r]; cbn [bind] in H; [|discriminate H].
  apply ok_inj in H. rewrite <- H. do 5 eexists. reflexivity.
Qed.
Lemma cosio_is A o : p_cosio A (SGP4_init A o) = c_cos A (o_xincl A o).
Proof. unfold SGP4_init; cbn [p_cosio]; rewrite start_is; reflexivity. Qed.
Lemma no_place_sgp4 m t o p : m_cos m (o_xincl (machine m) o) = MINUS1 ->
  SGP4 (machine m) t o (SGP4_init (machine m) o) = Ok p -> In (pl_code (machine m) p) [-1; -2; -6]%Z.
Proof.
  intros C H. apply sgp4_shape in H. destruct H as (nd & a & e & w & xl & ->). rewrite cosio_is.
  change (c_cos (machine m) (o_xincl (machine m) o)) with (m_cos m (o_xincl (machine m) o)). rewrite C. apply no_place.
Qed.

(** ** Reduction to a turn *)
Lemma FMod_ideal x : (exists k, FMod2p ideal x = x - 2 * PI * IZR k) /\ 0 <= FMod2p ideal x < 2 * PI.
Proof.
  assert (P := PI_RGT_0). unfold FMod2p, int. cbn [c_fmod ltn opp sub add cst ideal]. rewrite o_twopi_eq.
  assert (RR := Rfmod_range x (2 * PI) ltac:(lra)). apply Rabs_def2 in RR. unfold Rfmod in *. set (z := Rtrunc (x / (2 * PI))) in *.
  change (num ideal) with R in *.   destruct (Rltb _ (0 / 1)) eqn:Q; [apply Rltb_t in Q | apply Rltb_f in Q].
  - split; [exists (z - 1)%Z; rewrite minus_IZR; ring | lra].
  - split; [exists z; ring | lra].
Qed.
Definition tiny_negative : b64 := fopp (round_ratio 1 1000000000000000000000000000000).
Lemma ex_tiny m : fin tiny_negative /\ FMod2p (machine m) tiny_negative = o_twopi (machine m).
Proof. split; [vm_compute; reflexivity|]. apply b64_eq. vm_compute. reflexivity. Qed.
Lemma ex_center m : centralize_angle (machine m) (round_ratio 4 1) = fsub (round_ratio 4 1) (o_twopi (machine m)).
Proof. apply b64_eq. vm_compute. reflexivity. Qed.
