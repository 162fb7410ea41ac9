(** SGP8 and SDP8 in binary64 for an eccentricity above 1; SDP8 for times that are no numbers. *)
From Coq Require Import ZArith Bool List Reals Lra Lia.
From Flocq Require Import Core IEEE754.BinarySingleNaN.
From Flocq Require Plus_error.
From Verif Require Import CLib FloatModel ArithModel FloatLemmas AngleProofs OrbModel OrbSpec GeoLemmas DeepModel DeepTerms DeepProofs2 DeepProofs4 DeepProofs5 OrbExamples DeepExamples Sgp8Model Sgp8Spec Sgp8Proofs6 Sdp8Model Sdp8Terms Sdp8Proofs1.
Import ListNotations.
Open Scope R_scope.

Lemma sqrt_below x : toR x < 0 -> fsqrt x = nan.
Proof. intros H. destruct x as [s|s| |s q e B]; cbn [B2R] in H; try lra. destruct s; [reflexivity|]. exfalso. assert (0 <= F2R (Float radix2 (cond_Zopp false (Z.pos q)) e)) by (apply F2R_ge_0; cbn; lia). lra. Qed.
Lemma beyond e : fin e -> 1 < Rabs (toR e) <= bpow radix2 500 -> fsqrt (fsub (round_ratio 1 1) (fmul e e)) = nan.
Proof.
  intros F [L U]. change (round_ratio 1 1) with F1. destruct F1_R as [O1 O2]. assert (P : 0 < bpow radix2 500) by apply bpow_gt_0.
  assert (Q : Rabs (toR e) * Rabs (toR e) = toR e * toR e) by (rewrite <- Rabs_mult; apply Rabs_pos_eq; nra).
  assert (QB : toR e * toR e <= bpow radix2 1000). { replace 1000%Z with (500 + 500)%Z by reflexivity. rewrite bpow_plus, <- Q. apply Rmult_le_compat; lra. }
  destruct (fmul_R e e 1000 F F) as [G V]; [lia|rewrite Rabs_pos_eq; [exact QB|nra]|]. fold (RN (toR e * toR e)) in V. set (q := fmul e e) in *.
  assert (GE : Rabs (toR e) <= toR q).
  { rewrite V. rewrite <- (RN_gen (Rabs (toR e))) by (apply generic_format_abs, generic_format_B2R). apply RN_le. nra. }
  assert (QU : toR q <= bpow radix2 1000). { rewrite V. assert (X := RN_abs_le (toR e * toR e) 1000 ltac:(lia)). rewrite Rabs_pos_eq in X by nra. specialize (X QB). apply Rabs_le_inv in X. lra. }
  assert (B1 : 1 <= bpow radix2 1000) by (change 1 with (bpow radix2 0); apply bpow_le; lia).
  destruct (fsub_R F1 q 1000 O1 G) as [H W]; [lia|rewrite O2; apply Rabs_le; lra|]. fold (RN (toR F1 - toR q)) in W.
  apply sqrt_below. rewrite W, O2.
  assert (N : RN (1 + - toR q) <> 0).
  { apply Plus_error.round_plus_neq_0; try typeclasses eauto; [|apply generic_format_opp, generic_format_B2R|lra]. rewrite <- O2. apply generic_format_B2R. }
  assert (Z : RN (1 + - toR q) <= 0). { rewrite <- (RN_gen 0) by apply generic_format_0. apply RN_le. lra. } unfold Rminus. lra.
Qed.

Ltac name_ := lazymatch goal with |- ?f (let x := ?v in @?b x) => let y := fresh x in pose (y := v); change (f (b y)); cbv beta end.
Lemma place_beyond m (k : com8 (machine m)) (a b c f n e M w h : b64) : fin e -> 1 < Rabs (toR e) <= bpow radix2 500 -> lost m (posn_vel8 (machine m) k a b c f n e M w h).
Proof.
  intros F B. assert (S := beyond e F B).
  cbv delta [posn_vel8]; cbv beta. name_. destruct (kepler8 _ _ _ _ _) as [[sine cose] zc5]. repeat name_.
  assert (BT : beta = nan) by exact S. assert (SN : snf = nan) by (unfold snf; rewrite BT; mc; nans; reflexivity).
  assert (G : snfg = nan) by (unfold snfg; rewrite SN; mc; nans; reflexivity). assert (DR : dr = nan) by (unfold dr; rewrite G; mc; nans; reflexivity).
  assert (RR : rr = nan) by (unfold rr; rewrite DR; mc; nans; reflexivity).
  assert (RD : rdot = nan) by (unfold rdot; rewrite BT; mc; nans; reflexivity). assert (RV : rvdot = nan) by (unfold rvdot; rewrite BT; mc; nans; reflexivity).
  clearbody rr rdot rvdot ux uy uz vx vy vz km. subst rr rdot rvdot. unfold lost. mc. nans. reflexivity.
Qed.
Theorem sgp8_beyond m o p t : let e := snd (fst (decay (machine m) (o_eo (machine m) o) p t)) in fin e -> 1 < Rabs (toR e) <= bpow radix2 500 ->
  SGP8 (machine m) t o p = mk_place (machine m) 0 (nan, nan, nan) (nan, nan, nan).
Proof.
  intros e F B. unfold e in *. unfold SGP8. cbv zeta. destruct (decay (machine m) (o_eo (machine m) o) p t) as [[xn em] z1]. cbn [fst snd] in F, B. rewrite (place_beyond m _ _ _ _ _ _ _ _ _ _ F B). reflexivity.
Qed.

(** An orbit with eccentricity 1/2 in drag, 10 million minutes before its epoch. *)
Definition o_past : orb (machine flat_libm) :=
  mk_orb (machine flat_libm) (round_ratio 1 1) (round_ratio 1 1) F0 (round_ratio 1 2) F0 F0 (round_ratio 2 100) 51.
Definition t_past : dorb (machine flat_libm) := mk_dorb (machine flat_libm) o_past (round_ratio 2460000 1).
Definition gone (x : b64) : bool := match x with B754_nan => true | _ => false end.
Definition gone3 (v : vect (machine flat_libm)) : bool := let '(x, y, z) := v in gone x && gone y && gone z.
Definition all_gone (r : res (option (dstate (machine flat_libm) * place (machine flat_libm)))) : bool :=
  match r with Ok (Some (_, p)) => (pl_code (machine flat_libm) p =? 0)%Z && gone3 (pl_pos (machine flat_libm) p) && gone3 (pl_vel (machine flat_libm) p) | _ => false end.
Lemma gone_ok x : gone x = true -> x = nan. Proof. destruct x; cbn; intros H; try discriminate H; reflexivity. Qed.
Lemma gone3_ok v : gone3 v = true -> v = (nan, nan, nan).
Proof. destruct v as [[x y] z]. cbn [gone3]. intros H. apply andb_prop in H. destruct H as [H H3]. apply andb_prop in H. destruct H as [H1 H2]. rewrite (gone_ok _ H1), (gone_ok _ H2), (gone_ok _ H3). reflexivity. Qed.
Lemma past8 : exists v', SDP8 (machine flat_libm) 5 (round_ratio (-10000000) 1) t_past (SDP8_init (machine flat_libm) t_past) (fresh (machine flat_libm) (p_deep (machine flat_libm) (SDP8_init (machine flat_libm) t_past)))
  = Ok (Some (v', mk_place (machine flat_libm) 0 (nan, nan, nan) (nan, nan, nan))).
Proof.
  assert (E : all_gone (SDP8 (machine flat_libm) 5 (round_ratio (-10000000) 1) t_past (SDP8_init (machine flat_libm) t_past) (fresh (machine flat_libm) (p_deep (machine flat_libm) (SDP8_init (machine flat_libm) t_past))))
    = true) by (vm_compute; reflexivity).
  destruct (SDP8 _ _ _ _ _ _) as [[[v' [c pos vel]]|]|]; cbn [all_gone pl_code pl_pos pl_vel] in E; try discriminate E. exists v'.
  apply andb_prop in E. destruct E as [E E3]. apply andb_prop in E. destruct E as [E1 E2]. apply Z.eqb_eq in E1. rewrite E1, (gone3_ok _ E2), (gone3_ok _ E3). reflexivity.
Qed.
(** For SGP8: where the drag is weak. *)
Definition o_slow : orb (machine flat_libm) :=
  mk_orb (machine flat_libm) (round_ratio 1 100) (round_ratio 1 1) F0 (round_ratio 1 2) F0 F0 (round_ratio 2 100) 52.
Lemma past_e : let e := snd (fst (decay (machine flat_libm) (o_eo (machine flat_libm) o_slow) (SGP8_init (machine flat_libm) o_slow) (round_ratio (-1000000000) 1))) in fin e /\ 1 < Rabs (toR e) <= bpow radix2 500.
Proof.
  cbv zeta. set (e := snd _). assert (T : fin e) by (vm_compute; reflexivity). split; [exact T|]. destruct F1_R as [O1 O2].
  set (top := round_ratio (2 ^ 60) 1). assert (TR : fin top /\ toR top <= bpow radix2 500).
  { split; [vm_compute; reflexivity|]. rewrite <- SF2R_B2SF. replace (B2SF top) with (SpecFloat.S754_finite false 4503599627370496 8) by (vm_compute; reflexivity). cbn [SF2R cond_Zopp]. unfold F2R. cbn [Fnum Fexp].
    apply Rle_trans with (bpow radix2 52 * bpow radix2 8); [apply Req_le; f_equal; rewrite bpow_pos; cbn; lra|]. rewrite <- bpow_plus. apply bpow_le. lia. }
  destruct TR as [T1 T2].
  assert (L : flt F1 e = true) by (vm_compute; reflexivity). assert (U : flt e top = true) by (vm_compute; reflexivity).
  clearbody e top. apply flt_R in L; [|assumption|assumption]. apply flt_R in U; [|assumption|assumption]. rewrite O2 in L. rewrite Rabs_pos_eq; lra.
Qed.

(** Times that are no numbers. *)
Lemma sdp8_nan m n t p : g_res (machine m) (p_deep (machine m) p) = None -> SDP8 (machine m) n B754_nan t p (fresh (machine m) (p_deep (machine m) p)) = UB Uninit.
Proof.
  intros R. unfold SDP8, Deep_dpsec. cbv zeta. rewrite R. rewrite (unread (machine m)); [reflexivity|]. exact (no_nan (round_ratio 100000000000000000000 1)).
Qed.
Lemma sdp8_never m n t p r : g_res (machine m) (p_deep (machine m) p) = Some r -> SDP8 (machine m) n (B754_infinity false) t p (fresh (machine m) (p_deep (machine m) p)) = Ok None.
Proof.
  intros R. unfold SDP8, Deep_dpsec. cbv zeta. rewrite R. destruct zero_in as [Z1 Z2].
  rewrite (start_fresh m _ r) by (vm_compute; reflexivity). rewrite never; [reflexivity|apply clip_inf|exact Z1|exact Z2].
Qed.

Lemma high8 : let o := d_orb ideal high_set in let i := o_xincl ideal o in let e := o_eo ideal o in let n := o_xno ideal o in
  0 < e < 1 /\ 0 < n /\ 0 < n0'' i e n /\ height_s < a0'' i e n * (1 - e) /\ 1 + cos i <> 0 /\ cos (i / 2) <> 0.
Proof.
  cbv zeta. destruct high_hyps as (_ & H2 & _ & _ & _ & H6). split; [unfold high_set, set_of; cbn [d_orb o_eo]; lra|]. split; [exact H2|]. split; [exact H6|].
  unfold high_set, set_of. cbn [d_orb o_xincl o_eo o_xno]. rewrite set_a by lra. split; [unfold height_s, XKMPER; lra|].
  assert (C : 0 < cos i_third). { unfold i_third. rewrite cos_acos; [apply sqrt_lt_R0; lra|]. split; [assert (P := sqrt_pos (1 / 3)); lra|]. rewrite <- sqrt_1 at 2. apply sqrt_le_1; lra. }
  split; [lra|]. intros Z. assert (D := cos_2a_cos (i_third / 2)). rewrite Z in D. replace (2 * (i_third / 2)) with i_third in D by field. lra.
Qed.
Lemma high8_free : g_res ideal (p_deep ideal (SDP8_init ideal high_set)) = None.
Proof.
  destruct high8 as (H1 & H2 & H3 & H4 & _). rewrite (same_terms high_set H1 H2 H4). exact high_free.
Qed.
Lemma no_report : exists m o t s, o = d_orb (machine m) t /\ 0 < toR (o_eo (machine m) o) < 1 /\ 0 < toR (o_xno (machine m) o) /\ fin s /\
  exists v', SDP8 (machine m) 5 s t (SDP8_init (machine m) t) (fresh (machine m) (p_deep (machine m) (SDP8_init (machine m) t)))
    = Ok (Some (v', mk_place (machine m) 0 (nan, nan, nan) (nan, nan, nan))).
Proof.
  exists flat_libm, o_past, t_past, (round_ratio (-10000000) 1). split; [reflexivity|]. destruct F1_R as [O1 O2]. assert (Z1 : fin F0) by reflexivity. assert (Z2 : toR F0 = 0) by reflexivity.
  assert (FE : fin (round_ratio 1 2)) by (vm_compute; reflexivity). assert (FN : fin (round_ratio 2 100)) by (vm_compute; reflexivity).
  assert (L1 : flt F0 (round_ratio 1 2) = true) by (vm_compute; reflexivity). assert (L2 : flt (round_ratio 1 2) F1 = true) by (vm_compute; reflexivity). assert (L3 : flt F0 (round_ratio 2 100) = true) by (vm_compute; reflexivity).
  apply flt_R in L1; [|assumption|assumption]. apply flt_R in L2; [|assumption|assumption]. apply flt_R in L3; [|assumption|assumption]. rewrite Z2 in *. rewrite O2 in L2.
  unfold o_past at 1 2 3. cbn [o_eo o_xno]. split; [lra|]. split; [lra|]. split; [vm_compute; reflexivity|]. exact past8.
Qed.
