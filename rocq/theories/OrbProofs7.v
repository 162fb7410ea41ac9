(** The propagator as a whole. *)
From Coq Require Import ZArith Reals Lra Lia Bool List.
From Verif Require Import CLib FloatModel ArithModel GeoLemmas OrbModel OrbSpec OrbTerms OrbProofs1 OrbProofs2 OrbProofs3 OrbProofs4 OrbProofs5 OrbProofs6 OrbExamples.
Import ListNotations.
Open Scope R_scope.

Lemma kepler_any A ax ay U ecc : forall n first E0 E, kepler A n first ax ay U ecc E0 = Some E ->
  ltn A (c_fabs A (add A (sub A U E) (sub A (mul A ax (c_sin A E)) (mul A ay (c_cos A E))))) (cst A 1 1000000000000) = true.
Proof.
  induction n as [|n IH]; intros first E0 E H; [discriminate H|]. cbn [kepler] in H.
  destruct (ltn A _ (cst A 1 1000000000000)) eqn:Q in H.
  - injection H as <-. exact Q.
  - destruct (if first then _ else _) as [d s]. exact (IH _ _ _ H).
Qed.

Lemma zero_vec : vec_of (zero ideal) = v3 0 0 0.
Proof. unfold vec_of, zero, int. cbn. f_equal; lra. Qed.

Lemma place_frame node a e i w L : 0 < a -> e ^ 2 <> 1 -> 1 + cos i <> 0 ->
  let p := sxpx_posn_vel ideal node a e (cos i) (sin i) i w L in
  (In (pl_code ideal p) [-1; -6]%Z /\ vec_of (pl_pos ideal p) = v3 0 0 0 /\ vec_of (pl_vel ideal p) = v3 0 0 0)
  \/ (In (pl_code ideal p) [0; -4]%Z /\ exists r E u U V,
        r = a * (1 - (axN e w * cos E + ayN a e i w * sin E)) /\ on_ellipse a e i w E r u
        /\ dot U U = 1 /\ dot V V = 1 /\ dot U V = 0
        /\ vec_of (pl_pos ideal p) = scale (XKMPER * r_k a e i w r u) U
        /\ vec_of (pl_vel ideal p) = scale XKMPER (plus (scale (rdot_k a e i w E r u) U) (scale (rfdot_k a e i w r u) V))).
Proof.
  intros Ha He _. cbv zeta. destruct (posn_cases node a e i w L Ha He) as [(C & _)|[(C & _)|(U & E & k & C & _ & _ & _ & _ & P)]].
  - left. destruct (posn_codes ideal node a e (cos i) (sin i) i w L) as [(_ & P & V)|B]; [|rewrite C in B; cbn in B; intuition congruence].
    rewrite C, P, V, zero_vec. split; [cbn; auto|auto].
  - left. destruct (posn_codes ideal node a e (cos i) (sin i) i w L) as [(_ & P & V)|B]; [|rewrite C in B; cbn in B; intuition congruence].
    rewrite C, P, V, zero_vec. split; [cbn; auto|auto].
  - right. rewrite C. split; [destruct (Rlt_dec _ _); cbn; auto|].
    destruct P as (r & u & R1 & R2 & R3 & R4). destruct (frame (node_k node a e i w u) (i_k a e i w u) (u_k a e i w u)) as (F1 & F2 & F3).
    exists r, E, u. eexists _, _. split; [exact R1|]. split; [exact R2|]. split; [exact F1|]. split; [exact F2|]. split; [exact F3|]. split; [exact R3 | exact R4].
Qed.

Lemma place_kepler node a e i w L : 0 < a -> e ^ 2 <> 1 -> 1 + cos i <> 0 ->
  let p := sxpx_posn_vel ideal node a e (cos i) (sin i) i w L in
  In (pl_code ideal p) [0; -4]%Z ->
  exists U E E' k, U = LT a e i w L - node - 2 * PI * IZR k
    /\ placed node a e i w E (vec_of (pl_pos ideal p)) (vec_of (pl_vel ideal p))
    /\ Rabs (kepler_defect a e i w U E) < 1 / 10 ^ 12
    /\ kepler_defect a e i w U E' = 0 /\ (forall x, kepler_defect a e i w U x = 0 -> x = E')
    /\ Rabs (E - E') < 3 / 10 ^ 6.
Proof.
  intros Ha He _. cbv zeta. intros IC. destruct (posn_cases node a e i w L Ha He) as [(C & _)|[(C & _)|(U & E & k & C & EL & UU & _ & KD & P)]];
    [rewrite C in IC; cbn in IC; intuition congruence | rewrite C in IC; cbn in IC; intuition congruence |].
  destruct (kepler_solution a e i w U E ltac:(lra)) as (E' & K1 & K2' & K3).
  exists U, E, E', k. repeat (split; [assumption|]).
  assert (S0 : 0 <= eL2 a e i w) by (unfold eL2; apply Rplus_le_le_0_compat; apply pow2_ge_0).
  assert (S1 : sqrt (eL2 a e i w) <= 1 - 4 / 10 ^ 7).
  { replace (1 - 4 / 10 ^ 7) with (sqrt ((1 - 4 / 10 ^ 7) ^ 2)) by (rewrite sqrt_pow2; lra). apply sqrt_le_1; lra. }
  set (s := sqrt (eL2 a e i w)) in *. set (dd := Rabs (kepler_defect a e i w U E)) in *.
  apply Rle_lt_trans with (dd / (1 - s)); [exact K3|]. apply (Rmult_lt_reg_r (1 - s)); [lra|]. unfold Rdiv. rewrite Rmult_assoc, Rinv_l by lra.
  assert (3 / 10 ^ 6 * (4 / 10 ^ 7) <= 3 / 10 ^ 6 * (1 - s)) by (apply Rmult_le_compat_l; lra). unfold Rdiv in *. lra.
Qed.

Lemma report o t :
  let i := o_xincl ideal o in let e0 := o_eo ideal o in let n := o_xno ideal o in
  let b := o_bstar ideal o in let w0 := o_omegao ideal o in let M0 := o_xmo ideal o in
  0 <= e0 < 1 -> 0 < n -> 0 < a0'' i e0 n -> a0'' i e0 n <> s_star i e0 n -> eta0 i e0 n ^ 2 <> 1 ->
  exists q4, Rabs (q4 - q_star i e0 n) <= 1 / 10 ^ 30 /\
  propagate t o = Ok (sxpx_posn_vel ideal
      (mean_node b i (o_xnodeo ideal o) e0 n q4 t)
      (if Rlt_dec (a_factor b i e0 n q4 t) 0 then - mean_a b i e0 n q4 t else mean_a b i e0 n q4 t)
      (Rmax (mean_e b i e0 w0 M0 n q4 t) (1 / 1000000))
      (cos i) (sin i) i (mean_w b i e0 w0 M0 n q4 t) (mean_L b i (o_xnodeo ideal o) e0 w0 M0 n q4 t)).
Proof. cbv zeta. intros H1 H0 H2 H3 H4. exists (q4_used o). split; [apply q4_near|]. apply SGP4_eq; assumption. Qed.

Lemma report_place o t :
  let i := o_xincl ideal o in let e0 := o_eo ideal o in let n := o_xno ideal o in
  let b := o_bstar ideal o in let w0 := o_omegao ideal o in let M0 := o_xmo ideal o in
  0 <= e0 < 1 -> 0 < n -> 0 < a0'' i e0 n -> a0'' i e0 n <> s_star i e0 n -> eta0 i e0 n ^ 2 <> 1 -> 1 + cos i <> 0 ->
  exists q4 p, Rabs (q4 - q_star i e0 n) <= 1 / 10 ^ 30 /\ propagate t o = Ok p /\
    (0 < a_factor b i e0 n q4 t -> 1 / 1000000 <= mean_e b i e0 w0 M0 n q4 t -> mean_e b i e0 w0 M0 n q4 t <> 1 ->
     In (pl_code ideal p) [0; -4]%Z ->
     let node := mean_node b i (o_xnodeo ideal o) e0 n q4 t in let a := mean_a b i e0 n q4 t in let e := mean_e b i e0 w0 M0 n q4 t in
     let w := mean_w b i e0 w0 M0 n q4 t in let L := mean_L b i (o_xnodeo ideal o) e0 w0 M0 n q4 t in
     exists U E k, U = LT a e i w L - node - 2 * PI * IZR k /\ Rabs (kepler_defect a e i w U E) < 1 / 10 ^ 12
       /\ placed node a e i w E (vec_of (pl_pos ideal p)) (vec_of (pl_vel ideal p))).
Proof.
  cbv zeta. intros H1 H0 H2 H3 H4 H5. destruct (report o t H1 H0 H2 H3 H4) as (q4 & Q & PR). exists q4. eexists. split; [exact Q|]. split; [exact PR|].
  intros F E1 E2. destruct (Rlt_dec _ 0) as [N|_]; [lra|]. rewrite Rmax_left by lra. intros IC.
  assert (A : 0 < mean_a (o_bstar ideal o) (o_xincl ideal o) (o_eo ideal o) (o_xno ideal o) q4 t) by (unfold mean_a; apply Rmult_lt_0_compat; [exact H2 | apply pow_lt; exact F]).
  match goal with |- context [LT _ ?e _ _ _] => set (em := e) in *; assert (E3 : em ^ 2 <> 1) end.
  { intros Z. assert ((em - 1) * (em + 1) = 0) by lra. apply Rmult_integral in H. lra. }
  destruct (place_kepler _ _ _ _ _ _ A E3 H5 IC) as (U & E & E' & k & P1 & P2 & P3 & _). exists U, E, k. auto.
Qed.

(** The value of KE: the square root of 398600.8 km^3/s^2 in these units. *)
Lemma ke_value : 0 < KE /\ Rabs (KE ^ 2 - 398600.8 * 60 ^ 2 / XKMPER ^ 3) <= 1 / 10 ^ 19.
Proof. split; [unfold KE; lra|]. unfold KE, XKMPER. apply Rabs_le. lra. Qed.

(** The choice of the propagator. *)
Lemma chosen o : (o_type ideal o <> 104)%Z ->
  ((o_xno ideal o <= 0 \/ 1 < o_eo ideal o \/ o_eo ideal o < 0) -> select_ephemeris ideal o = (-1)%Z)
  /\ (0 < o_xno ideal o -> 0 <= o_eo ideal o <= 1 ->
      (In (o_type ideal o) [50; 52]%Z -> select_ephemeris ideal o = 0%Z) /\ (In (o_type ideal o) [51; 53]%Z -> select_ephemeris ideal o = 1%Z)
      /\ (~ In (o_type ideal o) [50; 51; 52; 53]%Z -> o_eo ideal o < 1 -> 0 < a0'' (o_xincl ideal o) (o_eo ideal o) (o_xno ideal o) ->
          select_ephemeris ideal o = if Rle_dec 225 (2 * PI / n0'' (o_xincl ideal o) (o_eo ideal o) (o_xno ideal o)) then 1%Z else 0%Z)).
Proof.
  intros T. unfold select_ephemeris, int. replace (o_type ideal o =? 104)%Z with false by (symmetry; apply Z.eqb_neq; exact T).
  cbn [len ltn cst ideal]. split.
  - intros H. assert (Q : Datatypes.orb (Datatypes.orb (Rleb (o_xno ideal o) (0 / 1)) (Rltb (1 / 1) (o_eo ideal o))) (Rltb (o_eo ideal o) (0 / 1)) = true).
    { destruct H as [H|[H|H]]; [replace (Rleb _ _) with true by (symmetry; apply Rleb_t; lra); reflexivity
        | replace (Rltb (1 / 1) _) with true by (symmetry; apply Rltb_t; lra); rewrite orb_true_r; reflexivity
        | replace (Rltb (o_eo ideal o) _) with true by (symmetry; apply Rltb_t; lra); rewrite orb_true_r; reflexivity]. }
    rewrite Q. reflexivity.
  - intros N E. replace (Rleb _ _) with false by (symmetry; apply Rleb_f; lra). replace (Rltb (1 / 1) _) with false by (symmetry; apply Rltb_f; lra).
    replace (Rltb (o_eo ideal o) _) with false by (symmetry; apply Rltb_f; lra). cbn [Datatypes.orb].
    split; [|split].
    + intros [<-|[<-|[]]]; reflexivity.
    + intros [<-|[<-|[]]]; reflexivity.
    + intros NI E1 A. replace (o_type ideal o =? 50)%Z with false by (symmetry; apply Z.eqb_neq; intros Z; apply NI; rewrite Z; cbn; auto).
      replace (o_type ideal o =? 51)%Z with false by (symmetry; apply Z.eqb_neq; intros Z; apply NI; rewrite Z; cbn; auto).
      replace (o_type ideal o =? 52)%Z with false by (symmetry; apply Z.eqb_neq; intros Z; apply NI; rewrite Z; cbn; auto).
      replace (o_type ideal o =? 53)%Z with false by (symmetry; apply Z.eqb_neq; intros Z; apply NI; rewrite Z; cbn; auto 6).
      cbn [Datatypes.orb]. rewrite (xnodp_eq o ltac:(lra) N A). rewrite o_twopi_eq. cbn [div ideal].
      destruct (Rleb _ _) eqn:Q; [apply Rleb_t in Q | apply Rleb_f in Q]; destruct (Rle_dec _ _); try reflexivity; exfalso; lra.
Qed.
Lemma h_forces A o : (o_type A o = 104)%Z -> select_ephemeris A o = 1%Z.
Proof. intros H. unfold select_ephemeris. rewrite H. reflexivity. Qed.

(** The orbit at 2 Earth radii has a period of 239 minutes. *)
Lemma ex_two_deep : select_ephemeris ideal o_two = 1%Z.
Proof.
  destruct two_hyps as (H1 & _ & H2 & _).
  assert (N : 0 < n_two). { unfold n_two. assert (0 < sqrt 2) by (apply sqrt_lt_R0; lra). apply Rmult_lt_0_compat; [unfold KE; lra | apply Rinv_0_lt_compat; lra]. }
  assert (NU : n_two <= 27 / 1000).
  { unfold n_two. assert (14 / 10 <= sqrt 2). { replace (14 / 10) with (sqrt ((14 / 10) ^ 2)) by (rewrite sqrt_pow2; lra). apply sqrt_le_1; lra. }
    apply (Rmult_le_reg_r (2 * sqrt 2)); [lra|]. unfold Rdiv. rewrite Rmult_assoc, Rinv_l by lra. unfold KE. lra. }
  assert (D : o_type ideal o_two <> 104%Z) by (cbn; lia).
  destruct (chosen o_two D) as [_ C]. destruct C as (_ & _ & C); [exact N | cbn; lra|].
  rewrite C; [| cbn; intuition lia | cbn; lra | exact H2]. cbn [o_xincl o_eo o_xno o_two].
  unfold n0'', a_0. cbv zeta. rewrite !two_delta. replace (n_two / (1 + 0)) with n_two by field.
  clear C. destruct (Rle_dec _ _) as [|G]; [reflexivity|]. exfalso. apply G. assert (P := PI_RGT_0). destruct pi_bounds as [P1 P2].
  apply (Rmult_le_reg_r n_two); [exact N|]. unfold Rdiv. rewrite Rmult_assoc, Rinv_l by lra. lra.
Qed.
