(** SDP8: its rates, what survives a call, and the place. *)
From Coq Require Import ZArith List Reals Lra Psatz Lia Bool.
From Flocq Require Import Core IEEE754.BinarySingleNaN.
From Verif Require Import CLib FloatModel ArithModel FloatLemmas GeoLemmas OrbModel OrbSpec OrbProofs2 OrbProofs3 OrbProofs5 DeepModel DeepSpec DeepTerms DeepProofs1 DeepProofs2 DeepProofs3 DeepProofs4 DeepProofs5 DeepProofs13.
From Verif Require Import Sgp8Model Sgp8Spec Sgp8Proofs1 Sgp8Proofs2 Sgp8Proofs5 Sdp8Model Sdp8Terms.
Import ListNotations.
Open Scope R_scope.

(** ** What survives a call *)
Section Kept.
Context (A : arith).
Lemma sdp8_kept n s t p v v' out : SDP8 A n s t p v = Ok (Some (v', out)) -> let g := p_deep A p in
  match g_res A g with
  | None => v_atime A v' = v_atime A v
  | Some r => let '(a, x, l) := dpsec_start A g r s v in
              dpsec_loop A n (compute_dpsec_derivs A (g_omegaq A g) (k_omgdot A (g_com A g)) (r_coefs A r)) (r_xfact A r) s a x l = Some (v_atime A v', v_xni A v', v_xli A v')
  end /\
  ((v_savtsn A v', v_perts A v') = (v_savtsn A v, v_perts A v)
   \/ (v_savtsn A v', v_perts A v') = (s, Some (perts_at A g s)) /\ len A (int A 30) (c_fabs A (sub A (v_savtsn A v) s)) = true).
Proof.
  unfold SDP8, Deep_dpsec, Deep_dpper, refresh. cbv zeta. destruct (g_res A (p_deep A p)) as [r|].
  - destruct (dpsec_start A _ r s v) as [[a x] l]. destruct (dpsec_loop A n _ _ s a x l) as [[[a' x'] l']|]; [|discriminate].
    cbn [v_savtsn v_perts]. destruct (len A (int A 30) (c_fabs A (sub A (v_savtsn A v) s))); cbn [v_perts].
    + cbn [bind]. destruct (posn_vel8 _ _ _ _ _ _ _ _ _ _ _). intros H. injection H as <- <-. split; [reflexivity|]. right. split; reflexivity.
    + destruct (v_perts A v) eqn:P; cbn [bind]; [|discriminate]. destruct (posn_vel8 _ _ _ _ _ _ _ _ _ _ _). intros H. injection H as <- <-. split; [reflexivity|]. left. reflexivity.
  - destruct (len A (int A 30) (c_fabs A (sub A (v_savtsn A v) s))); cbn [v_perts].
    + cbn [bind]. destruct (posn_vel8 _ _ _ _ _ _ _ _ _ _ _). intros H. injection H as <- <-. split; [reflexivity|]. right. split; reflexivity.
    + destruct (v_perts A v) eqn:P; cbn [bind]; [|discriminate]. destruct (posn_vel8 _ _ _ _ _ _ _ _ _ _ _). intros H. injection H as <- <-. split; [reflexivity|]. left. rewrite P. reflexivity.
Qed.
Lemma history8 t p ts v : called8 A t p ts v -> never_kept A v \/ kept A (p_deep A p) ts v.
Proof.
  intros C. induction C as [|ts n s v v' out C IH H]; [left; split; reflexivity|].
  apply sdp8_kept in H. destruct H as [_ [H | [H W]]]; injection H as E1 E2.
  - destruct IH as [[I1 I2] | [I1 I2]]; [left | right]; unfold never_kept, kept; rewrite E1, E2; [auto|]. split; [right; exact I1 | exact I2].
  - right. unfold kept. rewrite E1, E2. split; [left; reflexivity|]. split; [reflexivity | exists (v_savtsn A v); exact W].
Qed.
End Kept.
Lemma kept8 t p ts v s y : called8 ideal t p ts v -> s <= 10 ^ 20 - 30 -> let g := p_deep ideal p in
  exists tau v', Deep_dpper ideal t g s y v = Ok (apply_perts ideal (o_xincl ideal (d_orb ideal t)) (perts_at ideal g tau) y, v')
    /\ In tau (s :: ts) /\ Rabs (tau - s) < 30.
Proof.
  intros C B g. unfold Deep_dpper, refresh. destruct (len ideal (int ideal 30) (c_fabs ideal (sub ideal (v_savtsn ideal v) s))) eqn:L.
  - cbn [v_perts]. do 2 eexists. split; [reflexivity|]. split; [left; reflexivity|]. rewrite Rminus_diag_eq, Rabs_R0 by reflexivity. lra.
  - destruct (history8 ideal t p ts v C) as [[N1 N2]|(H1 & H2 & _)].
    + exfalso. rewrite N1, int_ideal in L. change (Rleb 30 (Rabs (100000000000000000000 / 1 - s)) = false) in L. apply Rleb_f in L. rewrite Rabs_pos_eq in L; lra.
    + rewrite H2. do 2 eexists. split; [reflexivity|]. split; [right; exact H1|]. rewrite int_ideal in L. apply Rleb_f in L. exact L.
Qed.
Lemma stands8 t p r ts v : g_res ideal (p_deep ideal p) = Some r -> called8 ideal t p ts v -> v_atime ideal v = hd 0 ts.
Proof.
  intros R C. induction C as [|ts n s v v' out C IH H]; [unfold fresh; cbn [v_atime hd]; apply int_ideal|].
  apply sdp8_kept in H. cbv zeta in H. rewrite R in H. destruct H as [H _]. destruct (dpsec_start ideal _ r s v) as [[a x] l]. cbn [hd]. set (g := p_deep ideal p) in *.
  destruct (dpsec_ideal (compute_dpsec_derivs ideal (g_omegaq ideal g) (k_omgdot ideal (g_com ideal g)) (r_coefs ideal r)) (r_xfact ideal r) s a x l) as (dts & _ & _ & _ & (x' & l2 & W) & E).
  destruct (Nat.le_gt_cases (length dts) n) as [L|L].
  - destruct (E n) as [E1 _]. rewrite (E1 L), W in H. injection H as <- _ _. reflexivity.
  - destruct (E n) as [_ E2]. rewrite (E2 L) in H. discriminate.
Qed.
Lemma resonance_steps8 t p r ts v s : let g := p_deep ideal p in g_res ideal g = Some r -> called8 ideal t p ts v ->
  let from := if Rlt_dec (Rabs s) (Rabs (s - hd 0 ts)) then 0 else hd 0 ts in
  exists a x l dts, dpsec_start ideal g r s v = (a, x, l) /\ a = from
    /\ Forall (fun d => Rabs d <= 720) dts /\ sum dts = s - from /\ INR (length dts) <= Rmin (Rabs s) (Rabs (s - hd 0 ts)) / 720 + 1
    /\ let derivs := compute_dpsec_derivs ideal (g_omegaq ideal g) (k_omgdot ideal (g_com ideal g)) (r_coefs ideal r) in
       (exists xni' xli', resonance_walk ideal dts derivs (r_xfact ideal r) a x l = (s, xni', xli'))
       /\ forall n, ((length dts <= n)%nat -> dpsec_loop ideal n derivs (r_xfact ideal r) s a x l = Some (resonance_walk ideal dts derivs (r_xfact ideal r) a x l))
                    /\ ((n < length dts)%nat -> dpsec_loop ideal n derivs (r_xfact ideal r) s a x l = None).
Proof.
  intros g R C from. assert (S := stands8 t p r ts v R C).
  assert (exists a x l, dpsec_start ideal g r s v = (a, x, l) /\ a = from) as (a & x & l & E & F).
  { unfold dpsec_start, from. rewrite S. change (ltn ideal (c_fabs ideal s) (c_fabs ideal (sub ideal s (hd 0 ts)))) with (Rltb (Rabs s) (Rabs (s - hd 0 ts))).
    unfold Rltb. destruct (Rlt_dec _ _); do 3 eexists; (split; [reflexivity|]); [apply int_ideal | reflexivity]. }
  set (derivs := compute_dpsec_derivs ideal (g_omegaq ideal g) (k_omgdot ideal (g_com ideal g)) (r_coefs ideal r)).
  destruct (dpsec_ideal derivs (r_xfact ideal r) s a x l) as (dts & D1 & D2 & D3 & D4 & D5). exists a, x, l, dts.
  split; [exact E|]. split; [exact F|]. split; [exact D1|]. split; [rewrite D2, F; reflexivity|]. split; [|split; [exact D4 | exact D5]].
  rewrite F in D3. unfold from in D3. destruct (Rlt_dec (Rabs s) (Rabs (s - hd 0 ts))).
  - rewrite Rmin_left by lra. replace (s - 0) with s in D3 by ring. exact D3.
  - rewrite Rmin_right by lra. exact D3.
Qed.

(** ** The rates and the place *)
Ltac ic := unfold int; cbn [add sub mul div opp ltn len cst c_sin c_cos c_sqrt c_fabs c_pow ideal num fst snd]; change (num ideal) with R in *.
Section Orbit.
Context (t : dorb ideal).
Let o := d_orb ideal t.
Let i : R := o_xincl ideal o.
Let e0 : R := o_eo ideal o.
Let n0 : R := o_xno ideal o.
Let N : R := n0'' i e0 n0.
Let a : R := a0'' i e0 n0.
Let d := sxpall_common_init ideal o.
Let c := sxp8_common_init ideal o d.
Let p := SDP8_init ideal t.
Let g := p_deep ideal p.
Context (He : 0 < e0 < 1) (Hn : 0 < n0) (HN : 0 < N) (Ha : height_s < a * (1 - e0)).

(** *** The terms of the Sun, of the Moon and of the resonances are those of SDP4 *)
Lemma above_s : s_star i e0 n0 < a * (1 - e0).
Proof.
  assert (P : perigee_km i e0 n0 = (a * (1 - e0) - 1) * XKMPER) by reflexivity. unfold height_s in Ha. assert (X : 0 < XKMPER) by (unfold XKMPER; lra).
  unfold s_star. destruct (Rle_dec _ 98); [unfold XKMPER in *; lra|]. destruct (Rlt_dec _ 156); [change (a0'' i e0 n0) with a; unfold XKMPER; lra|lra].
Qed.
Lemma eta_1 : eta0 i e0 n0 ^ 2 <> 1.
Proof.
  assert (S := above_s). assert (A : 0 < a) by exact (a_pos o He Ha). unfold eta0, xi. change (a0'' i e0 n0) with a.
  assert (Q : a * e0 < a - s_star i e0 n0) by lra. assert (0 < a * e0) by nra. set (q := a * e0 * (1 / (a - s_star i e0 n0))).
  assert (Q0 : 0 < q). { unfold q. apply Rmult_lt_0_compat; [lra|]. apply Rdiv_lt_0_compat; lra. }
  assert (Q1 : q < 1). { unfold q. apply Rmult_lt_reg_r with (a - s_star i e0 n0); [lra|]. field_simplify; lra. } nra.
Qed.
Let k4 := sxpx_common_init ideal o.
Lemma same_com : OrbModel.k_start ideal k4 = d /\ k_sinio ideal k4 = sin i /\ k_xmdot ideal k4 = b_xmdot ideal c /\ k_omgdot ideal k4 = b_omgdot ideal c /\ k_xnodot ideal k4 = b_xnodot ideal c.
Proof.
  assert (A : 0 < a) by exact (a_pos o He Ha). assert (S := above_s).
  destruct (common_eq o ltac:(fold e0; lra) Hn A ltac:(change (a <> s_star i e0 n0); nra) eta_1) as (E1 & E2 & E3 & E4 & E5 & E6 & E7 & E8 & E9 & E10 & E11 & E12 & E13 & E14).
  split; [exact E2|]. split; [exact E8|]. destruct (rates8_ok o He Hn Ha) as (_ & _ & _ & R1 & R2 & R3).
  specialize (R1 0 1). specialize (R2 0 1). specialize (R3 0 1). fold d c in R1, R2, R3. unfold M_DF in R1. unfold w_DF in R2. unfold node_DF in R3. change (num ideal) with R in *.
  unfold k4. rewrite E10, E11, E12. fold i e0 n0 N a. fold i e0 n0 N a in R1, R2, R3. repeat split; lra.
Qed.
Lemma dpinit_same k k' : OrbModel.k_start ideal k = OrbModel.k_start ideal k' -> k_sinio ideal k = k_sinio ideal k' -> k_xmdot ideal k = k_xmdot ideal k' -> k_omgdot ideal k = k_omgdot ideal k' ->
  k_xnodot ideal k = k_xnodot ideal k' -> Deep_dpinit ideal t k = with_com k (Deep_dpinit ideal t k').
Proof.
  intros H1 H2 H3 H4 H5.
  assert (S : secular ideal t k = with_com k (secular ideal t k')).
  { destruct k, k'. cbn [OrbModel.k_start OrbModel.k_sinio OrbModel.k_xmdot OrbModel.k_omgdot OrbModel.k_xnodot] in *. subst.
    cbv beta iota zeta delta [secular OrbModel.k_start OrbModel.k_sinio].
    match goal with |- context [negb ?b] => destruct (negb b) end; reflexivity. }
  unfold Deep_dpinit. cbv zeta. rewrite S. set (G := secular ideal t k'). assert (GC : g_com ideal G = k').
  { unfold G, secular. cbv zeta. repeat match goal with |- context [match ?p with (_, _) => _ end] => destruct p end. reflexivity. }
  clearbody G. clear S.
  assert (X : resonant ideal t (with_com k G) = resonant ideal t G); [|unfold with_com in *; cbn [g_com g_thgr g_omegaq g_zmol g_zmos g_sse g_ssi g_ssl g_ssg g_ssh g_sun g_moon g_res]; rewrite X; reflexivity].
  destruct G. cbn [DeepModel.g_com] in GC. subst g_com. destruct k, k'. cbn [OrbModel.k_start OrbModel.k_sinio OrbModel.k_xmdot OrbModel.k_omgdot OrbModel.k_xnodot] in *. subst.
  cbv delta [resonant half_day one_day with_com]. cbv beta.
  cbv delta [DeepModel.g_com DeepModel.g_thgr DeepModel.g_ssl DeepModel.g_ssg DeepModel.g_ssh OrbModel.k_start OrbModel.k_sinio OrbModel.k_xmdot OrbModel.k_omgdot OrbModel.k_xnodot]. cbv beta. cbv iota. cbv beta. cbv iota. reflexivity.
Qed.
Lemma same_terms : g = with_com (common8 ideal d c (sin i)) (Deep_dpinit ideal t k4).
Proof. destruct same_com as (H1 & H2 & H3 & H4 & H5). apply dpinit_same; cbn [common8 OrbModel.k_start k_sinio k_xmdot k_omgdot k_xnodot]; symmetry; assumption. Qed.

(** *** The elements of date *)
Let rate := rate8 t.
Lemma drag8_is : p_xndt ideal p = rate /\ p_edot ideal p = - (2 / 3) * (rate / N) * (1 - e0) /\ p_com ideal p = c.
Proof.
  unfold p, SDP8_init. cbv zeta. cbn [p_xndt p_edot p_com]. fold o. change (c_sin ideal (o_xincl ideal o)) with (sin (o_xincl ideal o)). rewrite (drag_ok o He Hn HN Ha). unfold drag_is. cbn [g_xndt g_xndtn].
  split; [reflexivity|]. split; [|reflexivity]. rewrite tt_is. ic. replace (1 / 1) with 1 by lra. reflexivity.
Qed.
Lemma com_is : g_com ideal g = common8 ideal d c (sin i).
Proof. unfold g, p, SDP8_init. cbv zeta. cbn [p_deep]. unfold Deep_dpinit. cbn [g_com]. unfold secular. cbv zeta. repeat match goal with |- context [match ?p with (_, _) => _ end] => destruct p end. reflexivity. Qed.
Definition step8 (y : elems ideal) (v : dstate ideal) : option (dstate ideal * place ideal) :=
  let '(pos, vel) := posn_vel8 ideal c (sin i) (cos i) (cos i * cos i) (sin (y_xinc ideal y / 2)) (y_xn ideal y) (y_em ideal y) (FMod2p ideal (y_xll ideal y)) (y_omgadf ideal y) (y_xnode ideal y) in
  Some (v, mk_place ideal 0 pos vel).
Lemma sizes : 0 < a /\ 0 < 1 - e0 ^ 2 /\ a * (1 - e0 ^ 2) <> 0.
Proof. assert (A : 0 < a) by exact (a_pos o He Ha). assert (B2 : 0 < 1 - e0 ^ 2) by nra. repeat split; nra. Qed.
Lemma tail r : (r' <- r ;; let '(y, v) := r' in
    let xmam := FMod2p ideal (y_xll ideal y) in let sinio2 := c_sin ideal (mul ideal (y_xinc ideal y) (cst ideal 5 10)) in
    let '(pos, vel) := posn_vel8 ideal c (k_sinio ideal (g_com ideal g)) (i_cosio ideal (OrbModel.k_start ideal (g_com ideal g))) (i_cosio2 ideal (OrbModel.k_start ideal (g_com ideal g))) sinio2 (y_xn ideal y) (y_em ideal y) xmam (y_omgadf ideal y) (y_xnode ideal y) in
    Ok (Some (v, mk_place ideal 0 pos vel))) = (r' <- r ;; Ok (step8 (fst r') (snd r'))).
Proof.
  destruct r as [[y v]|]; [|reflexivity]. cbn [bind fst snd]. cbv zeta. unfold step8. rewrite com_is. cbn [common8 k_sinio OrbModel.k_start].
  change (i_cosio ideal d) with (cos i). change (i_cosio2 ideal d) with (cos i * cos i).
  assert (H : c_sin ideal (mul ideal (y_xinc ideal y) (cst ideal 5 10)) = sin (y_xinc ideal y / 2)). { ic. f_equal. lra. }
  rewrite H. destruct (posn_vel8 _ _ _ _ _ _ _ _ _ _ _). reflexivity.
Qed.
Lemma sdp8_none n s v : g_res ideal g = None ->
  SDP8 ideal n s t p v = (r <- Deep_dpper ideal t g s (elements8 t g N (base_free t g s) s) v ;; Ok (step8 (fst r) (snd r))).
Proof.
  intros G. destruct drag8_is as (D1 & D2 & D3). destruct (rates8_ok o He Hn Ha) as (R1 & R2 & R3 & R4 & R5 & R6). fold d c in R1, R2, R3, R4, R5, R6.
  destruct sizes as (S1 & S2 & S3).
  unfold SDP8, Deep_dpsec. cbv zeta. fold g. rewrite G. cbn [y_xn y_em y_xll y_omgadf y_xnode y_xinc]. rewrite D3. rewrite tail. f_equal.
  match goal with |- Deep_dpper ideal t g s ?x v = _ => assert (X : x = elements8 t g N (base_free t g s) s); [|rewrite X; reflexivity] end.
  rewrite D1, D2, R1, R2, R3, com_is. cbn [common8 OrbModel.k_start k_xmdot k_omgdot k_xnodot]. fold o. ic. rewrite R4, R5, R6, tt_is.
  assert (XN : i_xnodp ideal d = N) by exact (x_n o He Hn Ha). rewrite XN.
  unfold elements8, omega8, node8, w_8, node_8, base_free, grown. fold o. fold i e0 n0. change (n0'' i e0 n0) with N. change (a0'' i e0 n0) with a. fold rate.
  set (q := sqrt (1 - e0 ^ 2)). change (num ideal) with R in *. f_equal; field; repeat split; lra.
Qed.
Lemma sdp8_some n s v r a1 x l a' x' l' : g_res ideal g = Some r -> dpsec_start ideal g r s v = (a1, x, l) ->
  dpsec_loop ideal n (compute_dpsec_derivs ideal (g_omegaq ideal g) (k_omgdot ideal (g_com ideal g)) (r_coefs ideal r)) (r_xfact ideal r) s a1 x l = Some (a', x', l') ->
  SDP8 ideal n s t p v = (r <- Deep_dpper ideal t g s (elements8 t g x' (base8_resonant t g (r_coefs ideal r) l' s) s) (mk_dstate ideal a' x' l' (v_savtsn ideal v) (v_perts ideal v)) ;;
    Ok (step8 (fst r) (snd r))).
Proof.
  intros G SL L. destruct drag8_is as (D1 & D2 & D3). destruct (rates8_ok o He Hn Ha) as (R1 & R2 & R3 & R4 & R5 & R6). fold d c in R1, R2, R3, R4, R5, R6.
  destruct sizes as (S1 & S2 & S3).
  unfold SDP8, Deep_dpsec. cbv zeta. fold g. rewrite G, SL, L. cbn [y_xn y_em y_xll y_omgadf y_xnode y_xinc v_savtsn v_perts]. rewrite D3. rewrite tail. f_equal.
  match goal with |- Deep_dpper ideal t g s ?x ?w = _ => assert (X : x = elements8 t g x' (base8_resonant t g (r_coefs ideal r) l' s) s); [|rewrite X; reflexivity] end.
  rewrite D1, D2, R1, R2, R3, com_is. cbn [common8 OrbModel.k_start k_xmdot k_omgdot k_xnodot]. fold o. ic. rewrite R5, R6, tt_is.
  assert (XN : i_xnodp ideal d = N) by exact (x_n o He Hn Ha). rewrite XN.
  unfold elements8, base8_resonant, omega8, node8, w_8, node_8, grown, thdt. fold o. fold i e0 n0. change (n0'' i e0 n0) with N. change (a0'' i e0 n0) with a. fold rate. ic.
  set (q := sqrt (1 - e0 ^ 2)). change (num ideal) with R in *. destruct (r_coefs ideal r); f_equal; field; repeat split; lra.
Qed.
Lemma step8_ok y v : 0 < y_xn ideal y -> 0 <= y_em ideal y < 1 -> 1 + cos i <> 0 -> cos (i / 2) <> 0 ->
  exists pl, step8 y v = Some (v, pl) /\ pl_code ideal pl = 0%Z /\ finished8 i y (vec_of (pl_pos ideal pl)) (vec_of (pl_vel ideal pl)).
Proof.
  intros H1 H2 H3 H4. unfold step8. destruct (FMod2p_ok (y_xll ideal y)) as [KR [k K]]. set (M := FMod2p ideal (y_xll ideal y)) in *.
  destruct (place_ok o (y_xn ideal y) (y_em ideal y) M (y_omgadf ideal y) (y_xnode ideal y) (y_xinc ideal y) H1 H2 H3 H4) as (E & SE & PL). fold d c i in PL.
  destruct (posn_vel8 _ _ _ _ _ _ _ _ _ _ _) as [pos vel]. eexists. split; [reflexivity|]. split; [reflexivity|]. exists M, E, k. split; [exact KR|]. split; [exact K|]. split; [exact SE|]. exact PL.
Qed.
Context (ts : list R) (v : dstate ideal) (Hc : called8 ideal t p ts v) (s : R) (Ht : s <= 10 ^ 20 - 30) (Hi : 1 + cos i <> 0) (Hi2 : cos (i / 2) <> 0).
Theorem place8_free n : g_res ideal g = None -> exists tau, In tau (s :: ts) /\ Rabs (tau - s) < 30 /\
  let y := apply_perts ideal i (perts_at ideal g tau) (elements8 t g N (base_free t g s) s) in
  (0 < y_xn ideal y -> 0 <= y_em ideal y < 1 -> exists v' pl, SDP8 ideal n s t p v = Ok (Some (v', pl)) /\ pl_code ideal pl = 0%Z
     /\ finished8 i y (vec_of (pl_pos ideal pl)) (vec_of (pl_vel ideal pl))).
Proof.
  intros G. destruct (kept8 t p ts v s (elements8 t g N (base_free t g s) s) Hc Ht) as (tau & v' & A1 & A2 & A3). fold g o in A1. fold i in A1. exists tau. split; [exact A2|]. split; [exact A3|].
  intros y H1 H2. destruct (step8_ok y v' H1 H2 Hi Hi2) as (pl & P1 & P2 & P3). exists v', pl. split; [|split; assumption].
  rewrite (sdp8_none n s v G), A1. cbn [bind fst snd]. fold y. rewrite P1. reflexivity.
Qed.
Theorem place8_resonant n r a1 x l a' x' l' : g_res ideal g = Some r -> dpsec_start ideal g r s v = (a1, x, l) ->
  dpsec_loop ideal n (compute_dpsec_derivs ideal (g_omegaq ideal g) (k_omgdot ideal (g_com ideal g)) (r_coefs ideal r)) (r_xfact ideal r) s a1 x l = Some (a', x', l') ->
  exists tau, In tau (s :: ts) /\ Rabs (tau - s) < 30 /\
  let y := apply_perts ideal i (perts_at ideal g tau) (elements8 t g x' (base8_resonant t g (r_coefs ideal r) l' s) s) in
  (0 < y_xn ideal y -> 0 <= y_em ideal y < 1 -> exists v' pl, SDP8 ideal n s t p v = Ok (Some (v', pl)) /\ pl_code ideal pl = 0%Z
     /\ finished8 i y (vec_of (pl_pos ideal pl)) (vec_of (pl_vel ideal pl))).
Proof.
  intros G SL L. destruct (kept8 t p ts v s (elements8 t g x' (base8_resonant t g (r_coefs ideal r) l' s) s) Hc Ht) as (tau & v' & A1 & A2 & A3). fold g o in A1. fold i in A1. exists tau. split; [exact A2|]. split; [exact A3|].
  destruct (dpper_same _ _ _ _ _ _ _ a' x' l' A1) as (v'' & A4).
  intros y H1 H2. destruct (step8_ok y v'' H1 H2 Hi Hi2) as (pl & P1 & P2 & P3). exists v'', pl. split; [|split; assumption].
  rewrite (sdp8_some n s v r a1 x l a' x' l' G SL L), A4. cbn [bind fst snd]. fold y. rewrite P1. reflexivity.
Qed.
End Orbit.
Lemma same_terms_ex t : let o := d_orb ideal t in let i := o_xincl ideal o in let e0 := o_eo ideal o in let n0 := o_xno ideal o in
  0 < e0 < 1 -> 0 < n0 -> height_s < a0'' i e0 n0 * (1 - e0) ->
  exists k, p_deep ideal (SDP8_init ideal t) = with_com k (Deep_dpinit ideal t (sxpx_common_init ideal o)) /\ k_omgdot ideal k = k_omgdot ideal (sxpx_common_init ideal o)
    /\ i_xnodp ideal (OrbModel.k_start ideal k) = n0'' i e0 n0.
Proof.
  intros o i e0 n0 He Hn Ha. eexists. split; [exact (same_terms t He Hn Ha)|]. destruct (same_com t He Hn Ha) as (_ & _ & _ & H4 & _).
  split; [symmetry; exact H4|]. exact (x_n o He Hn Ha).
Qed.
