(** The settings of the resonance integrator: when a call ends, and what it depends on. *)
From Coq Require Import ZArith List Reals Lra Lia Bool.
From Flocq Require Import Core.
From Verif Require Import CLib ArithModel GeoLemmas OrbModel DeepModel DeepProofs1 DpsecSetModel DpsecSetSpec DpsecSetProofs1.
Import ListNotations.
Open Scope R_scope.

Section Run.
Context (z : settings ideal) (derivs : R -> R -> res (list R)) (dfun : R -> R -> list R) (Hd : forall l a, derivs l a = Ok (dfun l a)) (xfact t : R).
Let h : R := z_step ideal z.
Definition point : Type := (R * R * R)%type.
Definition stepd (d : R) (p : point) : point :=
  let '(a, x, l) := p in (a + d, snd (dpsec_step_with ideal z (dfun l a) xfact d x l), fst (dpsec_step_with ideal z (dfun l a) xfact d x l)).
Definition loop (n : nat) (p : point) : res (option (R * R * point)) := let '(a, x, l) := p in dpsec_loop_with ideal n z derivs xfact t a x l.
Definition time (p : point) : R := fst (fst p).
Definition place_of (p : point) : R * R := (snd (fst p), snd p).
Lemma time_step d p : time (stepd d p) = time p + d.
Proof. destruct p as [[a x] l]. reflexivity. Qed.
Lemma loop_fwd n p : h < t - time p -> loop (S n) p = loop n (stepd h p).
Proof.
  destruct p as [[a x] l]. cbn [time fst]. intros H. cbn [loop dpsec_loop_with stepd]. rewrite Hd. cbn [bind]. fold h.
  change (ltn ideal h (sub ideal t a)) with (Rltb h (t - a)). rewrite (proj2 (Rltb_t h (t - a)) H).
  destruct (dpsec_step_with ideal z (dfun l a) xfact h x l) as [l' x']. reflexivity.
Qed.
Lemma loop_bwd n p : ~ h < t - time p -> t - time p < - h -> loop (S n) p = loop n (stepd (- h) p).
Proof.
  destruct p as [[a x] l]. cbn [time fst]. intros N H. cbn [loop dpsec_loop_with stepd]. rewrite Hd. cbn [bind]. fold h.
  change (ltn ideal h (sub ideal t a)) with (Rltb h (t - a)). rewrite (proj2 (Rltb_f h (t - a))) by lra.
  change (ltn ideal (sub ideal t a) (opp ideal h)) with (Rltb (t - a) (- h)). rewrite (proj2 (Rltb_t (t - a) (- h)) H).
  change (opp ideal h) with (- h). destruct (dpsec_step_with ideal z (dfun l a) xfact (- h) x l) as [l' x']. reflexivity.
Qed.
Lemma loop_last n p : ~ h < t - time p -> ~ t - time p < - h ->
  loop (S n) p = Ok (Some (place_of (stepd (t - time p) p), if z_dundee ideal z then p else stepd (t - time p) p)).
Proof.
  destruct p as [[a x] l]. cbn [time fst]. intros N H. cbn [loop dpsec_loop_with stepd]. rewrite Hd. cbn [bind]. fold h.
  change (ltn ideal h (sub ideal t a)) with (Rltb h (t - a)). rewrite (proj2 (Rltb_f h (t - a))) by lra.
  change (ltn ideal (sub ideal t a) (opp ideal h)) with (Rltb (t - a) (- h)). rewrite (proj2 (Rltb_f (t - a) (- h))) by lra.
  change (sub ideal t a) with (t - a). cbn [place_of fst snd]. destruct (dpsec_step_with ideal z (dfun l a) xfact (t - a) x l) as [l' x']. reflexivity.
Qed.
(** A call ends when the step is positive *)
Lemma loop_ends : 0 < h -> forall n p, Rabs (t - time p) <= h * INR (S n) -> exists r, loop (S n) p = Ok (Some r).
Proof.
  intros Hh. induction n as [|n IH]; intros p B.
  - cbn [INR] in B. rewrite Rmult_1_r in B. apply Rabs_le_inv in B. rewrite loop_last by lra. eexists. reflexivity.
  - rewrite S_INR in B. destruct (Rlt_dec h (t - time p)) as [F|F].
    + rewrite loop_fwd by exact F. apply IH. rewrite time_step. rewrite Rabs_pos_eq in * by lra. lra.
    + destruct (Rlt_dec (t - time p) (- h)) as [G|G].
      * rewrite loop_bwd by assumption. apply IH. rewrite time_step. rewrite Rabs_left in B by lra. rewrite Rabs_left1 by lra. lra.
      * rewrite loop_last by assumption. eexists. reflexivity.
Qed.
(** and never when it is negative, *)
Lemma loop_negative : h < 0 -> forall n p, loop n p = Ok None.
Proof.
  intros Hh. induction n as [|n IH]; intros p; [destruct p as [[a x] l]; reflexivity|].
  destruct (Rlt_dec h (t - time p)) as [F|F]; [rewrite loop_fwd by exact F; apply IH | rewrite loop_bwd by lra; apply IH].
Qed.
(** or when it is zero and the time is another one. *)
Lemma loop_zero : h = 0 -> forall n p, t <> time p -> loop n p = Ok None.
Proof.
  intros Hh. induction n as [|n IH]; intros p T; [destruct p as [[a x] l]; reflexivity|].
  destruct (Rlt_dec h (t - time p)) as [F|F].
  - rewrite loop_fwd by exact F. apply IH. rewrite time_step. lra.
  - rewrite loop_bwd by lra. apply IH. rewrite time_step. lra.
Qed.

(** Full steps from the epoch. *)
Context (p0 : point) (T0 : time p0 = 0).
Fixpoint iter (sg : R) (k : nat) : point := match k with O => p0 | S k => stepd (sg * h) (iter sg k) end.
Lemma iter_time sg k : time (iter sg k) = sg * (h * INR k).
Proof. induction k as [|k IH]; [cbn; rewrite T0; ring|]. cbn [iter]. rewrite time_step, IH, S_INR. ring. Qed.
Lemma iter_loop sg : (sg = 1 \/ sg = -1) -> 0 < h -> z_dundee ideal z = true -> forall n k x l q, h * INR k <= sg * t -> loop n (iter sg k) = Ok (Some (x, l, q)) ->
  exists k', h * INR k' <= sg * t <= h * INR k' + h /\ q = iter sg k' /\ (x, l) = place_of (stepd (t - time (iter sg k')) (iter sg k')).
Proof.
  intros S Hh Du. induction n as [|n IH]; intros k x l q B E; [destruct (iter sg k) as [[? ?] ?]; discriminate E|].
  destruct (Rlt_dec (h * INR k + h) (sg * t)) as [F|F].
  - apply (IH (Datatypes.S k) x l q); [rewrite S_INR; lra|]. rewrite <- E. cbn [iter]. destruct S as [-> | ->].
    + rewrite loop_fwd by (rewrite iter_time; lra). rewrite Rmult_1_l. reflexivity.
    + rewrite loop_bwd by (rewrite iter_time; lra). replace (-1 * h) with (- h) by ring. reflexivity.
  - exists k. split; [lra|]. rewrite loop_last in E by (rewrite iter_time; destruct S as [-> | ->]; lra). rewrite Du in E. injection E as E1 E2 E3.
    split; [symmetry; exact E3|]. rewrite <- E1, <- E2. reflexivity.
Qed.
Lemma series_still ds : forall i w q prev X N, series ideal ds i w q 0 0 prev X N = (X, N).
Proof.
  induction ds as [|d ds IH]; intros i w q prev X N; [reflexivity|]. cbn [series]. toreal.
  replace (0 * div ideal 0 (int ideal i)) with 0 by (symmetry; apply Rmult_0_l). rewrite !Rmult_0_l, !Rplus_0_r. apply IH.
Qed.
Lemma step_still p : place_of (stepd 0 p) = place_of p.
Proof.
  destruct p as [[a x] l]. unfold stepd, place_of, dpsec_step_with. cbn [fst snd]. toreal. rewrite !Rmult_0_l, !Rplus_0_r, series_still. reflexivity.
Qed.
(** The end does not depend on where along the steps the call started. *)
Lemma iter_same sg k1 k2 n1 n2 x1 l1 q1 x2 l2 q2 : (sg = 1 \/ sg = -1) -> 0 < h -> z_dundee ideal z = true ->
  h * INR k1 <= sg * t -> h * INR k2 <= sg * t ->
  loop n1 (iter sg k1) = Ok (Some (x1, l1, q1)) -> loop n2 (iter sg k2) = Ok (Some (x2, l2, q2)) -> (x1, l1) = (x2, l2).
Proof.
  intros S Hh Du B1 B2 E1 E2.
  destruct (iter_loop sg S Hh Du n1 k1 x1 l1 q1 B1 E1) as (j1 & C1 & _ & ->). destruct (iter_loop sg S Hh Du n2 k2 x2 l2 q2 B2 E2) as (j2 & C2 & _ & ->).
  assert (W : forall i j, (i < j)%nat -> h * INR i <= sg * t <= h * INR i + h -> h * INR j <= sg * t <= h * INR j + h ->
    place_of (stepd (t - time (iter sg i)) (iter sg i)) = place_of (stepd (t - time (iter sg j)) (iter sg j))).
  { intros i j L Bi Bj. assert (J : INR i + 1 <= INR j) by (rewrite <- S_INR; apply le_INR; lia).
    assert (J' : INR j = INR i + 1) by nra. assert (j = Datatypes.S i) as -> by (apply INR_eq; rewrite S_INR; exact J').
    assert (St : sg * t = h * INR i + h) by nra.
    replace (t - time (iter sg (Datatypes.S i))) with 0 by (rewrite iter_time, S_INR; destruct S as [-> | ->]; lra). rewrite step_still. cbn [iter].
    replace (t - time (iter sg i)) with (sg * h) by (rewrite iter_time; destruct S as [-> | ->]; lra). reflexivity. }
  destruct (Nat.lt_trichotomy j1 j2) as [L|[-> | L]]; [apply W; assumption | reflexivity | symmetry; apply W; assumption].
Qed.
End Run.

(** ** In SDP4 *)
Section Call.
Context (z : settings ideal) (Ho : (z_order ideal z <= 20)%Z) (t : dorb ideal) (g : deep ideal) (r : resonance ideal) (Hr : g_res ideal g = Some r).
Let h : R := z_step ideal z.
Let derivs := compute_dpsec_derivs_with ideal z (g_omegaq ideal g) (k_omgdot ideal (g_com ideal g)) (r_coefs ideal r).
Let dfun (l a : R) : list R := match derivs l a with Ok ds => ds | UB _ => [] end.
Let Hd : forall l a, derivs l a = Ok (dfun l a).
Proof. intros l a. unfold dfun, derivs. destruct (derivs_are z (g_omegaq ideal g) (k_omgdot ideal (g_com ideal g)) (r_coefs ideal r) l a Ho) as (ds & E & _). rewrite E. reflexivity. Qed.
Let p0 : R * R * R := (int ideal 0, i_xnodp ideal (k_start ideal (g_com ideal g)), r_xlamo ideal r).
Let T0 : time p0 = 0.
Proof. apply int_ideal. Qed.
Definition kept (v : dstate ideal) : R * R * R := (v_atime ideal v, v_xni ideal v, v_xli ideal v).
Definition start (s : R) (v : dstate ideal) : R * R * R :=
  if (if Rlt_dec (Rabs s) (Rabs (s - v_atime ideal v)) then true else z_dundee ideal z && (if Rlt_dec (Rabs s) (Rabs (v_atime ideal v)) then true else false)) then p0 else kept v.
Lemma start_is s v : dpsec_start_with ideal z g r s v = start s v.
Proof.
  unfold dpsec_start_with, start. change (ltn ideal (c_fabs ideal s) (c_fabs ideal (sub ideal s (v_atime ideal v)))) with (Rltb (Rabs s) (Rabs (s - v_atime ideal v))).
  change (ltn ideal (c_fabs ideal s) (c_fabs ideal (v_atime ideal v))) with (Rltb (Rabs s) (Rabs (v_atime ideal v))). unfold Rltb.
  destruct (Rlt_dec _ _), (Rlt_dec _ _); destruct (z_dundee ideal z); reflexivity.
Qed.
Lemma start_near s v : Rabs (s - time (start s v)) <= Rabs s.
Proof.
  unfold start. destruct (Rlt_dec (Rabs s) (Rabs (s - v_atime ideal v))) as [L|L].
  - rewrite T0, Rminus_0_r. lra.
  - destruct (z_dundee ideal z && _); [rewrite T0, Rminus_0_r; lra | cbn [kept time fst]; lra].
Qed.
(** What Deep_dpsec does with the end of the loop. *)
Definition rest (s : R) (y : elems ideal) (v : dstate ideal) (e : R * R * (R * R * R)) : elems ideal * dstate ideal :=
  let '(xni, xli, (a', x', l')) := e in
  let xnode := y_xnode ideal y + g_ssh ideal g * s in
  let omgadf := y_omgadf ideal y + g_ssg ideal g * s in
  let temp := - xnode + g_thgr ideal g + s * thdt ideal in
  (mk_elems ideal (xli + temp + match r_coefs ideal r with Synchronous _ _ _ => - omgadf | Half _ _ _ _ _ _ _ _ _ _ => temp end) omgadf xnode
     (o_eo ideal (d_orb ideal t) + g_sse ideal g * s) (o_xincl ideal (d_orb ideal t) + g_ssi ideal g * s) xni,
   mk_dstate ideal a' x' l' (v_savtsn ideal v) (v_perts ideal v)).
Lemma dpsec_is n s y v : Deep_dpsec_with ideal n z t g s y v =
  (e <- loop z derivs (r_xfact ideal r) s n (start s v) ;; Ok (match e with None => None | Some e => Some (rest s y v e) end)).
Proof.
  unfold Deep_dpsec_with. rewrite Hr, start_is. unfold loop. fold derivs. destruct (start s v) as [[a x] l]. fold derivs.
  destruct (dpsec_loop_with ideal n z derivs (r_xfact ideal r) s a x l) as [[[[? ?] [[? ?] ?]]|]|]; reflexivity.
Qed.
Lemma dpsec_ends n s y v : 0 < h -> Rabs s / h + 1 <= INR n -> exists e, Deep_dpsec_with ideal n z t g s y v = Ok (Some e).
Proof.
  intros Hh B. assert (P := Rabs_pos s). assert (Q : 0 <= Rabs s / h) by (apply Rmult_le_pos; [lra | left; apply Rinv_0_lt_compat; lra]).
  destruct n as [|n]; [cbn [INR] in B; lra|]. rewrite dpsec_is.
  destruct (loop_ends z derivs dfun Hd (r_xfact ideal r) s Hh n (start s v)) as [e E].
  - eapply Rle_trans; [apply start_near|]. replace (Rabs s) with (h * (Rabs s / h)) by (field; lra). fold h. apply Rmult_le_compat_l; lra.
  - rewrite E. cbn [bind]. eexists. reflexivity.
Qed.
Lemma sdp_none n s v : (forall y, Deep_dpsec_with ideal n z t g s y v = Ok None) -> SDP4_deep_with ideal n z s t g v = Ok None.
Proof. intros H. unfold SDP4_deep_with. rewrite H. reflexivity. Qed.
Lemma never_negative n s v : h < 0 -> SDP4_deep_with ideal n z s t g v = Ok None.
Proof. intros Hh. apply sdp_none. intros y. rewrite dpsec_is, (loop_negative z derivs dfun Hd (r_xfact ideal r) s Hh). reflexivity. Qed.
Lemma never_zero n s : h = 0 -> s <> 0 -> SDP4_deep_with ideal n z s t g (fresh ideal g) = Ok None.
Proof.
  intros Hh S. apply sdp_none. intros y. rewrite dpsec_is.
  assert (time (start s (fresh ideal g)) = 0).
  { unfold start. destruct (Rlt_dec _ _); [exact T0|]. destruct (z_dundee ideal z && _); [exact T0 | apply int_ideal]. }
  rewrite (loop_zero z derivs dfun Hd (r_xfact ideal r) s Hh) by lra. reflexivity.
Qed.

(** ** With Dundee compliance *)
Context (Hh : 0 < h) (Du : z_dundee ideal z = true).
Let it := iter z dfun (r_xfact ideal r) p0.
Definition along_steps (v : dstate ideal) : Prop := exists sg k, (sg = 1 \/ sg = -1) /\ kept v = it sg k.
Definition side (s : R) : R := if Rle_dec 0 s then 1 else -1.
Lemma side_ok s : (side s = 1 \/ side s = -1) /\ side s * s = Rabs s.
Proof. unfold side. destruct (Rle_dec 0 s); split; auto; [rewrite Rabs_pos_eq by lra | rewrite Rabs_left by lra]; ring. Qed.
Lemma start_along s v : along_steps v -> exists k, start s v = it (side s) k /\ h * INR k <= side s * s.
Proof.
  intros (sg & k & S & K). destruct (side_ok s) as [_ Ss].
  assert (Zero : exists k, p0 = it (side s) k /\ h * INR k <= side s * s) by (exists O; split; [reflexivity | rewrite Ss; cbn [INR]; assert (P := Rabs_pos s); lra]).
  unfold start. destruct (Rlt_dec (Rabs s) (Rabs (s - v_atime ideal v))) as [L|L]; [exact Zero|]. rewrite Du. cbn [andb].
  destruct (Rlt_dec (Rabs s) (Rabs (v_atime ideal v))) as [L2|L2]; [exact Zero|].
  assert (Ta : v_atime ideal v = sg * (h * INR k)).
  { change (v_atime ideal v) with (time (kept v)). rewrite K. apply (iter_time z dfun (r_xfact ideal r) p0 T0). }
  rewrite Ta in L, L2. destruct k as [|k].
  - rewrite K. exact Zero.
  - exists (Datatypes.S k). assert (Pk : 0 < h * INR (Datatypes.S k)) by (apply Rmult_lt_0_compat; [exact Hh | apply lt_0_INR; lia]). set (q := h * INR (Datatypes.S k)) in *.
    assert (Sg : side s = sg).
    { unfold side. destruct S as [-> | ->]; destruct (Rle_dec 0 s) as [G|G]; try reflexivity; exfalso; apply L.
      - apply Rnot_le_lt in G. rewrite Rabs_left, (Rabs_left (s - 1 * q)) by lra. lra.
      - rewrite Rabs_pos_eq, (Rabs_pos_eq (s - -1 * q)) by lra. lra. }
    split; [rewrite Sg; exact K|]. rewrite Ss. apply Rnot_lt_le in L2. destruct S as [-> | ->]; [rewrite Rmult_1_l, (Rabs_pos_eq q) in L2 by lra; exact L2|].
    replace (-1 * q) with (- q) in L2 by ring. rewrite Rabs_Ropp, (Rabs_pos_eq q) in L2 by lra. exact L2.
Qed.
Lemma fresh_along : along_steps (fresh ideal g).
Proof. exists 1, O. split; [left; reflexivity|]. unfold kept, it, fresh. rewrite Hr. reflexivity. Qed.
Lemma dpsec_along n s y v y' v' : along_steps v -> Deep_dpsec_with ideal n z t g s y v = Ok (Some (y', v')) -> along_steps v'.
Proof.
  intros Al E. rewrite dpsec_is in E. destruct (start_along s v Al) as (k & S & B). rewrite S in E.
  destruct (loop z derivs (r_xfact ideal r) s n (it (side s) k)) as [[[[x l] q]|]|] eqn:L; try discriminate E. cbn [bind] in E.
  destruct (iter_loop z derivs dfun Hd (r_xfact ideal r) s p0 T0 (side s) (proj1 (side_ok s)) Hh Du n k x l q B L) as (k' & _ & Q & _).
  destruct q as [[a' x'] l']. injection E as _ <-. exists (side s), k'. split; [apply side_ok|]. unfold it. rewrite <- Q. reflexivity.
Qed.
Lemma called_along ts v : called_with ideal z t g ts v -> along_steps v.
Proof.
  induction 1 as [|ts n s v v' out C IH E]; [apply fresh_along|].
  unfold SDP4_deep_with in E. match type of E with context [Deep_dpsec_with ideal n z t g s ?y v] => destruct (Deep_dpsec_with ideal n z t g s y v) as [[[y' w]|]|] eqn:D end; try discriminate E.
  apply (dpsec_along _ _ _ _ _ _ IH) in D. cbn [bind] in E. destruct (ltn ideal (y_xn ideal y') (int ideal 0)).
  - injection E as <- _. exact D.
  - unfold Deep_dpper_with, refresh_with in E. rewrite Du, orb_true_r in E. cbn [v_perts bind] in E. injection E as <- _. exact D.
Qed.
Lemma same_as_fresh ts v n n' s : called_with ideal z t g ts v -> Rabs s / h + 1 <= INR n -> Rabs s / h + 1 <= INR n' ->
  exists v1 v2 out, SDP4_deep_with ideal n z s t g v = Ok (Some (v1, out)) /\ SDP4_deep_with ideal n' z s t g (fresh ideal g) = Ok (Some (v2, out)).
Proof.
  intros C B B'. apply called_along in C. unfold SDP4_deep_with. set (y := mk_elems ideal _ _ _ _ _ _).
  destruct (dpsec_ends n s y v Hh B) as [[y1 w1] E1]. destruct (dpsec_ends n' s y (fresh ideal g) Hh B') as [[y2 w2] E2]. rewrite E1, E2.
  assert (Y : y1 = y2).
  { rewrite dpsec_is in E1, E2. destruct (start_along s v C) as (k1 & S1 & B1). destruct (start_along s (fresh ideal g) fresh_along) as (k2 & S2 & B2). rewrite S1 in E1. rewrite S2 in E2.
    destruct (loop z derivs (r_xfact ideal r) s n (it (side s) k1)) as [[[[x1 l1] q1]|]|] eqn:L1; try discriminate E1.
    destruct (loop z derivs (r_xfact ideal r) s n' (it (side s) k2)) as [[[[x2 l2] q2]|]|] eqn:L2; try discriminate E2.
    assert (X := iter_same z derivs dfun Hd (r_xfact ideal r) s p0 T0 (side s) k1 k2 n n' x1 l1 q1 x2 l2 q2 (proj1 (side_ok s)) Hh Du B1 B2 L1 L2).
    injection X as -> ->. cbn [bind] in E1, E2. destruct q1 as [[? ?] ?], q2 as [[? ?] ?]. cbn [rest] in E1, E2. injection E1 as <- _. injection E2 as <- _. reflexivity. }
  subst y2. cbn [bind]. destruct (ltn ideal (y_xn ideal y1) (int ideal 0)); [do 3 eexists; split; reflexivity|].
  unfold Deep_dpper_with, refresh_with. rewrite Du, !orb_true_r. cbn [v_perts bind]. do 3 eexists. split; reflexivity.
Qed.
End Call.
