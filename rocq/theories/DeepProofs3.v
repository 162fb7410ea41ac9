(** The steps of the resonance integrator, in real arithmetic and in binary64. *)
From Coq Require Import ZArith List Reals Lra Lia Bool.
From Flocq Require Import Core IEEE754.BinarySingleNaN Sterbenz.
From Verif Require Import CLib FloatModel ArithModel FloatLemmas GeoLemmas OrbModel AngleProofs DeepModel DeepTerms DeepProofs1 DeepProofs2.
Import ListNotations.
Open Scope R_scope.

Section Steps.
Context (A : arith).
(** The step taken, and whether it is the last one. *)
Definition clip (delt : num A) : num A * bool :=
  if ltn A (int A 720) delt then (int A 720, false) else if ltn A delt (opp A (int A 720)) then (opp A (int A 720), false) else (delt, true).
Lemma dpsec_1 n derivs xfact t atime xni xli d fl : clip (sub A t atime) = (d, fl) ->
  dpsec_loop A (S n) derivs xfact t atime xni xli =
  let st := dpsec_step A derivs xfact d atime xni xli in
  if fl then Some (add A atime d, snd st, fst st) else dpsec_loop A n derivs xfact t (add A atime d) (snd st) (fst st).
Proof.
  intros E. cbn [dpsec_loop]. unfold clip in E. destruct (if ltn A (int A 720) (sub A t atime) then _ else _) as [d' fl'] eqn:X. injection E as <- <-.
  destruct (dpsec_step A derivs xfact d' atime xni xli). reflexivity.
Qed.
Lemma rwalk_1 d r derivs xfact atime xni xli :
  resonance_walk A (d :: r) derivs xfact atime xni xli =
  let st := dpsec_step A derivs xfact d atime xni xli in resonance_walk A r derivs xfact (add A atime d) (snd st) (fst st).
Proof. cbn [resonance_walk]. destruct (dpsec_step A derivs xfact d atime xni xli). reflexivity. Qed.
End Steps.

Lemma clip_ideal x : clip ideal x = if Rltb 720 x then (720, false) else if Rltb x (-720) then (-720, false) else (x, true).
Proof. unfold clip. rewrite int_ideal. change (opp ideal 720) with (- (720)). replace (- (720)) with (-720) by lra. reflexivity. Qed.

Lemma dpsec_ideal_aux derivs xfact t N : forall atime xni xli, Rabs (t - atime) <= 720 * INR (S N) ->
  exists dts, Forall (fun d => Rabs d <= 720) dts /\ sum dts = t - atime /\ INR (length dts) <= Rabs (t - atime) / 720 + 1
  /\ (exists xni' xli', resonance_walk ideal dts derivs xfact atime xni xli = (t, xni', xli'))
  /\ forall n, ((length dts <= n)%nat -> dpsec_loop ideal n derivs xfact t atime xni xli = Some (resonance_walk ideal dts derivs xfact atime xni xli))
               /\ ((n < length dts)%nat -> dpsec_loop ideal n derivs xfact t atime xni xli = None).
Proof.
  assert (Last : forall atime xni xli, Rabs (t - atime) <= 720 ->
    exists dts, Forall (fun d => Rabs d <= 720) dts /\ sum dts = t - atime /\ INR (length dts) <= Rabs (t - atime) / 720 + 1
  /\ (exists xni' xli', resonance_walk ideal dts derivs xfact atime xni xli = (t, xni', xli'))
  /\ forall n, ((length dts <= n)%nat -> dpsec_loop ideal n derivs xfact t atime xni xli = Some (resonance_walk ideal dts derivs xfact atime xni xli))
               /\ ((n < length dts)%nat -> dpsec_loop ideal n derivs xfact t atime xni xli = None)).
  { intros atime xni xli B. exists [t - atime]. split; [constructor; [exact B | constructor]|]. split; [cbn; ring|].
    split; [cbn; assert (P := Rabs_pos (t - atime)); lra|]. split.
    - rewrite rwalk_1. cbn [resonance_walk]. do 2 eexists. f_equal. f_equal. change (atime + (t - atime) = t). ring.
    - assert (C : clip ideal (sub ideal t atime) = (t - atime, true)).
      { rewrite clip_ideal. change (sub ideal t atime) with (t - atime). apply Rabs_le_inv in B. replace (Rltb 720 (t - atime)) with false by (symmetry; apply Rltb_f; lra).
        replace (Rltb (t - atime) (-720)) with false by (symmetry; apply Rltb_f; lra). reflexivity. }
      intros n. cbn [length]. split; intros L; [|destruct n; [reflexivity | lia]]. destruct n as [|n]; [lia|]. rewrite (dpsec_1 ideal n derivs xfact t atime xni xli _ _ C), rwalk_1. reflexivity. }
  induction N as [|N IH]; intros atime xni xli B.
  - apply Last. cbn [INR] in B. lra.
  - destruct (Rle_dec (Rabs (t - atime)) 720) as [S|S]; [apply Last, S|]. apply Rnot_le_lt in S.
    assert (exists d, clip ideal (sub ideal t atime) = (d, false) /\ Rabs d = 720 /\ Rabs (t - (atime + d)) = Rabs (t - atime) - 720) as (d & C & AD & RD).
    { rewrite clip_ideal. change (sub ideal t atime) with (t - atime). destruct (Rltb 720 (t - atime)) eqn:L.
      - apply Rltb_t in L. exists 720. split; [reflexivity|]. rewrite (Rabs_pos_eq 720), (Rabs_pos_eq (t - atime)), (Rabs_pos_eq (t - (atime + 720))) by lra. lra.
      - apply Rltb_f in L. destruct (Rltb (t - atime) (-720)) eqn:L2.
        + apply Rltb_t in L2. exists (-720). split; [reflexivity|]. rewrite (Rabs_left (-720)), (Rabs_left (t - atime)) by lra. rewrite (Rabs_left1 (t - (atime + -720))) by lra. lra.
        + apply Rltb_f in L2. exfalso. assert (Rabs (t - atime) <= 720) by (apply Rabs_le; lra). lra. }
    set (st := dpsec_step ideal derivs xfact d atime xni xli).
    destruct (IH (atime + d) (snd st) (fst st)) as (r & FA & SU & LB & W & H).
    { rewrite RD. rewrite S_INR in B. lra. }
    exists (d :: r). split; [constructor; [lra | exact FA]|]. split; [cbn [sum fold_right]; change (fold_right Rplus 0 r) with (sum r); rewrite SU; ring|].
    split; [cbn [length]; rewrite S_INR; rewrite RD in LB; lra|]. rewrite rwalk_1. fold st. split; [exact W|].
    intros n. cbn [length]. split; intros L.
    + destruct n as [|n]; [lia|]. rewrite (dpsec_1 ideal n derivs xfact t atime xni xli _ _ C). apply H. lia.
    + destruct n as [|n]; [reflexivity|]. rewrite (dpsec_1 ideal n derivs xfact t atime xni xli _ _ C). apply H. lia.
Qed.
Lemma dpsec_ideal derivs xfact t atime xni xli :
  exists dts, Forall (fun d => Rabs d <= 720) dts /\ sum dts = t - atime /\ INR (length dts) <= Rabs (t - atime) / 720 + 1
  /\ (exists xni' xli', resonance_walk ideal dts derivs xfact atime xni xli = (t, xni', xli'))
  /\ forall n, ((length dts <= n)%nat -> dpsec_loop ideal n derivs xfact t atime xni xli = Some (resonance_walk ideal dts derivs xfact atime xni xli))
               /\ ((n < length dts)%nat -> dpsec_loop ideal n derivs xfact t atime xni xli = None).
Proof.
  apply (dpsec_ideal_aux derivs xfact t (Z.to_nat (up (Rabs (t - atime))))).
  destruct (archimed (Rabs (t - atime))) as [U _]. assert (P := Rabs_pos (t - atime)). rewrite S_INR, INR_IZR_INZ, Z2Nat.id; [lra|]. apply le_IZR. lra.
Qed.

(** Over histories: the integrator stands at the last time asked for. *)
Lemma sdp_atime A n s t g v v' out : SDP4_deep A n s t g v = Ok (Some (v', out)) ->
  match g_res A g with
  | None => v_atime A v' = v_atime A v
  | Some r => let '(a, x, l) := dpsec_start A g r s v in
              exists l', dpsec_loop A n (compute_dpsec_derivs A (g_omegaq A g) (k_omgdot A (g_com A g)) (r_coefs A r)) (r_xfact A r) s a x l = Some (v_atime A v', v_xni A v', l') /\ v_xli A v' = l'
  end.
Proof.
  unfold SDP4_deep, Deep_dpsec, Deep_dpper, refresh. destruct (g_res A g) as [r|].
  - destruct (dpsec_start A g r s v) as [[a x] l]. destruct (dpsec_loop A n _ _ s a x l) as [[[a' x'] l']|]; [|discriminate].
    cbn [y_xn v_savtsn v_perts v_atime v_xni v_xli y_em y_xll y_omgadf y_xnode y_xinc]. destruct (ltn A x' (int A 0)).
    + intros H. injection H as <- <-. cbn [v_atime v_xni v_xli]. eauto.
    + match goal with |- context [len A ?a ?b] => destruct (len A a b) end; cbn [v_perts].
      * cbn [bind]. intros H. injection H as <- <-. cbn [v_atime v_xni v_xli]. eauto.
      * destruct (v_perts A v); cbn [bind]; [|discriminate]. intros H. injection H as <- <-. cbn [v_atime v_xni v_xli]. eauto.
  - cbn [y_xn v_savtsn v_perts v_atime v_xni v_xli y_em y_xll y_omgadf y_xnode y_xinc].
    match goal with |- context [ltn A ?a ?b] => destruct (ltn A a b) end.
    + intros H. injection H as <- <-. reflexivity.
    + match goal with |- context [len A ?a ?b] => destruct (len A a b) end; cbn [v_perts].
      * cbn [bind]. intros H. injection H as <- <-. reflexivity.
      * destruct (v_perts A v); cbn [bind]; [|discriminate]. intros H. injection H as <- <-. reflexivity.
Qed.
Lemma stands_at t g r ts v : g_res ideal g = Some r -> called ideal t g ts v -> v_atime ideal v = hd 0 ts.
Proof.
  intros R C. induction C as [|ts n s v v' out C IH H]; [unfold fresh; cbn [v_atime hd]; apply int_ideal|].
  apply sdp_atime in H. rewrite R in H. destruct (dpsec_start ideal g r s v) as [[a x] l]. destruct H as (l' & H & _). cbn [hd].
  destruct (dpsec_ideal (compute_dpsec_derivs ideal (g_omegaq ideal g) (k_omgdot ideal (g_com ideal g)) (r_coefs ideal r)) (r_xfact ideal r) s a x l) as (dts & _ & _ & _ & (x' & l2 & W) & E).
  destruct (Nat.le_gt_cases (length dts) n) as [L|L].
  - destruct (E n) as [E1 _]. rewrite (E1 L), W in H. injection H as <- _ _. reflexivity.
  - destruct (E n) as [_ E2]. rewrite (E2 L) in H. discriminate.
Qed.
(** Where a request starts from, and its steps. *)
Lemma resonance_steps t g r ts v s : g_res ideal g = Some r -> called ideal t g ts v ->
  let from := if Rlt_dec (Rabs s) (Rabs (s - hd 0 ts)) then 0 else hd 0 ts in
  exists a x l dts, dpsec_start ideal g r s v = (a, x, l) /\ a = from
    /\ Forall (fun d => Rabs d <= 720) dts /\ sum dts = s - from /\ INR (length dts) <= Rmin (Rabs s) (Rabs (s - hd 0 ts)) / 720 + 1
    /\ let derivs := compute_dpsec_derivs ideal (g_omegaq ideal g) (k_omgdot ideal (g_com ideal g)) (r_coefs ideal r) in
       (exists xni' xli', resonance_walk ideal dts derivs (r_xfact ideal r) a x l = (s, xni', xli'))
       /\ forall n, ((length dts <= n)%nat -> dpsec_loop ideal n derivs (r_xfact ideal r) s a x l = Some (resonance_walk ideal dts derivs (r_xfact ideal r) a x l))
                    /\ ((n < length dts)%nat -> dpsec_loop ideal n derivs (r_xfact ideal r) s a x l = None).
Proof.
  intros R C from. assert (S := stands_at t g r ts v R C).
  assert (exists a x l, dpsec_start ideal g r s v = (a, x, l) /\ a = from) as (a & x & l & E & F).
  { unfold dpsec_start, from. rewrite S. change (ltn ideal (c_fabs ideal s) (c_fabs ideal (sub ideal s (hd 0 ts)))) with (Rltb (Rabs s) (Rabs (s - hd 0 ts))).
    unfold Rltb. destruct (Rlt_dec _ _); do 3 eexists; (split; [reflexivity|]); [apply int_ideal | reflexivity]. }
  set (derivs := compute_dpsec_derivs ideal (g_omegaq ideal g) (k_omgdot ideal (g_com ideal g)) (r_coefs ideal r)).
  destruct (dpsec_ideal derivs (r_xfact ideal r) s a x l) as (dts & D1 & D2 & D3 & D4 & D5). exists a, x, l, dts.
  split; [exact E|]. split; [exact F|]. split; [exact D1|]. split; [rewrite D2, F; reflexivity|]. split; [|split; [exact D4 | exact D5]].
  rewrite F in D3. unfold from in D3. destruct (Rlt_dec (Rabs s) (Rabs (s - hd 0 ts))).
  - rewrite Rmin_left by lra. replace (s - 0) with s in D3 by ring. exact D3.
  - rewrite Rmin_right by lra. exact D3.
Qed.
