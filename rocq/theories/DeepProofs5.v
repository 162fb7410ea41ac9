(** The perturbations kept for 30 minutes. *)
From Coq Require Import ZArith List Reals Lra Lia Bool.
From Flocq Require Import Core IEEE754.BinarySingleNaN.
From Verif Require Import CLib FloatModel ArithModel FloatLemmas GeoLemmas OrbModel AngleProofs DeepModel DeepTerms DeepProofs1 DeepProofs2 DeepProofs3 DeepProofs4.
Import ListNotations.
Open Scope R_scope.

Section Kept.
Context (A : arith).
Definition never_kept (v : dstate A) : Prop := v_savtsn A v = cst A 100000000000000000000 1 /\ v_perts A v = None.
Definition kept (g : deep A) (ts : list (num A)) (v : dstate A) : Prop :=
  In (v_savtsn A v) ts /\ v_perts A v = Some (perts_at A g (v_savtsn A v)) /\ exists w, len A (int A 30) (c_fabs A (sub A w (v_savtsn A v))) = true.
(** What a call does to the two fields. *)
Lemma sdp_savtsn n s t g v v' out : SDP4_deep A n s t g v = Ok (Some (v', out)) ->
  (v_savtsn A v', v_perts A v') = (v_savtsn A v, v_perts A v)
  \/ (v_savtsn A v', v_perts A v') = (s, Some (perts_at A g s)) /\ len A (int A 30) (c_fabs A (sub A (v_savtsn A v) s)) = true.
Proof.
  unfold SDP4_deep, Deep_dpsec, Deep_dpper, refresh.
  assert (G : forall (y : elems A) v1 x f, v_savtsn A v1 = v_savtsn A v -> v_perts A v1 = v_perts A v ->
    (if ltn A (y_xn A y) (int A 0) then Ok (Some (v1, NegativeXn A)) else
       r <- match v_perts A (if len A (int A 30) (c_fabs A (sub A (v_savtsn A v1) s)) then mk_dstate A (v_atime A v1) (v_xni A v1) (v_xli A v1) s (Some (perts_at A g s)) else v1) with
            | None => UB Uninit
            | Some p => Ok (f p : elems A, if len A (int A 30) (c_fabs A (sub A (v_savtsn A v1) s)) then mk_dstate A (v_atime A v1) (v_xni A v1) (v_xli A v1) s (Some (perts_at A g s)) else v1)
            end ;; let '(y, v0) := r in Ok (Some (v0, x y))) = Ok (Some (v', out)) ->
    (v_savtsn A v', v_perts A v') = (v_savtsn A v, v_perts A v)
  \/ (v_savtsn A v', v_perts A v') = (s, Some (perts_at A g s)) /\ len A (int A 30) (c_fabs A (sub A (v_savtsn A v) s)) = true).
  { intros y v1 x f E1 E2. rewrite E1. destruct (ltn A (y_xn A y) (int A 0)).
    - intros H. injection H as <- <-. left. rewrite E1, E2. reflexivity.
    - destruct (len A (int A 30) (c_fabs A (sub A (v_savtsn A v) s))); cbn [v_perts].
      + cbn [bind]. intros H. injection H as <- <-. right. split; reflexivity.
      + destruct (v_perts A v1) eqn:P; cbn [bind]; [|discriminate]. intros H. injection H as <- <-. left. rewrite E1, <- E2, P. reflexivity. }
  destruct (g_res A g) as [r|].
  - destruct (dpsec_start A g r s v) as [[a x] l]. destruct (dpsec_loop A n _ _ s a x l) as [[[a' x'] l']|]; [|discriminate]. intros H.
    refine (G _ _ _ _ _ _ H); reflexivity.
  - intros H. refine (G _ _ _ _ _ _ H); reflexivity.
Qed.
Lemma history t g ts v : called A t g ts v -> never_kept v \/ kept g ts v.
Proof.
  intros C. induction C as [|ts n s v v' out C IH H]; [left; split; reflexivity|].
  apply sdp_savtsn in H. destruct H as [H | [H W]]; injection H as E1 E2.
  - destruct IH as [[I1 I2] | [I1 I2]]; [left | right]; unfold never_kept, kept; rewrite E1, E2; [auto|]. split; [right; exact I1 | exact I2].
  - right. unfold kept. rewrite E1, E2. split; [left; reflexivity|]. split; [reflexivity | exists (v_savtsn A v); exact W].
Qed.
(** The values applied. *)
Lemma applied t g ts v s y : called A t g ts v ->
  len A (int A 30) (c_fabs A (sub A (v_savtsn A v) s)) = true \/ ts <> [] /\ kept g ts v ->
  exists tau v', Deep_dpper A t g s y v = Ok (apply_perts A (o_xincl A (d_orb A t)) (perts_at A g tau) y, v')
    /\ (tau = s \/ In tau ts /\ len A (int A 30) (c_fabs A (sub A tau s)) = false /\ exists w, len A (int A 30) (c_fabs A (sub A w tau)) = true).
Proof.
  intros C H. unfold Deep_dpper, refresh. destruct (len A (int A 30) (c_fabs A (sub A (v_savtsn A v) s))) eqn:L.
  - cbn [v_perts]. do 2 eexists. split; [reflexivity | left; reflexivity].
  - destruct H as [H | [_ (H1 & H2 & H3)]]; [discriminate H|]. rewrite H2. do 2 eexists. split; [reflexivity|]. right. split; [exact H1 | split; [exact L | exact H3]].
Qed.
Lemma unread t g s y : len A (int A 30) (c_fabs A (sub A (cst A 100000000000000000000 1) s)) = false -> Deep_dpper A t g s y (fresh A g) = UB Uninit.
Proof. intros L. unfold Deep_dpper, refresh. cbn [v_savtsn fresh]. rewrite L. reflexivity. Qed.
End Kept.

Lemma kept_ideal t g ts v s y : called ideal t g ts v -> s <= 10 ^ 20 - 30 ->
  exists tau v', Deep_dpper ideal t g s y v = Ok (apply_perts ideal (o_xincl ideal (d_orb ideal t)) (perts_at ideal g tau) y, v')
    /\ In tau (s :: ts) /\ Rabs (tau - s) < 30.
Proof.
  intros C B. destruct (applied ideal t g ts v s y C) as (tau & v' & E & H).
  - destruct (history ideal t g ts v C) as [[N1 N2]|K].
    + left. rewrite N1, int_ideal. change (Rleb 30 (Rabs (100000000000000000000 / 1 - s)) = true). apply Rleb_t. rewrite Rabs_pos_eq; lra.
    + right. split; [|exact K]. destruct K as [K _]. intros ->. exact K.
  - exists tau, v'. split; [exact E|]. destruct H as [-> | (H1 & H2 & _)].
    + split; [left; reflexivity|]. rewrite Rminus_diag_eq, Rabs_R0 by reflexivity. lra.
    + split; [right; exact H1|]. rewrite int_ideal in H2. apply Rleb_f in H2. exact H2.
Qed.

Lemma e20 : fin (round_ratio 100000000000000000000 1) /\ toR (round_ratio 100000000000000000000 1) = 100000000000000000000.
Proof. split; [vm_compute; reflexivity|]. rewrite <- SF2R_B2SF. replace (B2SF (round_ratio 100000000000000000000 1)) with (SpecFloat.S754_finite false 6103515625000000 14) by (vm_compute; reflexivity). cbn. unfold F2R. cbn. lra. Qed.
Definition F30 : b64 := round_ratio 30 1.
Lemma F30_R : fin F30 /\ toR F30 = 30.
Proof. split; [vm_compute; reflexivity|]. rewrite <- SF2R_B2SF. replace (B2SF F30) with (SpecFloat.S754_finite false 8444249301319680 (-48)) by (vm_compute; reflexivity). cbn. unfold F2R. cbn. lra. Qed.
Lemma fabs_R x : fin x -> fin (fabs x) /\ toR (fabs x) = Rabs (toR x).
Proof. intros Fx. unfold fabs, fin in *. rewrite is_finite_Babs, (B2R_Babs 53 1024). auto. Qed.
Lemma near30 a s : fin a -> fin s -> Rabs (toR a - toR s) <= bpow radix2 1000 -> fle F30 (fabs (fsub a s)) = false -> Rabs (toR a - toR s) < 30.
Proof.
  intros Fa Fs B H. destruct (fsub_R a s 1000 Fa Fs) as [G V]; [lia | exact B|]. fold (RN (toR a - toR s)) in V. destruct (fabs_R _ G) as [H1 H2]. destruct F30_R as [O1 O2].
  apply fle_false in H; [|assumption|assumption]. rewrite H2, O2, V in H. apply Rabs_def2 in H. apply Rabs_def1.
  - destruct (Rlt_or_le (toR a - toR s) 30) as [W|W]; [exact W|]. apply (RN_int_ge _ 30) in W; [lra | lia].
  - destruct (Rlt_or_le (-30) (toR a - toR s)) as [W|W]; [exact W|]. apply (RN_int_le _ (-30)) in W; [lra | lia].
Qed.
Lemma no_nan w : fle F30 (fabs (fsub w B754_nan)) = false.
Proof. destruct w; reflexivity. Qed.
Lemma inf_far b s : fin s -> fle F30 (fabs (fsub (B754_infinity b) s)) = true.
Proof. intros F. destruct s; try discriminate F; destruct b; vm_compute; reflexivity. Qed.
Lemma kept64 m t g ts v s y : called (machine m) t g ts v -> Forall (fun s => Rabs (toR s) <= bpow radix2 66) (s :: ts) -> fin s ->
  exists tau v', Deep_dpper (machine m) t g s y v = Ok (apply_perts (machine m) (o_xincl (machine m) (d_orb (machine m) t)) (perts_at (machine m) g tau) y, v')
    /\ In tau (s :: ts) /\ fin tau /\ Rabs (toR tau - toR s) < 30.
Proof.
  intros C FS Fs. inversion FS as [|s0 ts0 Bs FS']; subst. assert (P66 : bpow radix2 66 = 73786976294838206464) by (rewrite bpow_pos; reflexivity).
  assert (BB : bpow radix2 68 <= bpow radix2 1000) by (apply bpow_le; lia). assert (P67 : bpow radix2 68 = 295147905179352825856) by (rewrite bpow_pos; reflexivity).
  destruct (applied (machine m) t g ts v s y C) as (tau & v' & E & H).
  - destruct (history (machine m) t g ts v C) as [[N1 N2]|K].
    + left. rewrite N1. change (fle F30 (fabs (fsub (round_ratio 100000000000000000000 1) s)) = true). destruct (fle F30 _) eqn:L; [reflexivity|]. exfalso. destruct e20 as [X1 X2]. rewrite P66 in Bs. apply Rabs_le_inv in Bs.
      apply near30 in L; [|exact X1 | exact Fs |]; rewrite X2 in *; rewrite Rabs_pos_eq in * by lra; lra.
    + right. split; [|exact K]. destruct K as [K _]. intros ->. exact K.
  - exists tau, v'. split; [exact E|]. destruct H as [-> | (H1 & H2 & w & H3)].
    + split; [left; reflexivity|]. split; [exact Fs|]. rewrite Rminus_diag_eq, Rabs_R0 by reflexivity. lra.
    + change (fle F30 (fabs (fsub tau s)) = false) in H2. change (fle F30 (fabs (fsub w tau)) = true) in H3.
      assert (Ft : fin tau). { destruct tau as [z|b| |z q e Hb]; try reflexivity; exfalso; [rewrite inf_far in H2 by exact Fs; discriminate | rewrite no_nan in H3; discriminate]. }
      split; [right; exact H1|]. split; [exact Ft|]. apply near30; [exact Ft | exact Fs | | exact H2].
      rewrite Forall_forall in FS'. specialize (FS' tau H1). cbn beta in FS'. rewrite P66 in Bs, FS'. apply Rabs_le_inv in Bs, FS'. eapply Rle_trans; [|exact BB]. rewrite P67. apply Rabs_le. lra.
Qed.
(** The two first calls that read the fields before they are written. *)
Lemma unread_ideal t g y : Deep_dpper ideal t g (10 ^ 20) y (fresh ideal g) = UB Uninit.
Proof. apply unread. rewrite int_ideal. apply Rleb_f. change (Rabs (100000000000000000000 / 1 - 10 ^ 20) < 30). replace (100000000000000000000 / 1 - 10 ^ 20) with 0 by lra. rewrite Rabs_R0. lra. Qed.
Lemma unread_nan m t g y : Deep_dpper (machine m) t g B754_nan y (fresh (machine m) g) = UB Uninit.
Proof. apply unread. exact (no_nan (round_ratio 100000000000000000000 1)). Qed.
(** A whole call for the time nan. *)
Lemma sdp_nan m n t g : g_res (machine m) g = None -> flt (i_xnodp (machine m) (k_start (machine m) (g_com (machine m) g))) F0 = false ->
  SDP4_deep (machine m) n B754_nan t g (fresh (machine m) g) = UB Uninit.
Proof.
  assert (G : forall A s, len A (int A 30) (c_fabs A (sub A (cst A 100000000000000000000 1) s)) = false -> forall t g, g_res A g = None -> ltn A (i_xnodp A (k_start A (g_com A g))) (int A 0) = false ->
     SDP4_deep A n s t g (fresh A g) = UB Uninit).
  { clear. intros A s L t g R X. unfold SDP4_deep, Deep_dpsec. rewrite R. cbn [y_xn]. rewrite X. rewrite unread; [reflexivity | exact L]. }
  intros R X. exact (G (machine m) B754_nan (no_nan (round_ratio 100000000000000000000 1)) t g R X).
Qed.
