(** The settings of the resonance integrator: the settings it starts with, the array of derivatives, and the Taylor series. *)
From Coq Require Import ZArith List Reals Lra Lia Bool.
From Coquelicot Require Import Coquelicot.
From Verif Require Import CLib ArithModel GeoLemmas OrbModel DeepModel DeepTerms DeepProofs1 DpsecSetModel DpsecSetSpec.
Import ListNotations.
Open Scope R_scope.

(** ** The settings at the start *)
Lemma derivs_default A om od c l a : compute_dpsec_derivs_with A (settings0 A) om od c l a =
  Ok [fst (compute_dpsec_derivs A om od c l a); snd (compute_dpsec_derivs A om od c l a)].
Proof. destruct c; reflexivity. Qed.
Lemma loop_default A om od c xfact t n : forall a x l,
  dpsec_loop_with A n (settings0 A) (compute_dpsec_derivs_with A (settings0 A) om od c) xfact t a x l =
  Ok (match dpsec_loop A n (compute_dpsec_derivs A om od c) xfact t a x l with None => None | Some (a, x, l) => Some (x, l, (a, x, l)) end).
Proof.
  induction n as [|n IH]; intros a x l; [reflexivity|]. cbn [dpsec_loop_with dpsec_loop]. rewrite derivs_default. cbn [bind].
  change (z_step A (settings0 A)) with (int A 720). change (z_dundee A (settings0 A)) with false. cbv iota.
  destruct (if ltn A (int A 720) (sub A t a) then _ else _) as [d fl].
  replace (dpsec_step_with A (settings0 A) [fst (compute_dpsec_derivs A om od c l a); snd (compute_dpsec_derivs A om od c l a)] xfact d x l)
    with (dpsec_step A (compute_dpsec_derivs A om od c) xfact d a x l)
    by (unfold dpsec_step; destruct (compute_dpsec_derivs A om od c l a); reflexivity).
  destruct (dpsec_step A (compute_dpsec_derivs A om od c) xfact d a x l) as [l' x']. destruct fl; [reflexivity | apply IH].
Qed.
Lemma default_same A n s t g v : SDP4_deep_with A n (settings0 A) s t g v = SDP4_deep A n s t g v.
Proof.
  unfold SDP4_deep_with, SDP4_deep, Deep_dpsec_with, Deep_dpsec.
  assert (P : forall y w, Deep_dpper_with A (settings0 A) t g s y w = Deep_dpper A t g s y w).
  { intros y w. unfold Deep_dpper_with, Deep_dpper, refresh_with, refresh. change (z_dundee A (settings0 A)) with false. rewrite orb_false_r. reflexivity. }
  destruct (g_res A g) as [r|].
  - unfold dpsec_start_with, dpsec_start. change (z_dundee A (settings0 A)) with false. cbn [andb]. rewrite orb_false_r.
    destruct (ltn A (c_fabs A s) (c_fabs A (sub A s (v_atime A v)))).
    + rewrite loop_default. destruct (dpsec_loop A n _ _ _ _ _ _) as [[[a x] l]|]; [|reflexivity]. cbn [bind]. rewrite P. reflexivity.
    + rewrite loop_default. destruct (dpsec_loop A n _ _ _ _ _ _) as [[[a x] l]|]; [|reflexivity]. cbn [bind]. rewrite P. reflexivity.
  - cbn [bind]. rewrite P. reflexivity.
Qed.

(** ** The array *)
Lemma loop_ub A : forall k i ts, (0 <= i -> 20 < i + 2 * Z.of_nat (S k) -> derivs_loop A (S k) i ts = UB OutOfBounds)%Z.
Proof.
  assert (U : forall k i ts, derivs_loop A (S k) i ts = if (i + 1 <? 20)%Z then ds <- derivs_loop A k (i + 2) (scale A 1 ts) ;; Ok (sum_terms A fst ts :: sum_terms A snd ts :: ds) else UB OutOfBounds) by reflexivity.
  induction k as [|k IH]; intros i ts I L; rewrite U.
  - replace (i + 1 <? 20)%Z with false by (symmetry; apply Z.ltb_ge; lia). reflexivity.
  - destruct (i + 1 <? 20)%Z; [|reflexivity]. rewrite IH; [reflexivity | lia | lia].
Qed.
Lemma array_ub A z om od c l a : (20 < z_order A z)%Z -> compute_dpsec_derivs_with A z om od c l a = UB OutOfBounds.
Proof.
  intros H. unfold compute_dpsec_derivs_with. replace (z_order A z <=? 0)%Z with false by (symmetry; apply Z.leb_gt; lia).
  assert (B : (11 <= (z_order A z + 1) / 2)%Z) by (apply Z.div_le_lower_bound; lia).
  destruct (Z.to_nat ((z_order A z + 1) / 2)) as [|k] eqn:E; [lia|]. apply loop_ub; lia.
Qed.
Lemma sdp_ub A n z s t g v r : (20 < z_order A z)%Z -> g_res A g = Some r -> SDP4_deep_with A (S n) z s t g v = UB OutOfBounds.
Proof.
  intros H R. unfold SDP4_deep_with, Deep_dpsec_with. rewrite R. destruct (dpsec_start_with A z g r s v) as [[a x] l]. cbn [dpsec_loop_with]. rewrite array_ub by exact H. reflexivity.
Qed.

(** ** Derivatives of the terms *)
Definition wave (n : R) (S C : R -> R) : Prop := forall l, is_derive S l (n * C l) /\ is_derive C l (- n * S l).
Lemma wave_d n S C l : wave n S C -> ex_derive S l /\ ex_derive C l /\ Derive (fun x => S x) l = n * C l /\ Derive (fun x => C x) l = - n * S l.
Proof. intros W. destruct (W l) as [a b]. repeat split; [eexists; exact a | eexists; exact b | exact (is_derive_unique _ _ _ a) | exact (is_derive_unique _ _ _ b)]. Qed.
Ltac wv := intros; intros l; repeat match goal with H : wave _ _ _ |- _ => destruct (wave_d _ _ _ l H) as (? & ? & ? & ?); clear H end;
  split; (auto_derive; [repeat split; assumption|]);
  repeat match goal with H : Derive _ _ = _ |- _ => rewrite H; clear H end; rewrite ?int_ideal; try ring.
Lemma wave_rot n S C c s : wave n S C -> wave n (fun l => S l * c - C l * s) (fun l => C l * c + S l * s).
Proof. wv. Qed.
Lemma wave_m n S C c s : wave n S C -> wave n (fun l => S l * c - s * C l) (fun l => C l * c + s * S l).
Proof. wv. Qed.
Lemma wave_p n S C c s : wave n S C -> wave n (fun l => S l * c + s * C l) (fun l => C l * c - s * S l).
Proof. wv. Qed.
Lemma wave_scal n S C d : wave n S C -> wave n (fun l => d * S l) (fun l => d * C l).
Proof. wv. Qed.
Lemma wave_add n S C S' C' : wave n S C -> wave n S' C' -> wave n (fun l => S l + S' l) (fun l => C l + C' l).
Proof. wv. Qed.
Lemma sq1 l : sin l * sin l = 1 - cos l * cos l.
Proof. assert (Q := sin2_cos2 l). unfold Rsqr in Q. lra. Qed.
Lemma wave1 : wave 1 sin cos.
Proof. wv. Qed.
Lemma wave2 : wave 2 (fun l => int ideal 2 * sin l * cos l) (fun l => int ideal 2 * cos l * cos l - int ideal 1).
Proof. wv; assert (Q := sq1 l); nra. Qed.
Lemma wave_sum n m S C S' C' : wave n S C -> wave m S' C' -> wave (n + m) (fun l => S l * C' l + C l * S' l) (fun l => C l * C' l - S l * S' l).
Proof. wv. Qed.

Definition pair_ok (n : Z) (F : (R -> R) * (R -> R)) : Prop :=
  forall l, is_derive (fst F) l (snd F l) /\ is_derive (snd F) l (- (IZR n * IZR n) * fst F l).
Fixpoint pairs_ok (n : Z) (Fs : list ((R -> R) * (R -> R))) : Prop := match Fs with [] => True | F :: Fs => pair_ok n F /\ pairs_ok (n + 1) Fs end.
Lemma wave_pair n a b b' : wave (IZR n) a b -> (forall l, b' l = IZR n * b l) -> pair_ok n (a, b').
Proof.
  intros W E l. destruct (W l) as [H1 H2]. cbn [fst snd]. split; [rewrite E; exact H1|].
  apply is_derive_ext with (f := fun l => IZR n * b l); [intros u; symmetry; apply E|].
  replace (- (IZR n * IZR n) * a l) with (IZR n * (- IZR n * a l)) by ring. apply (is_derive_scal b l (IZR n) (- IZR n * a l) H2).
Qed.
Definition at_ (Fs : list ((R -> R) * (R -> R))) (l : R) : list (R * R) := map (fun F => (fst F l, snd F l)) Fs.

Ltac toreal := change (add ideal) with Rplus in *; change (sub ideal) with Rminus in *; change (mul ideal) with Rmult in *; change (opp ideal) with Ropp in *;
  change (c_sin ideal) with sin in *; change (c_cos ideal) with cos in *.
Lemma int_scal n x : int ideal n * x = IZR n * x.
Proof. rewrite int_ideal. reflexivity. Qed.
Lemma int_scal' n d x : int ideal n * d * x = IZR n * (d * x).
Proof. rewrite int_ideal. apply Rmult_assoc. Qed.
Lemma terms_pairs om od c a : exists Fs, pairs_ok 1 Fs /\ (length Fs <= 3)%nat /\ forall l, dpsec_terms ideal om od c l a = at_ Fs l.
Proof.
  destruct c as [d2201 d2211 d3210 d3222 d4410 d4422 d5220 d5232 d5421 d5433 | del1 del2 del3].
  - exists (map (fun k => ((fun l => fst (nth k (dpsec_terms ideal om od (Half ideal d2201 d2211 d3210 d3222 d4410 d4422 d5220 d5232 d5421 d5433) l a) (0, 0))),
                           (fun l => snd (nth k (dpsec_terms ideal om od (Half ideal d2201 d2211 d3210 d3222 d4410 d4422 d5220 d5232 d5421 d5433) l a) (0, 0))))) [0; 1]%nat).
    split; [|split; [cbn; lia | intros l; reflexivity]]. cbn [map]. split; [|split; [|exact I]].
    + cbv beta zeta iota delta [dpsec_terms nth fst snd]. toreal. eapply wave_pair; [|intros l; symmetry; apply Rmult_1_l].
      repeat apply wave_add; apply wave_scal, wave_rot; (apply wave1 || (apply wave_m, wave1) || (apply wave_p, wave1)).
    + cbv beta zeta iota delta [dpsec_terms nth fst snd]. toreal. eapply wave_pair; [|intros l; apply (int_scal 2)].
      repeat apply wave_add; apply wave_scal, wave_rot; (apply wave2 || (apply wave_m, wave2) || (apply wave_p, wave2)).
  - exists (map (fun k => ((fun l => fst (nth k (dpsec_terms ideal om od (Synchronous ideal del1 del2 del3) l a) (0, 0))),
                           (fun l => snd (nth k (dpsec_terms ideal om od (Synchronous ideal del1 del2 del3) l a) (0, 0))))) [0; 1; 2]%nat).
    split; [|split; [cbn; lia | intros l; reflexivity]]. cbn [map]. split; [|split; [|split; [|exact I]]].
    + cbv beta zeta iota delta [dpsec_terms nth fst snd]. toreal. eapply wave_pair; [|intros l; symmetry; apply Rmult_1_l].
      apply wave_scal, wave_rot, wave1.
    + cbv beta zeta iota delta [dpsec_terms nth fst snd]. toreal. eapply wave_pair; [|intros l; apply (int_scal' 2)].
      apply wave_scal, wave_rot, wave2.
    + cbv beta zeta iota delta [dpsec_terms nth fst snd]. toreal. eapply wave_pair; [|intros l; apply (int_scal' 3)].
      apply wave_scal, wave_rot. replace (IZR (1 + 1 + 1)) with (2 + 1) by (cbn; lra). apply (wave_sum 2 1 _ _ _ _ wave2 wave1).
Qed.

(** ** The entries of the array *)
Definition sumA (Fs : list ((R -> R) * (R -> R))) (l : R) : R := sum_terms ideal fst (at_ Fs l).
Definition sumB (Fs : list ((R -> R) * (R -> R))) (l : R) : R := sum_terms ideal snd (at_ Fs l).
Definition scaleF1 (n : Z) (f : R -> R) : R -> R := fun l => scale1 ideal n (f l).
Fixpoint scaleF (n : Z) (Fs : list ((R -> R) * (R -> R))) := match Fs with [] => [] | F :: Fs => (scaleF1 n (fst F), scaleF1 n (snd F)) :: scaleF (n + 1) Fs end.
Lemma scale_at Fs l : forall n, scale ideal n (at_ Fs l) = at_ (scaleF n Fs) l.
Proof. induction Fs as [|[f h] Fs IH]; intros n; [reflexivity|]. cbn [at_ map scale scaleF fst snd]. f_equal. apply IH. Qed.
Lemma scale1_is n x : scale1 ideal n x = - (IZR n * IZR n) * x :> R.
Proof.
  unfold scale1. destruct (Z.eqb_spec n 1) as [->|N].
  - change (opp ideal x) with (- x). ring.
  - rewrite int_ideal. change (x * - IZR (n * n) = - (IZR n * IZR n) * x). rewrite mult_IZR. ring.
Qed.
Lemma scaleF_ok Fs : forall n, pairs_ok n Fs -> pairs_ok n (scaleF n Fs).
Proof.
  induction Fs as [|[f h] Fs IH]; intros n; [trivial|]. intros [P Q]. cbn [scaleF pairs_ok]. split; [|apply IH, Q].
  intros l. destruct (P l) as [P1 P2]. cbn [fst snd] in *. unfold scaleF1.
  split.
  - apply is_derive_ext with (f := fun l => - (IZR n * IZR n) * f l); [intros u; symmetry; apply scale1_is|]. rewrite scale1_is. apply (is_derive_scal f l _ _ P1).
  - apply is_derive_ext with (f := fun l => - (IZR n * IZR n) * h l); [intros u; symmetry; apply scale1_is|]. rewrite scale1_is. apply (is_derive_scal h l _ _ P2).
Qed.
(** the sums are sums *)
Lemma fold_sum (p : R * R -> R) ts : forall x, fold_left (fun s t => add ideal s (p t)) ts x = x + fold_right (fun t s => p t + s) 0 ts :> R.
Proof. induction ts as [|t ts IH]; intros x; cbn [fold_left fold_right]; [symmetry; apply Rplus_0_r|]. rewrite IH. change (x + p t + fold_right (fun t s => p t + s) 0 ts = x + (p t + fold_right (fun t s => p t + s) 0 ts)). apply Rplus_assoc. Qed.
Lemma sum_is (p : R * R -> R) ts : sum_terms ideal p ts = fold_right (fun t s => p t + s) 0 ts :> R.
Proof. destruct ts as [|t ts]; cbn [sum_terms]; [apply int_ideal|]. rewrite fold_sum. reflexivity. Qed.
Lemma sum_derives Fs : forall n, pairs_ok n Fs -> forall l,
  is_derive (sumA Fs) l (sumB Fs l) /\ is_derive (sumB Fs) l (sumA (scaleF n Fs) l).
Proof.
  assert (Q : forall n, pairs_ok n Fs -> forall l,
    is_derive (fun l => fold_right (fun t s => fst t + s) 0 (at_ Fs l)) l (fold_right (fun t s => snd t + s) 0 (at_ Fs l))
    /\ is_derive (fun l => fold_right (fun t s => snd t + s) 0 (at_ Fs l)) l (fold_right (fun t s => fst t + s) 0 (at_ (scaleF n Fs) l))).
  { induction Fs as [|[f h] Fs IH]; intros n P l.
    - cbn. split; apply (is_derive_const (K := R_AbsRing) (V := R_NormedModule) 0).
    - destruct P as [P P']. destruct (P l) as [P1 P2]. destruct (IH _ P' l) as [I1 I2]. cbn [at_ map fold_right fst snd scaleF] in *. split.
      + apply (is_derive_plus f _ l _ _ P1 I1).
      + unfold scaleF1. rewrite scale1_is. apply (is_derive_plus h _ l _ _ P2 I2). }
  intros n P l. destruct (Q n P l) as [Q1 Q2]. unfold sumA, sumB. rewrite !sum_is. split.
  - apply is_derive_ext with (2 := Q1). intros u. symmetry. apply sum_is.
  - apply is_derive_ext with (2 := Q2). intros u. symmetry. apply sum_is.
Qed.
Lemma derive2 Fs k l : pairs_ok 1 Fs -> Derive_n (sumA Fs) (k + 2) l = Derive_n (sumA (scaleF 1 Fs)) k l.
Proof.
  intros P. rewrite <- (Derive_n_comp (sumA Fs) k 2 l). apply Derive_n_ext. intros u. cbn [Derive_n].
  rewrite (Derive_ext (Derive (fun x => sumA Fs x)) (sumB Fs)); [apply is_derive_unique, (sum_derives Fs 1 P u)|].
  intros w. apply is_derive_unique, (sum_derives Fs 1 P w).
Qed.
Lemma loop_derives l : forall k i Fs, pairs_ok 1 Fs -> (i + 2 * Z.of_nat k <= 20)%Z ->
  derivs_loop ideal k i (at_ Fs l) = Ok (map (fun j => Derive_n (sumA Fs) j l) (seq 0 (2 * k))).
Proof.
  induction k as [|k IH]; intros i Fs P L; [reflexivity|]. cbn [derivs_loop]. replace (i + 1 <? 20)%Z with true by (symmetry; apply Z.ltb_lt; lia).
  rewrite scale_at, (IH _ _ (scaleF_ok Fs 1 P)) by lia. cbn [bind]. replace (2 * S k)%nat with (S (S (2 * k))) by lia. cbn [seq map].
  change (sum_terms ideal fst (at_ Fs l)) with (sumA Fs l). change (sum_terms ideal snd (at_ Fs l)) with (sumB Fs l). f_equal. f_equal. f_equal.
  - symmetry. cbn [Derive_n]. apply is_derive_unique, (sum_derives Fs 1 P l).
  - rewrite <- !seq_shift, !map_map. apply map_ext. intros j. rewrite <- (derive2 Fs j l P). f_equal. lia.
Qed.
(** derivs[0] is the acceleration *)
Lemma first_is om od c l a : fst (compute_dpsec_derivs ideal om od c l a) = sum_terms ideal fst (dpsec_terms ideal om od c l a).
Proof. destruct c; reflexivity. Qed.
Lemma derivs_are z om od c l a : (z_order ideal z <= 20)%Z ->
  exists ds, compute_dpsec_derivs_with ideal z om od c l a = Ok ds
  /\ hd (int ideal 0) ds = (if (z_order ideal z <=? 0)%Z then 0 else fst (compute_dpsec_derivs ideal om od c l a))
  /\ firstn (Z.to_nat (z_order ideal z - 1)) (tl ds) =
     map (fun j => Derive_n (fun u => fst (compute_dpsec_derivs ideal om od c u a)) j l) (seq 1 (Z.to_nat (z_order ideal z - 1))).
Proof.
  intros H. unfold compute_dpsec_derivs_with. destruct (Z.leb_spec (z_order ideal z) 0) as [Ho|Ho].
  - exists [int ideal 0]. split; [reflexivity|]. split; [apply int_ideal|]. replace (Z.to_nat (z_order ideal z - 1)) with O by lia. reflexivity.
  - destruct (terms_pairs om od c a) as (Fs & P & _ & E). rewrite E.
    set (k := Z.to_nat ((z_order ideal z + 1) / 2)). assert (B : (z_order ideal z <= 2 * Z.of_nat k <= 20)%Z).
    { unfold k. rewrite Z2Nat.id by (apply Z.div_pos; lia). assert (Q := Z.div_mod (z_order ideal z + 1) 2 ltac:(lia)). assert (Q' := Z.mod_pos_bound (z_order ideal z + 1) 2 ltac:(lia)).
      split; [lia|]. enough ((z_order ideal z + 1) / 2 < 11)%Z by lia. apply Z.div_lt_upper_bound; lia. }
    rewrite (loop_derives l k 0 Fs P) by lia. eexists. split; [reflexivity|].
    assert (X : forall u, fst (compute_dpsec_derivs ideal om od c u a) = sumA Fs u :> R) by (intros u; rewrite first_is, E; reflexivity).
    destruct k as [|k]; [lia|]. replace (2 * S k)%nat with (S (S (2 * k))) by lia. rewrite <- cons_seq. cbn [map hd tl]. split; [rewrite X; reflexivity|].
    set (N := Z.to_nat (z_order ideal z - 1)). replace (S (2 * k)) with (N + (S (2 * k) - N))%nat by lia. rewrite seq_app, map_app, firstn_app, map_length, seq_length, Nat.sub_diag.
    cbn [firstn]. rewrite app_nil_r, firstn_all2 by (rewrite map_length, seq_length; lia). apply map_ext. intros j. apply Derive_n_ext. intros u. symmetry. apply X.
Qed.

(** ** The series *)
Lemma series_is (D : nat -> R) w h X0 N0 : forall m j, let Fl k := h ^ (k + 2) / INR (fact (k + 2)) * (D k * w ^ k) in let Fn k := h ^ (k + 1) / INR (fact (k + 1)) * (D k * w ^ k) in
  series ideal (map D (seq (j + 1) m)) (Z.of_nat (j + 2)) w (w ^ j) h (h ^ (j + 1) / INR (fact (j + 1))) (D j * w ^ j) (X0 + sums j Fl) (N0 + sums (j + 1) Fn) =
  (X0 + sums (j + m) Fl, N0 + sums (j + 1 + m) Fn).
Proof.
  induction m as [|m IH]; intros j Fl Fn; cbn [seq map series]; [rewrite !Nat.add_0_r; reflexivity|].
  toreal. rewrite int_ideal. change (div ideal h (IZR (Z.of_nat (j + 2)))) with (h / IZR (Z.of_nat (j + 2))). rewrite <- INR_IZR_INZ.
  replace (h ^ (j + 1) / INR (fact (j + 1)) * (h / INR (j + 2))) with (h ^ (j + 2) / INR (fact (j + 2))).
  2: { replace (j + 2)%nat with (S (j + 1)) by lia. rewrite <- tech_pow_Rmult. change (fact (S (j + 1))) with (S (j + 1) * fact (j + 1))%nat. rewrite mult_INR.
       field. split; [apply not_0_INR; lia | apply INR_fact_neq_0]. }
  replace (w ^ j * w) with (w ^ (j + 1)) by (replace (j + 1)%nat with (S j) by lia; cbn; ring).
  replace (D (j + 1)%nat * w ^ (j + 1)) with (D (S j) * w ^ (S j)) by (replace (j + 1)%nat with (S j) by lia; reflexivity).
  assert (Q := IH (S j)). cbv zeta in Q. fold Fl Fn in Q.
  replace (Z.of_nat (j + 2) + 1)%Z with (Z.of_nat (S j + 2)) by lia. replace (seq (S (j + 1)) m) with (seq (S j + 1) m) by (f_equal; lia).
  replace (j + S m)%nat with (S j + m)%nat by lia. replace (j + 1 + S m)%nat with (S j + 1 + m)%nat by lia. rewrite <- Q.
  replace (w ^ (j + 1)) with (w ^ S j) by (f_equal; lia). replace (h ^ (j + 2) / INR (fact (j + 2))) with (h ^ (S j + 1) / INR (fact (S j + 1))) by (replace (S j + 1)%nat with (j + 2)%nat by lia; reflexivity).
  f_equal.
  - cbn [sums]. unfold Fl at 3. replace (j + 2)%nat with (S j + 1)%nat by lia. ring.
  - rewrite Rplus_assoc. f_equal. replace (S j + 1)%nat with (S (j + 1)) by lia. change (sums (S (j + 1)) Fn) with (sums (j + 1) Fn + Fn (j + 1)%nat). f_equal. unfold Fn.
    replace (j + 1 + 1)%nat with (S (j + 1)) by lia. replace (j + 1)%nat with (S j) by lia. reflexivity.
Qed.
Lemma ar1 (x : R) : x = x * 1 / 1.
Proof. field. Qed.
Lemma ar2 (x : R) : x = x * 1.
Proof. ring. Qed.
Lemma ar3 (n h x : R) : n + h * x = n + (0 + h * 1 / 1 * (x * 1)).
Proof. field. Qed.
Lemma step_series z om od c l a xfact h n : (z_order ideal z <= 20)%Z ->
  exists ds, compute_dpsec_derivs_with ideal z om od c l a = Ok ds
  /\ dpsec_step_with ideal z ds xfact h n l =
     (taylor_angle (fun u => fst (compute_dpsec_derivs ideal om od c u a)) (Z.to_nat (z_order ideal z)) xfact h n l,
      taylor_speed (fun u => fst (compute_dpsec_derivs ideal om od c u a)) (Z.to_nat (z_order ideal z)) xfact h n l).
Proof.
  intros H. destruct (derivs_are z om od c l a H) as (ds & E & E0 & E1). exists ds. split; [exact E|]. unfold dpsec_step_with. rewrite E1. change (hd (int ideal 0) ds) with (hd (int ideal 0) ds). rewrite E0.
  set (f := fun u => fst (compute_dpsec_derivs ideal om od c u a)). unfold taylor_angle, taylor_speed. toreal.
  destruct (Z.leb_spec (z_order ideal z) 0) as [Ho|Ho].
  - replace (Z.to_nat (z_order ideal z - 1)) with O by lia. replace (Z.to_nat (z_order ideal z)) with O by lia. cbn [seq map series sums Nat.sub]. f_equal; ring.
  - set (N := Z.to_nat (z_order ideal z - 1)). replace (Z.to_nat (z_order ideal z)) with (S N) by lia. replace (S N - 1)%nat with N by lia.
    assert (Q := series_is (fun j => Derive_n f j l) (n + xfact) h (l + h * (n + xfact)) n N 0). cbv zeta in Q.
    etransitivity; [|exact Q]. change (0 + 1)%nat with 1%nat. change (Z.of_nat (0 + 2)) with 2%Z. rewrite int_ideal.
    cbn [pow sums Derive_n fact INR Nat.add Nat.mul]. change (fst (compute_dpsec_derivs ideal om od c l a)) with (f l). f_equal; [apply ar1 | apply ar2 | ring | apply ar3].
Qed.
