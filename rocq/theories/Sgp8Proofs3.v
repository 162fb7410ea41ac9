(** The fitted decay of SGP8 against the equations of decay. *)
From Coq Require Import ZArith Reals Lra Psatz.
From Verif Require Import CLib ArithModel GeoLemmas OrbModel OrbSpec OrbProofs5 DeepProofs1 DeepProofs7 ThirdProofs1 Sgp8Model Sgp8Spec Sgp8Proofs1 Sgp8Proofs2.
Open Scope R_scope.

(** ** Near the epoch *)
Definition near0 (P : R -> Prop) : Prop := exists d, 0 < d /\ forall t, Rabs t < d -> P t.
Lemma near_and P Q : near0 P -> near0 Q -> near0 (fun t => P t /\ Q t).
Proof.
  intros [d [D F]] [k [K G]]. exists (Rmin d k). split; [apply Rmin_glb_lt; assumption|].
  intros t T. split; [apply F|apply G]; (eapply Rlt_le_trans; [exact T|]); [apply Rmin_l|apply Rmin_r].
Qed.
Lemma near_imp (P Q : R -> Prop) : (forall t, P t -> Q t) -> near0 P -> near0 Q.
Proof. intros H [d [D F]]. exists d. split; [exact D|]. intros t T. apply H, F, T. Qed.
Lemma near_all (P : R -> Prop) : (forall t, P t) -> near0 P.
Proof. intros H. exists 1. split; [lra|]. intros t _. apply H. Qed.
Lemma near_at P : near0 P -> P 0.
Proof. intros [d [D F]]. apply F. rewrite Rabs_R0. exact D. Qed.
Lemma near_pos f l : derivable_pt_lim f 0 l -> 0 < f 0 -> near0 (fun t => 0 < f t).
Proof.
  intros H P. assert (C : continuity_pt f 0) by (apply derivable_continuous_pt; exists l; exact H).
  destruct (C (f 0) P) as [d [D F]]. exists d. split; [exact D|]. intros t T. destruct (Req_dec t 0) as [->|Z]; [exact P|].
  assert (Q : dist R_met (f t) (f 0) < f 0). { apply F. split; [split; [exact I|lra]|]. cbn. unfold R_dist. rewrite Rminus_0_r. exact T. }
  cbn in Q. unfold R_dist in Q. unfold Rabs in Q. destruct (Rcase_abs (f t - f 0)) in Q; lra.
Qed.
Lemma D_near f g x a : derivable_pt_lim f x a -> (exists d, 0 < d /\ forall y, Rabs (y - x) < d -> f y = g y) -> derivable_pt_lim g x a.
Proof.
  intros H [d [D E]] eps P. destruct (H eps P) as [[k K] F]. cbn in F. assert (M : 0 < Rmin d k) by (apply Rmin_glb_lt; assumption). exists (mkposreal _ M). intros h Z L. cbn in L.
  rewrite <- !E.
  - apply F; [exact Z|]. eapply Rlt_le_trans; [exact L|apply Rmin_r].
  - rewrite Rminus_eq_0, Rabs_R0. exact D.
  - replace (x + h - x) with h by ring. eapply Rlt_le_trans; [exact L|apply Rmin_l].
Qed.
Lemma derives_near F G : derives F G <-> near0 (fun t => derivable_pt_lim F t (G t)). Proof. reflexivity. Qed.
Lemma derives_ext F G H : derives F G -> near0 (fun t => G t = H t) -> derives F H.
Proof. intros A B. apply derives_near. apply derives_near in A. apply (near_imp _ _ (fun t (X : derivable_pt_lim F t (G t) /\ G t = H t) => D_eq _ _ _ _ (proj1 X) (proj2 X)) (near_and _ _ A B)). Qed.
Lemma flat_ext k F G : near0 (fun t => F t = G t) -> flat k F -> flat k G.
Proof.
  destruct k; cbn; intros E [Z H]; (split; [rewrite <- (near_at _ E); exact Z|]); [exact I|].
  destruct H as [F' [D H]]. exists F'. split; [|exact H]. destruct D as [d [P Q]]. destruct E as [k' [P' Q']]. exists (Rmin d k'). split; [apply Rmin_glb_lt; assumption|].
  intros t T. apply (D_near F); [apply Q; eapply Rlt_le_trans; [exact T|apply Rmin_l]|].
  exists (k' - Rabs t). split; [assert (W := Rmin_r d k'); lra|]. intros y Y. apply Q'. replace y with (y - t + t) by ring. eapply Rle_lt_trans; [apply Rabs_triang|]. lra.
Qed.

(** ** The derivatives of curves that decay *)
Section Jets.
Context (b i N a e0 w0 : R) (n e g : R -> R).
Context (HN : 0 < N) (Ha : 0 < a) (Hs : height_s < par_p N a N e0) (Hp : 0 < psi_2 N a N e0) (He : e0 ^ 2 < 1).
Local Notation NR := (fun t => n_rate b i N a (n t) (e t) (g t)).
Local Notation ER := (fun t => e_rate b i N a (n t) (e t) (g t)).
Local Notation GR := (fun t => g_rate i N a (n t) (e t)).
Definition good (t : R) : Prop := 0 < n t /\ e t ^ 2 < 1 /\ height_s < par_p N a (n t) (e t) /\ 0 < psi_2 N a (n t) (e t).
Lemma good_near n1 e1 : n 0 = N -> e 0 = e0 -> derives n n1 -> derives e e1 -> near0 good.
Proof.
  intros n_0 e_0 Dn De. apply near_at in Dn. apply near_at in De. cbv beta in Dn, De.
  assert (Q1 : 0 < n 0) by (rewrite n_0; exact HN). assert (Q2 : e 0 ^ 2 < 1) by (rewrite e_0; exact He).
  assert (Q3 : height_s < par_p N a (n 0) (e 0)) by (rewrite n_0, e_0; exact Hs). assert (Q4 : 0 < psi_2 N a (n 0) (e 0)) by (rewrite n_0, e_0; exact Hp).
  unfold good. apply near_and; [apply (near_pos _ _ Dn Q1)|]. apply near_and.
  { apply (near_imp (fun t => 0 < 1 - e t ^ 2)); [intros t; lra|]. eapply near_pos; [apply (D_minus (fun _ => 1) (fun t => e t ^ 2)); [apply D_const|apply D_pow; exact De]|cbv beta; lra]. }
  apply near_and.
  - apply (near_imp (fun t => 0 < par_p N a (n t) (e t) - height_s)); [intros t; lra|].
    eapply near_pos; [apply (D_minus (fun t => par_p N a (n t) (e t)) (fun _ => height_s)); [eapply D_P; eassumption|apply D_const]|cbv beta; lra].
  - eapply near_pos; [eapply D_S2; eassumption|exact Q4].
Qed.
Definition follow (n1 e1 g1 n2 e2 g2 n3 : R -> R) : Prop :=
  near0 (fun t => good t /\ derivable_pt_lim n t (n1 t) /\ derivable_pt_lim e t (e1 t) /\ derivable_pt_lim g t (g1 t)
                  /\ derivable_pt_lim n1 t (n2 t) /\ derivable_pt_lim e1 t (e2 t) /\ derivable_pt_lim g1 t (g2 t) /\ derivable_pt_lim n2 t (n3 t))
  /\ (n1 0 = NR 0 /\ e1 0 = ER 0 /\ g1 0 = GR 0)
  /\ (n2 0 = N1 b i N a n e g n1 e1 g1 0 /\ e2 0 = E1 b i N a n e g n1 e1 g1 0 /\ g2 0 = GR 0 * (Nn n n1 0 + 2 * D15 n e n1 e1 0))
  /\ n3 0 = N2 b i N a n e g n1 e1 g1 n2 e2 g2 0.
Lemma decays_follow : decays b i N a e0 w0 n e g -> exists n1 e1 g1 n2 e2 g2 n3, follow n1 e1 g1 n2 e2 g2 n3.
Proof.
  intros (n_0 & e_0 & g_0 & (n1 & Dn & F0 & F' & DF & F0' & F'' & DF' & F0'' & _) & (e1 & De & E0 & E' & DE & E0' & _) & (g1 & Dg & G0 & G' & DG & G0' & _)).
  assert (GD := good_near _ _ n_0 e_0 Dn De).
  set (n2 := fun t => F' t + N1 b i N a n e g n1 e1 g1 t). set (e2 := fun t => E' t + E1 b i N a n e g n1 e1 g1 t).
  set (g2 := fun t => G' t + GR t * (Nn n n1 t + 2 * D15 n e n1 e1 t)).
  assert (B : near0 (fun t => good t /\ (derivable_pt_lim n t (n1 t) /\ derivable_pt_lim e t (e1 t) /\ derivable_pt_lim g t (g1 t))
     /\ (derivable_pt_lim n1 t (n2 t) /\ derivable_pt_lim e1 t (e2 t) /\ derivable_pt_lim g1 t (g2 t)) /\ derivable_pt_lim F' t (F'' t))).
  { generalize (near_and _ _ GD (near_and _ _ Dn (near_and _ _ De (near_and _ _ Dg (near_and _ _ DF (near_and _ _ DE (near_and _ _ DG DF'))))))). apply near_imp.
    intros t ((P1 & P2 & P3 & P4) & X1 & X2 & X3 & X4 & X5 & X6 & X7). split; [split; [exact P1|split; [exact P2|split; [exact P3|exact P4]]]|]. split; [auto|]. split; [|exact X7]. split; [|split].
    - apply (D_ext (fun t => (n1 t - n_rate b i N a (n t) (e t) (g t)) + n_rate b i N a (n t) (e t) (g t))); [intros; ring|].
      apply (D_plus (fun t => n1 t - n_rate b i N a (n t) (e t) (g t)) NR); [exact X4|apply D_NR; assumption].
    - apply (D_ext (fun t => (e1 t - e_rate b i N a (n t) (e t) (g t)) + e_rate b i N a (n t) (e t) (g t))); [intros; ring|].
      apply (D_plus (fun t => e1 t - e_rate b i N a (n t) (e t) (g t)) ER); [exact X5|apply D_ER; assumption].
    - apply (D_ext (fun t => (g1 t - g_rate i N a (n t) (e t)) + g_rate i N a (n t) (e t))); [intros; ring|].
      apply (D_plus (fun t => g1 t - g_rate i N a (n t) (e t)) GR); [exact X6|apply D_GR; assumption]. }
  exists n1, e1, g1, n2, e2, g2, (fun t => F'' t + N2 b i N a n e g n1 e1 g1 n2 e2 g2 t). split; [|split; [|split]].
  - revert B. apply near_imp. intros t (P & (X1 & X2 & X3) & (X4 & X5 & X6) & X7). repeat (split; [assumption|]).
    destruct P as (P1 & P2 & P3 & P4). apply (D_plus F' (N1 b i N a n e g n1 e1 g1)); [exact X7|]. apply D_N1; assumption.
  - repeat split; lra.
  - unfold n2, e2, g2. rewrite F0', E0', G0'. repeat split; ring.
  - cbv beta. rewrite F0''. ring.
Qed.
End Jets.

(** Derivatives are unique. *)
Lemma derives_unique F G H : derives F G -> derives F H -> near0 (fun t => G t = H t).
Proof. intros A B. generalize (near_and _ _ A B). apply near_imp. intros t [X Y]. exact (uniqueness_limite _ _ _ _ X Y). Qed.
Lemma lim_near0 F G c : near0 (fun t => F t = G t) -> derivable_pt_lim F 0 c -> derivable_pt_lim G 0 c.
Proof. intros [d [D E]] H. apply (D_near F); [exact H|]. exists d. split; [exact D|]. intros y Y. apply E. rewrite Rminus_0_r in Y. exact Y. Qed.
Lemma near_derives F F' : near0 (fun t => derivable_pt_lim F t (F' t)) -> derives F F'. Proof. exact (fun H => H). Qed.
Lemma derives_from F G F' : near0 (fun t => F t = G t) -> derives F F' -> derives G F'.
Proof.
  intros [k' [P' Q']] [d [P Q]]. exists (Rmin d k'). split; [apply Rmin_glb_lt; assumption|].
  intros t T. apply (D_near F); [apply Q; eapply Rlt_le_trans; [exact T|apply Rmin_l]|].
  exists (k' - Rabs t). split; [assert (W := Rmin_r d k'); lra|]. intros y Y. apply Q'. replace y with (y - t + t) by ring. eapply Rle_lt_trans; [apply Rabs_triang|]. lra.
Qed.
Lemma jet3_unique F F1 F2 F3 a b c : derives F F1 -> derives F1 F2 -> derives F2 F3 -> jet3 F a b c -> F1 0 = a /\ F2 0 = b /\ F3 0 = c.
Proof.
  intros D1 D2 D3 (G1 & G2 & E1' & E2' & A & B & C).
  assert (U1 := derives_unique _ _ _ D1 E1'). assert (U2 := derives_unique _ _ _ (derives_from _ _ _ U1 D2) E2').
  assert (U1' := near_at _ U1). assert (U2' := near_at _ U2). cbv beta in U1', U2'. split; [rewrite U1'; exact A|]. split; [rewrite U2'; exact B|].
  assert (L := lim_near0 _ _ _ U2 (near_at _ D3)). exact (uniqueness_limite _ _ _ _ L C).
Qed.
Lemma jet2_unique F F1 F2 a b : derives F F1 -> derives F1 F2 -> jet2 F a b -> F1 0 = a /\ F2 0 = b.
Proof.
  intros D1 D2 (G1 & E1' & A & C). assert (U1 := derives_unique _ _ _ D1 E1'). assert (U1' := near_at _ U1). cbv beta in U1'. split; [rewrite U1'; exact A|].
  assert (L := lim_near0 _ _ _ U1 (near_at _ D2)). exact (uniqueness_limite _ _ _ _ L C).
Qed.

(** ** The fit *)
(** The falling power (1 - y t)^c, and its successive derivatives up to constants. *)
Definition fall (y c : R) (j : nat) (t : R) : R := Rpower (1 - y * t) c / (1 - y * t) ^ j.
Lemma fall_0 y c j : fall y c j 0 = 1.
Proof. unfold fall. rewrite Rmult_0_r, Rminus_0_r, pow1. unfold Rpower. rewrite ln_1, Rmult_0_r, exp_0. field. Qed.
Lemma D_fall y c j t : 0 < 1 - y * t -> derivable_pt_lim (fall y c j) t (- y * (c - INR j) * fall y c (S j) t).
Proof.
  intros P. assert (K : derivable_pt_lim (fun t => 1 - y * t) t (- y)).
  { eapply D_eq; [apply (D_minus (fun _ => 1) (fun t => y * t)); [apply D_const|apply (D_mult (fun _ => y) (fun t => t)); [apply D_const|apply D_id]]|cbv beta; ring]. }
  assert (Q : 0 < (1 - y * t) ^ j) by (apply pow_lt, P).
  eapply D_eq; [apply (D_div (fun t => Rpower (1 - y * t) c) (fun t => (1 - y * t) ^ j)); [apply (D_power (fun t => 1 - y * t)); [exact K|exact P]|apply (D_pow (fun t => 1 - y * t)); exact K|lra]|].
  cbv beta. unfold fall. set (k := 1 - y * t) in *. set (r := Rpower k c). rewrite <- tech_pow_Rmult. destruct j as [|j].
  - cbn [INR pow pred]. field. lra.
  - cbn [pred]. rewrite <- tech_pow_Rmult in *. set (m := INR (S j)). assert (0 < k ^ j) by (apply pow_lt, P). field. repeat split; nra.
Qed.
Lemma fall_near y : near0 (fun t => 0 < 1 - y * t).
Proof.
  apply (near_pos (fun t => 1 - y * t) (- y)); [|lra].
  eapply D_eq; [apply (D_minus (fun _ => 1) (fun t => y * t)); [apply D_const|apply (D_mult (fun _ => y) (fun t => t)); [apply D_const|apply D_id]]|cbv beta; ring].
Qed.
Lemma D_scale k f x l : derivable_pt_lim f x l -> derivable_pt_lim (fun t => k * f t) x (k * l).
Proof. intros H. eapply D_eq; [apply (D_mult (fun _ => k) f); [apply D_const|exact H]|cbv beta; ring]. Qed.

(** The curve X + A (1 - (1 - y t)^c). *)
Definition sink (X A y c t : R) : R := X + A * (1 - fall y c 0 t).
Lemma sink_1 X A y c : derives (sink X A y c) (fun t => A * (y * c) * fall y c 1 t).
Proof.
  apply (near_imp _ _) with (2 := fall_near y). intros t P. unfold sink.
  eapply D_eq; [apply (D_plus (fun _ => X) (fun t => A * (1 - fall y c 0 t))); [apply D_const|apply D_scale; apply (D_minus (fun _ => 1) (fall y c 0)); [apply D_const|apply D_fall; exact P]]|]. cbn [INR]. ring.
Qed.
Lemma fall_derives k y c j : derives (fun t => k * fall y c j t) (fun t => k * (- y * (c - INR j)) * fall y c (S j) t).
Proof. apply (near_imp _ _) with (2 := fall_near y). intros t P. eapply D_eq; [apply D_scale, D_fall, P|ring]. Qed.
Lemma derives_minus F G F' G' : derives F F' -> derives G G' -> derives (fun t => F t - G t) (fun t => F' t - G' t).
Proof. intros A B. generalize (near_and _ _ A B). apply near_imp. intros t [X Y]. apply (D_minus F G); assumption. Qed.
Lemma sink_flat3 X A y c F F1 F2 F3 : derives F F1 -> derives F1 F2 -> derives F2 F3 -> X = F 0 -> A * (y * c) = F1 0 -> F1 0 * (- y * (c - 1)) = F2 0 -> F2 0 * (- y * (c - 2)) = F3 0 ->
  flat 3 (fun t => sink X A y c t - F t).
Proof.
  intros D1 D2 D3 E0 H1 H2 H3.
  split; [unfold sink; rewrite fall_0; lra|]. exists (fun t => A * (y * c) * fall y c 1 t - F1 t). split; [apply derives_minus; [apply sink_1|exact D1]|].
  split; [rewrite fall_0; lra|]. eexists. split; [apply derives_minus; [apply fall_derives|exact D2]|].
  split; [cbv beta; rewrite fall_0; cbn [INR]; rewrite H1; lra|]. eexists. split; [apply derives_minus; [apply fall_derives|exact D3]|].
  split; [|exact I]. cbv beta. rewrite fall_0. cbn [INR]. rewrite H1. rewrite <- H3, <- H2. ring.
Qed.
Lemma sink_flat2 X A y c F F1 F2 : derives F F1 -> derives F1 F2 -> X = F 0 -> A * (y * c) = F1 0 -> F1 0 * (- y * (c - 1)) = F2 0 ->
  flat 2 (fun t => sink X A y c t - F t).
Proof.
  intros D1 D2 E0 H1 H2.
  split; [unfold sink; rewrite fall_0; lra|]. exists (fun t => A * (y * c) * fall y c 1 t - F1 t). split; [apply derives_minus; [apply sink_1|exact D1]|].
  split; [rewrite fall_0; lra|]. eexists. split; [apply derives_minus; [apply fall_derives|exact D2]|].
  split; [|exact I]. cbv beta. rewrite fall_0. cbn [INR]. rewrite H1. lra.
Qed.

(** The constants of the fit. *)
Section Fit.
Context (n1 n2 n3 e1 e2 : R).
Definition y_ : R := (n1 * n3 - n2 ^ 2) / (n1 * n2).
Definition p_ : R := (2 * n2 ^ 2 - n1 * n3) / (n2 ^ 2 - n1 * n3).
Definition q_ : R := 1 - e2 / (e1 * y_).
Context (Z1 : n1 <> 0) (Z2 : n2 <> 0) (Z3 : n3 <> 0) (Z4 : n2 ^ 2 <> n1 * n3) (Z5 : 2 * n2 ^ 2 <> n1 * n3) (Z6 : 3 * n2 ^ 2 <> 2 * (n1 * n3))
        (Z7 : e1 <> 0) (Z8 : e1 * y_ <> e2).
Lemma y_nz : y_ <> 0.
Proof. unfold y_. intros H. apply Rmult_integral in H. destruct H as [H|H]; [lra|]. revert H. apply Rinv_neq_0_compat. nra. Qed.
Lemma p_nz : p_ <> 0.
Proof. unfold p_. intros H. apply Rmult_integral in H. destruct H as [H|H]; [lra|]. revert H. apply Rinv_neq_0_compat. lra. Qed.
Lemma p1_nz : p_ + 1 <> 0.
Proof. unfold p_. intros H. apply Z6. assert (W : n2 ^ 2 - n1 * n3 <> 0) by lra. replace ((2 * n2 ^ 2 - n1 * n3) / (n2 ^ 2 - n1 * n3) + 1) with ((3 * n2 ^ 2 - 2 * (n1 * n3)) / (n2 ^ 2 - n1 * n3)) in H by (field; exact W).
  apply Rmult_integral in H. destruct H as [H|H]; [lra|]. exfalso. revert H. apply Rinv_neq_0_compat, W. Qed.
Lemma q_nz : q_ <> 0.
Proof. unfold q_. intros H. apply Z8. assert (Y := y_nz). assert (W : e2 / (e1 * y_) = 1) by lra. replace e2 with (e2 / (e1 * y_) * (e1 * y_)) by (field; split; assumption). rewrite W. ring. Qed.
Lemma fit_ok : fit ideal n1 (mk_rates8 ideal e1 n2 e2 n3) = mk_fit8 ideal p_ y_ (n1 / (p_ * y_)) q_ (e1 / (q_ * y_)) (1 / (y_ * (p_ + 1))).
Proof.
  assert (Y := y_nz). assert (P := p_nz). assert (P1 := p1_nz). assert (Q := q_nz). assert (W : n2 ^ 2 - n1 * n3 <> 0) by lra.
  cbv delta [fit int]; cbv beta. set (r := mk_rates8 ideal e1 n2 e2 n3). change (q_edot ideal r) with e1. change (q_xnddt ideal r) with n2. change (q_eddot ideal r) with e2. change (q_xntrdt ideal r) with n3.
  change (num ideal) with R in *.
  step (n2 * 1000000000) ltac:(ic; field). pass_. step ((n2 ^ 2 - n1 * n3) * 1000000000000000000) ltac:(ic; field). pass_.
  step constr:(p_) ltac:(unfold p_; ic; field; lra).
  step constr:(y_) idtac.
  { ic. replace (p_ - 2 / 1) with (n1 * n3 / (n2 ^ 2 - n1 * n3)) by (unfold p_; field; exact W). unfold y_. field. repeat split; try assumption; lra. }
  step (n1 / (p_ * y_)) reflexivity.
  step constr:(q_) ltac:(unfold q_; ic; field; split; assumption).
  step (e1 / (q_ * y_)) reflexivity.
  step (1 / (y_ * (p_ + 1))) ltac:(ic; field; split; [lra|exact Y]).
  reflexivity.
Qed.
Lemma fit_n2 : n1 * (- y_ * (p_ - 1)) = n2.
Proof. unfold y_, p_. field. repeat split; try assumption; lra. Qed.
Lemma fit_n3 : n2 * (- y_ * (p_ - 2)) = n3.
Proof. unfold y_, p_. field. repeat split; try assumption; lra. Qed.
Lemma fit_e2 : e1 * (- y_ * (q_ - 1)) = e2.
Proof. assert (Y := y_nz). unfold q_. field. split; assumption. Qed.
End Fit.

(** ** The decay that SGP8 follows *)
Section Follow.
Context (o : orb ideal).
Let i : R := o_xincl ideal o.
Let e0 : R := o_eo ideal o.
Let w0 : R := o_omegao ideal o.
Let b : R := o_bstar ideal o.
Let N : R := n0'' i e0 (o_xno ideal o).
Let a : R := a0'' i e0 (o_xno ideal o).
Context (He : 0 < e0 < 1) (Hn : 0 < o_xno ideal o) (HN : 0 < N) (Ha : height_s < a * (1 - e0)).
Lemma init_fast : 216 / 100000 < 1440 * Rabs (n_rate b i N a N e0 w0 / N) -> forall n1 e1 g1 n2 e2 g2 n3 n e g, n 0 = N -> e 0 = e0 -> g 0 = w0 -> follow b i N a n e g n1 e1 g1 n2 e2 g2 n3 ->
  let p := SGP8_init ideal o in f_xndt ideal p = n1 0 /\ f_edot ideal p = e1 0 /\ f_xnodp ideal p = N /\ f_fit ideal p = Some (fit ideal (n1 0) (mk_rates8 ideal (e1 0) (n2 0) (e2 0) (n3 0))).
Proof.
  intros T n1 e1 g1 n2 e2 g2 n3 n e g n_0 e_0 g_0 (_ & (J1 & J2 & J3) & (J4 & J5 & J6) & J7). cbv zeta. unfold SGP8_init. cbv zeta. cbv beta in J1, J2, J3. rewrite n_0, e_0 in J1, J2, J3. rewrite g_0 in J1, J2.
  change (c_sin ideal (o_xincl ideal o)) with (sin (o_xincl ideal o)). rewrite (drag_ok o He Hn HN Ha).
  rewrite (rates_ok o He Hn HN Ha n e g n1 e1 g1 n2 e2 g2 n_0 e_0 g_0 J1 J2 J3 J4 J5).
  2: { rewrite J6. cbv beta. rewrite n_0, e_0. reflexivity. }
  assert (C : ltn ideal (cst ideal 216 100000) (c_fabs ideal (mul ideal (g_xndtn ideal (drag_is o)) (int ideal 1440))) = true).
  { unfold drag_is. cbn [g_xndtn]. ic. apply Rltb_t. rewrite Rabs_mult. change (n_rate (o_bstar ideal o)) with (n_rate b).
    assert (Q : Rabs (1440 / 1) = 1440) by (rewrite Rabs_right; lra). rewrite Q. rewrite Rmult_comm. exact T. }
  rewrite C. cbn [f_xndt f_edot f_xnodp f_fit q_edot]. unfold drag_is. cbn [g_xndt]. split; [symmetry; exact J1|]. split; [symmetry; exact J2|]. split; [exact (x_n o He Hn Ha)|].
  rewrite J1, J2, J4, J5, J7. reflexivity.
Qed.

Theorem decay_ok n e g n1 n2 n3 e1 e2 : decays b i N a e0 w0 n e g -> jet3 n n1 n2 n3 -> jet2 e e1 e2 ->
  216 / 100000 < 1440 * Rabs (n1 / N) -> n2 <> 0 -> n3 <> 0 -> n2 ^ 2 <> n1 * n3 -> 2 * n2 ^ 2 <> n1 * n3 -> 3 * n2 ^ 2 <> 2 * (n1 * n3) -> e1 <> 0 -> e1 * (n1 * n3 - n2 ^ 2) <> n1 * n2 * e2 ->
  let at_ t := decay ideal e0 (SGP8_init ideal o) t in
  flat 3 (fun t => fst (fst (at_ t)) - n t) /\ flat 2 (fun t => snd (fst (at_ t)) - e t)
  /\ snd (at_ 0) = 0 /\ (forall t, (n1 * n3 - n2 ^ 2) * t / (n1 * n2) < 1 -> derivable_pt_lim (fun t => snd (at_ t)) t (fst (fst (at_ t)) - N)).
Proof.
  intros D J K T Z2 Z3 Z4 Z5 Z6 Z7 Z8 at_.
  assert (Z1 : n1 <> 0). { intros ->. unfold Rdiv in T. rewrite Rmult_0_l, Rabs_R0 in T. lra. }
  assert (S := s_gt). assert (A : 0 < a) by exact (a_pos o He Ha).
  destruct (decays_follow b i N a e0 w0 n e g HN A (p_gt o He HN Ha) (psi_gt o He HN Ha) ltac:(nra) D) as (m1 & k1 & h1 & m2 & k2 & h2 & m3 & F).
  destruct D as (n_0 & e_0 & g_0 & _). assert (F' := F). destruct F' as (G & (J1 & J2 & _) & _).
  assert (Dn : derives n m1) by (revert G; apply near_imp; intros t X; apply X). assert (Dn1 : derives m1 m2) by (revert G; apply near_imp; intros t X; apply X). assert (Dn2 : derives m2 m3) by (revert G; apply near_imp; intros t X; apply X).
  assert (De : derives e k1) by (revert G; apply near_imp; intros t X; apply X). assert (De1 : derives k1 k2) by (revert G; apply near_imp; intros t X; apply X). clear G.
  destruct (jet3_unique _ _ _ _ _ _ _ Dn Dn1 Dn2 J) as (U1 & U2 & U3). destruct (jet2_unique _ _ _ _ _ De De1 K) as (V1 & V2).
  cbv beta in J1. rewrite n_0, e_0, g_0 in J1. rewrite <- U1, J1 in T.
  destruct (init_fast T _ _ _ _ _ _ _ _ _ _ n_0 e_0 g_0 F) as (I1 & I2 & I3 & I4). rewrite U1, U2, U3, V1, V2 in I4. 
  assert (Z8' : e1 * y_ n1 n2 n3 <> e2). { unfold y_. intros X. apply Z8. rewrite <- X. field. split; assumption. }
  assert (Y : y_ n1 n2 n3 <> 0) by (eapply y_nz; eassumption). assert (P : p_ n1 n2 n3 <> 0) by (eapply p_nz; eassumption).
  assert (P1 : p_ n1 n2 n3 + 1 <> 0) by (eapply p1_nz; eassumption). assert (Q : q_ n1 n2 n3 e1 e2 <> 0) by (eapply q_nz; eassumption).
  rewrite (fit_ok n1 n2 n3 e1 e2 Z1 Z2 Z3 Z4 Z5 Z6 Z7 Z8') in I4.
  set (y := y_ n1 n2 n3) in *. set (p := p_ n1 n2 n3) in *. set (q := q_ n1 n2 n3 e1 e2) in *.
  assert (E : forall t, 0 < 1 - y * t -> at_ t = (sink N (n1 / (p * y)) y p t, sink e0 (e1 / (q * y)) y q t, n1 / (p * y) * (t + 1 / (y * (p + 1)) * ((1 - y * t) * fall y p 0 t - 1)))).
  { intros t L. unfold at_, decay. rewrite I4. cbv zeta. cbn [f_pp f_gamma f_xnd f_qq f_ed f_ovgpp]. rewrite I3. ic. replace (1 / 1) with 1 by lra. rewrite !Rcpow_pos by exact L.
    unfold sink, fall. rewrite !pow_O. f_equal; [f_equal|]; field; repeat split; lra. }
  split; [|split; [|split]].
  - eapply flat_ext; [apply (near_imp _ _ (fun t L => eq_sym (f_equal (fun v => fst (fst v) - n t) (E t L))) (fall_near y))|]. cbv beta. cbn [fst snd].
    apply (sink_flat3 _ _ _ _ _ _ _ _ Dn Dn1 Dn2); [symmetry; exact n_0|rewrite U1; field; split; assumption|rewrite U1, U2; apply fit_n2; assumption|rewrite U2, U3; apply fit_n3; assumption].
  - eapply flat_ext; [apply (near_imp _ _ (fun t L => eq_sym (f_equal (fun v => snd (fst v) - e t) (E t L))) (fall_near y))|]. cbv beta. cbn [fst snd].
    apply (sink_flat2 _ _ _ _ _ _ _ De De1); [symmetry; exact e_0|rewrite V1; field; split; assumption|rewrite V1, V2; apply fit_e2; assumption].
  - rewrite (E 0) by lra. cbn [snd]. rewrite fall_0. change (num ideal) with R. ring.
  - intros t L. assert (Lt : 0 < 1 - y * t). { unfold y, y_. replace ((n1 * n3 - n2 ^ 2) / (n1 * n2) * t) with ((n1 * n3 - n2 ^ 2) * t / (n1 * n2)) by (field; split; assumption). lra. }
    apply (D_near (fun t => n1 / (p * y) * (t + 1 / (y * (p + 1)) * ((1 - y * t) * fall y p 0 t - 1)))).
    + rewrite (E t Lt). cbn [fst snd]. eapply D_eq.
      * apply D_scale. apply (D_plus (fun t => t) (fun t => 1 / (y * (p + 1)) * ((1 - y * t) * fall y p 0 t - 1))); [apply D_id|]. apply D_scale.
        apply (D_minus (fun t => (1 - y * t) * fall y p 0 t) (fun _ => 1)); [|apply D_const].
        apply (D_mult (fun t => 1 - y * t) (fall y p 0)); [|apply D_fall; exact Lt].
        apply (D_minus (fun _ => 1) (fun t => y * t)); [apply D_const|apply D_scale, D_id].
      * cbv beta. unfold sink. cbn [INR]. assert (W : (1 - y * t) * fall y p 1 t = fall y p 0 t) by (unfold fall; field; lra).
        replace ((0 - y * 1) * fall y p 0 t + (1 - y * t) * (- y * (p - 0) * fall y p 1 t) - 0) with (- y * (p + 1) * fall y p 0 t) by (rewrite <- W; ring).
        field. repeat split; assumption.
    + destruct (Req_dec y 0) as [X|_]; [contradiction|]. exists ((1 - y * t) / (Rabs y)). assert (0 < Rabs y) by (apply Rabs_pos_lt; exact Y). split; [apply Rdiv_lt_0_compat; assumption|].
      intros u B. rewrite (E u); [reflexivity|]. apply (Rmult_lt_compat_l (Rabs y)) in B; [|assumption]. rewrite <- Rabs_mult in B. replace (Rabs y * ((1 - y * t) / Rabs y)) with (1 - y * t) in B by (field; lra).
      assert (V := Rle_abs (y * (u - t))). lra.
Qed.
End Follow.
