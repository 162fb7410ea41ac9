(** Decimal enclosures of sines and cosines, by integer arithmetic. *)
From Coq Require Import ZArith List Reals Lra Lia Psatz.
Import ListNotations.
Open Scope R_scope.

(** 1 - y/d1 (1 - y/d2 (1 - ...)) *)
Fixpoint horner (y : R) (ds : list Z) : R := match ds with [] => 1 | d :: ds => 1 - y / IZR d * horner y ds end.
(** S times it, between two integers; None when an inner bound is negative. *)
Fixpoint encl (S ylo yhi : Z) (ds : list Z) : option (Z * Z) :=
  match ds with
  | [] => Some (S, S)
  | d :: ds =>
    match encl S ylo yhi ds with
    | Some (lo, hi) => let lo' := (S - (yhi * hi) / (d * S) - 1)%Z in let hi' := (S - (ylo * lo) / (d * S))%Z in
                       if ((0 <=? lo) && (0 <? d))%bool%Z then Some (lo', hi') else None
    | None => None
    end
  end.
Lemma encl_ok S ylo yhi y ds lo hi : (0 < S)%Z -> (0 <= ylo)%Z -> IZR ylo <= y * IZR S <= IZR yhi -> encl S ylo yhi ds = Some (lo, hi) ->
  IZR lo <= IZR S * horner y ds <= IZR hi.
Proof.
  intros HS H0 [HY1 HY2]. assert (HS' := IZR_lt _ _ HS). assert (H0' := IZR_le _ _ H0).
  revert lo hi. induction ds as [|d ds IH]; cbn [encl horner]; intros lo hi E.
  - inversion E; subst. lra.
  - destruct (encl S ylo yhi ds) as [[l h]|]; [|discriminate]. specialize (IH l h eq_refl). destruct IH as (B1 & B2).
    destruct (_ && _)%bool eqn:C in E; [|discriminate]. apply andb_prop in C. destruct C as [L C2]. apply Z.leb_le in L. apply Z.ltb_lt in C2. inversion E; subst lo hi; clear E.
    assert (L' := IZR_le _ _ L). assert (D := IZR_lt _ _ C2). set (s := IZR S) in *. set (dd := IZR d) in *. set (t := horner y ds) in *.
    assert (P : (0 < d * S)%Z) by nia. assert (P' : 0 < dd * s) by nra.
    assert (Q1 := Z.mul_succ_div_gt (yhi * h) (d * S) P). assert (Q2 := Z.mul_div_le (ylo * l) (d * S) P).
    apply IZR_lt in Q1. apply IZR_le in Q2. unfold Z.succ in Q1. rewrite !mult_IZR, plus_IZR in Q1. rewrite !mult_IZR in Q2. rewrite !minus_IZR. fold s dd in Q1, Q2. change (IZR S) with s.
    set (q1 := IZR (yhi * h / (d * S))) in *. set (q2 := IZR (ylo * l / (d * S))) in *.
    assert (M1 : y * s * (s * t) <= IZR yhi * IZR h) by (apply Rmult_le_compat; lra).
    assert (M2 : IZR ylo * IZR l <= y * s * (s * t)) by (apply Rmult_le_compat; lra).
    assert (X : s * (1 - y / dd * t) = s - (y * s * (s * t)) / (dd * s)) by (field; lra). rewrite X.
    assert (Y1 : y * s * (s * t) / (dd * s) < q1 + 1) by (apply (Rmult_lt_reg_r (dd * s)); [exact P'|]; replace (y * s * (s * t) / (dd * s) * (dd * s)) with (y * s * (s * t)) by (field; lra); lra).
    assert (Y2 : q2 <= y * s * (s * t) / (dd * s)) by (apply (Rmult_le_reg_r (dd * s)); [exact P'|]; replace (y * s * (s * t) / (dd * s) * (dd * s)) with (y * s * (s * t)) by (field; lra); lra).
    lra.
Qed.

(** ** The two series *)
Definition dcos (i : nat) : Z := ((2 * Z.of_nat i + 1) * (2 * Z.of_nat i + 2))%Z.
Definition dsin (i : nat) : Z := ((2 * Z.of_nat i + 2) * (2 * Z.of_nat i + 3))%Z.
Lemma cos_step a i : cos_term a (S i) = - (a * a) / IZR (dcos i) * cos_term a i.
Proof.
  unfold dcos. rewrite mult_IZR, !plus_IZR, mult_IZR, <- INR_IZR_INZ.
  unfold cos_term. replace (2 * S i)%nat with (S (S (2 * i))) by lia. rewrite !fact_simpl, !mult_INR, !S_INR, mult_INR.
  cbn [pow]. assert (P := INR_fact_neq_0 (2 * i)). assert (Q := pos_INR i). change (INR 2) with 2. field. repeat split; lra.
Qed.
Lemma sin_step a i : sin_term a (S i) = - (a * a) / IZR (dsin i) * sin_term a i.
Proof.
  unfold dsin. rewrite mult_IZR, !plus_IZR, mult_IZR, <- INR_IZR_INZ.
  unfold sin_term. replace (2 * S i + 1)%nat with (S (S (2 * i + 1))) by lia. rewrite !fact_simpl, !mult_INR, !S_INR, plus_INR, mult_INR.
  cbn [pow]. assert (P := INR_fact_neq_0 (2 * i + 1)). assert (Q := pos_INR i). change (INR 2) with 2. change (INR 1) with 1. field. repeat split; lra.
Qed.
Lemma sum_horner (f : nat -> R) (d : nat -> Z) y : (forall i, f (S i) = - y / IZR (d i) * f i) ->
  forall n k, sum_f_R0 (fun i => f (k + i)%nat) n = f k * horner y (map d (seq k n)).
Proof.
  intros F. induction n as [|n IH]; intros k.
  - cbn. rewrite Nat.add_0_r. ring.
  - rewrite decomp_sum by lia. cbn [pred seq map horner]. rewrite Nat.add_0_r.
    rewrite (sum_eq _ (fun i => f (S k + i)%nat)) by (intros; f_equal; lia). rewrite IH, F. unfold Rdiv. ring.
Qed.
Lemma cos_horner a n : cos_approx a n = horner (a * a) (map dcos (seq 0 n)).
Proof. unfold cos_approx. assert (H := sum_horner _ _ _ (cos_step a) n 0). cbn [Nat.add] in H. etransitivity; [exact H|]. unfold cos_term. cbn. field. Qed.
Lemma sin_horner a n : sin_approx a n = a * horner (a * a) (map dsin (seq 0 n)).
Proof. unfold sin_approx. assert (H := sum_horner _ _ _ (sin_step a) n 0). cbn [Nat.add] in H. etransitivity; [exact H|]. unfold sin_term. cbn. field. Qed.

(** ** Enclosures for a rational angle p / q *)
Definition square (S p q : Z) : Z := (p * p * S / (q * q))%Z.
Lemma square_ok S p q : (0 < q)%Z -> (0 <= S)%Z -> (0 <= square S p q)%Z /\ IZR (square S p q) <= IZR p / IZR q * (IZR p / IZR q) * IZR S <= IZR (square S p q + 1).
Proof.
  intros HQ HS. unfold square. split; [apply Z.div_pos; nia|]. assert (P : (0 < q * q)%Z) by nia. assert (Q' := IZR_lt _ _ HQ).
  assert (A := Z.mul_div_le (p * p * S) (q * q) P). assert (B := Z.mul_succ_div_gt (p * p * S) (q * q) P). apply IZR_le in A. apply IZR_lt in B.
  unfold Z.succ in B. set (z := (p * p * S / (q * q))%Z) in *. rewrite !mult_IZR in A, B. rewrite plus_IZR in *.
  assert (P' : 0 < IZR q * IZR q) by nra.
  assert (E : IZR p / IZR q * (IZR p / IZR q) * IZR S * (IZR q * IZR q) = IZR p * IZR p * IZR S) by (field; lra).
  split; apply (Rmult_le_reg_r (IZR q * IZR q)); try exact P'; lra.
Qed.
(** lo and hi are S times the bounds. *)
Definition cos_check (S p q : Z) (n : nat) (lo hi : Z) : bool :=
  let y := square S p q in
  match encl S y (y + 1) (map dcos (seq 0 (2 * n + 1))), encl S y (y + 1) (map dcos (seq 0 (2 * (n + 1)))) with
  | Some (l, _), Some (_, h) => ((lo <=? l) && (h <=? hi) && (0 <? S) && (0 <? q) && (-2 * q <=? p) && (p <=? 2 * q))%bool%Z
  | _, _ => false
  end.
Definition sin_check (S p q : Z) (n : nat) (lo hi : Z) : bool :=
  let y := square S p q in
  match encl S y (y + 1) (map dsin (seq 0 (2 * n + 1))), encl S y (y + 1) (map dsin (seq 0 (2 * (n + 1)))) with
  | Some (l, _), Some (_, h) => ((lo * q <=? p * l) && (p * h <=? hi * q) && (0 <? S) && (0 <? q) && (0 <=? p) && (p <=? 4 * q))%bool%Z
  | _, _ => false
  end.
Ltac split_bools H := repeat match type of H with (_ && _)%bool = true => apply andb_prop in H; let K := fresh "K" in destruct H as [H K] end.
Lemma cos_box S p q n lo hi : cos_check S p q n lo hi = true -> IZR lo / IZR S <= cos (IZR p / IZR q) <= IZR hi / IZR S.
Proof.
  unfold cos_check. cbv zeta. intros C. destruct (encl _ _ _ (map dcos (seq 0 (2 * n + 1)))) as [[l h0]|] eqn:E1; [|discriminate].
  destruct (encl _ _ _ (map dcos (seq 0 (2 * (n + 1))))) as [[l0 h]|] eqn:E2; [|discriminate].
  split_bools C. rewrite ?Z.leb_le, ?Z.ltb_lt in *.
  match goal with H : (0 < S)%Z |- _ => rename H into HS end. match goal with H : (0 < q)%Z |- _ => rename H into HQ end.
  destruct (square_ok S p q HQ ltac:(lia)) as [Y0 Y].
  assert (B1 := encl_ok _ _ _ _ _ _ _ HS Y0 Y E1). assert (B2 := encl_ok _ _ _ _ _ _ _ HS Y0 Y E2). rewrite <- cos_horner in B1, B2.
  assert (S' := IZR_lt _ _ HS). assert (Q' := IZR_lt _ _ HQ).
  assert (R1 : -2 <= IZR p / IZR q <= 2).
  { split; apply (Rmult_le_reg_r (IZR q)); try exact Q'; unfold Rdiv; rewrite Rmult_assoc, Rinv_l, Rmult_1_r by lra; rewrite <- mult_IZR; apply IZR_le; lia. }
  assert (B := pre_cos_bound (IZR p / IZR q) n ltac:(lra) ltac:(lra)).
  assert (LE : forall a b, (a <= b)%Z -> IZR a <= IZR b) by apply IZR_le.
  split; apply (Rmult_le_reg_r (IZR S)); try exact S'; unfold Rdiv at 1; [| rewrite (Rmult_comm (cos _)) ];
    unfold Rdiv; rewrite ?Rmult_assoc, ?Rinv_l, ?Rmult_1_r by lra.
  - apply (Rle_trans _ (IZR l)); [apply LE; lia|]. destruct B1 as (B1 & _). apply (Rle_trans _ _ _ B1). rewrite Rmult_comm. apply Rmult_le_compat_r; [lra|]. apply B.
  - apply (Rle_trans _ (IZR h)); [|apply LE; lia]. destruct B2 as (_ & B2). eapply Rle_trans; [|exact B2]. apply Rmult_le_compat_l; [lra|]. apply B.
Qed.
Lemma sin_box S p q n lo hi : sin_check S p q n lo hi = true -> IZR lo / IZR S <= sin (IZR p / IZR q) <= IZR hi / IZR S.
Proof.
  unfold sin_check. cbv zeta. intros C. destruct (encl _ _ _ (map dsin (seq 0 (2 * n + 1)))) as [[l h0]|] eqn:E1; [|discriminate].
  destruct (encl _ _ _ (map dsin (seq 0 (2 * (n + 1))))) as [[l0 h]|] eqn:E2; [|discriminate].
  split_bools C. rewrite ?Z.leb_le, ?Z.ltb_lt in *.
  match goal with H : (0 < S)%Z |- _ => rename H into HS end. match goal with H : (0 < q)%Z |- _ => rename H into HQ end.
  destruct (square_ok S p q HQ ltac:(lia)) as [Y0 Y].
  assert (B1 := encl_ok _ _ _ _ _ _ _ HS Y0 Y E1). assert (B2 := encl_ok _ _ _ _ _ _ _ HS Y0 Y E2).
  assert (S' := IZR_lt _ _ HS). assert (Q' := IZR_lt _ _ HQ).
  assert (R1 : 0 <= IZR p / IZR q <= 4).
  { split; apply (Rmult_le_reg_r (IZR q)); try exact Q'; unfold Rdiv; rewrite Rmult_assoc, Rinv_l, Rmult_1_r by lra; rewrite <- mult_IZR; apply IZR_le; lia. }
  assert (B := pre_sin_bound (IZR p / IZR q) n ltac:(lra) ltac:(lra)). rewrite !sin_horner in B.
  set (a := IZR p / IZR q) in *. assert (EA : IZR p = a * IZR q) by (unfold a; field; lra).
  match goal with H : (lo * q <= p * l)%Z |- _ => apply IZR_le in H; rewrite !mult_IZR, EA in H; rename H into W1 end.
  match goal with H : (p * h <= hi * q)%Z |- _ => apply IZR_le in H; rewrite !mult_IZR, EA in H; rename H into W2 end.
  destruct B1 as (B1 & _). destruct B2 as (_ & B2). destruct B as [BL BH].
  split; apply (Rmult_le_reg_r (IZR S)); try exact S'; unfold Rdiv; rewrite ?Rmult_assoc, ?Rinv_l, ?Rmult_1_r by lra.
  - apply (Rmult_le_reg_r (IZR q)); [exact Q'|]. eapply Rle_trans; [exact W1|].
    set (t := horner (a * a) (map dsin (seq 0 (2 * n + 1)))) in *.
    assert (a * IZR l <= a * (IZR S * t)) by (apply Rmult_le_compat_l; lra). assert (a * t * IZR S <= sin a * IZR S) by (apply Rmult_le_compat_r; lra). nra.
  - apply (Rmult_le_reg_r (IZR q)); [exact Q'|]. eapply Rle_trans; [|exact W2].
    set (t := horner (a * a) (map dsin (seq 0 (2 * (n + 1))))) in *.
    assert (a * (IZR S * t) <= a * IZR h) by (apply Rmult_le_compat_l; lra). assert (sin a * IZR S <= a * t * IZR S) by (apply Rmult_le_compat_r; lra). nra.
Qed.
(** pi to 18 places. *)
Lemma pi_in : 3.141592653589793236 < PI < 3.141592653589793240.
Proof.
  assert (P4 := PI_4). assert (P2 := PI2_1). unfold PI2 in *.
  split.
  - assert (C := cos_box (10 ^ 30) 1570796326794896618 (10 ^ 18) 8 1 (10 ^ 15) ltac:(vm_compute; reflexivity)). destruct C as [C _].
    apply Rnot_le_lt. intros H. assert (K : cos (1570796326794896618 / 1000000000000000000) <= 0) by (apply cos_le_0; lra). revert K. apply Rlt_not_le.
    eapply Rlt_le_trans; [|exact C]. apply Rdiv_lt_0_compat; apply IZR_lt; vm_compute; reflexivity.
  - assert (C := cos_box (10 ^ 30) 1570796326794896620 (10 ^ 18) 8 (- 10 ^ 15) (-1) ltac:(vm_compute; reflexivity)). destruct C as [_ C].
    apply Rnot_le_lt. intros H. assert (K : 0 <= cos (1570796326794896620 / 1000000000000000000)) by (apply cos_ge_0; lra). revert K. apply Rlt_not_le.
    eapply Rle_lt_trans; [exact C|]. unfold Rdiv. rewrite <- (Rmult_0_l (/ IZR (10 ^ 30))). apply Rmult_lt_compat_r; [apply Rinv_0_lt_compat|]; apply IZR_lt; vm_compute; reflexivity.
Qed.
