(** skysep_h in binary64 is symmetric to the last bit. *)
From Coq Require Import ZArith Bool Reals Lra Lia.
From Flocq Require Import Core IEEE754.BinarySingleNaN.
From Verif Require Import CLib FloatModel FloatLemmas ArithModel GeoModel AngleProofs GeoMachProofs GeoAltMach.

Lemma fmul_comm (x y : b64) : fmul x y = fmul y x.
Proof.
  unfold fmul, Bmult. destruct x as [s|s| |s mx ex Hx], y as [t|t| |t my ey Hy]; try reflexivity; try (rewrite (xorb_comm s t); reflexivity).
  apply B2SF_inj. rewrite !B2SF_SF2B. rewrite (xorb_comm s t), (Pos.mul_comm mx my), (Z.add_comm ex ey). reflexivity.
Qed.
Lemma fmul_opp_opp (x : b64) : fmul (fopp x) (fopp x) = fmul x x.
Proof.
  destruct x as [s|s| |s mx ex Hx]; try reflexivity; try (destruct s; reflexivity).
  apply B2SF_inj. unfold fopp, fmul, Bmult, Bopp. rewrite !B2SF_SF2B. destruct s; reflexivity.
Qed.
Lemma fabs_opp (x : b64) : fabs (fopp x) = fabs x.
Proof. destruct x; reflexivity. Qed.

(** A number or its opposite. *)
Definition mirrored (x y : b64) : Prop := x = y \/ x = fopp y.
Lemma aux_neg s m e l : binary_round_aux 53 1024 mode_NE (negb s) m e l = SpecFloat.SFopp (binary_round_aux 53 1024 mode_NE s m e l).
Proof.
  unfold binary_round_aux. destruct (SpecFloat.shr_fexp 53 1024 m e l) as [r e1].
  change (choice_mode mode_NE (negb s) (SpecFloat.shr_m r) (SpecFloat.loc_of_shr_record r)) with (choice_mode mode_NE s (SpecFloat.shr_m r) (SpecFloat.loc_of_shr_record r)).
  destruct (SpecFloat.shr_fexp 53 1024 _ e1 _) as [r2 e2]. destruct (SpecFloat.shr_m r2); [reflexivity| |reflexivity].
  unfold binary_fit_aux. destruct (Z.leb e2 (1024 - 53)); reflexivity.
Qed.
Lemma opp_SF (x : b64) : B2SF (fopp x) = SpecFloat.SFopp (B2SF x).
Proof. destruct x; reflexivity. Qed.
Lemma normalize_neg z e : mirrored (binary_normalize 53 1024 prec64_gt0 prec64_lt mode_NE (- z) e false) (binary_normalize 53 1024 prec64_gt0 prec64_lt mode_NE z e false).
Proof.
  destruct z as [|p|p]; [left; reflexivity|right|right]; apply B2SF_inj; rewrite opp_SF; cbn [Z.opp binary_normalize]; rewrite !B2SF_SF2B; unfold binary_round; destruct (shl_align_fexp 53 1024 p e) as [mz ez].
  - apply (aux_neg false).
  - apply (aux_neg true).
Qed.
Lemma fsub_swap (x y : b64) : mirrored (fsub y x) (fsub x y).
Proof.
  unfold fsub, Bminus. destruct x as [s|s| |s mx ex Hx], y as [t|t| |t my ey Hy];
    try (left; reflexivity); try (destruct s, t; (left; reflexivity) || (right; reflexivity)); try (destruct s; right; reflexivity); try (destruct t; right; reflexivity).
  cbv zeta. rewrite (Z.min_comm ey ex).
  replace (Fplus_naive t my ey (negb s) mx ex (Z.min ex ey)) with (- Fplus_naive s mx ex (negb t) my ey (Z.min ex ey))%Z; [apply normalize_neg|].
  unfold Fplus_naive. destruct s, t; cbn [negb cond_Zopp SpecFloat.cond_Zopp]; lia.
Qed.

Lemma mirrored_abs x y : mirrored x y -> fabs x = fabs y.
Proof. intros [-> | ->]; [reflexivity|apply fabs_opp]. Qed.
Lemma mirrored_square x y : mirrored x y -> fmul x x = fmul y y.
Proof. intros [-> | ->]; [reflexivity|apply fmul_opp_opp]. Qed.
Lemma mirrored_half x y : mirrored x y -> mirrored (fdiv x (round_ratio 2 1)) (fdiv y (round_ratio 2 1)).
Proof.
  intros [-> | ->]; [left; reflexivity|right].
  assert (D : exists m e H, round_ratio 2 1 = B754_finite false m e H) 
    by (assert (E : match B2SF (round_ratio 2 1) with SpecFloat.S754_finite false _ _ => true | _ => false end = true) by (vm_compute; reflexivity);
        destruct (round_ratio 2 1) as [s|s| |[|] m e H]; try discriminate E; exists m, e, H; reflexivity).
  destruct D as (m & e & H & ->).
  apply B2SF_inj. rewrite opp_SF. destruct y as [s|s| |s my ey Hy]; try reflexivity; try (destruct s; reflexivity).
  unfold fdiv, fopp, Bdiv, Bopp. rewrite !B2SF_SF2B. destruct (SpecFloat.SFdiv_core_binary _ _ _ _ _ _) as [[mz ez] lz]. rewrite !xorb_false_r. apply aux_neg.
Qed.

Lemma skysep_swap m t1 p1 t2 p2 : (forall x, m_sin m (fopp x) = fopp (m_sin m x)) -> skysep_h (machine m) t1 p1 t2 p2 = skysep_h (machine m) t2 p2 t1 p1.
Proof.
  intros O. 
  assert (U : forall t1 p1 t2 p2, skysep_h (machine m) t1 p1 t2 p2 =
    let t1 := if flt t1 (round_ratio 0 1) then fadd t1 TWOPI64 else t1 in let t2 := if flt t2 (round_ratio 0 1) then fadd t2 TWOPI64 else t2 in
    let r := fabs (fsub t2 t1) in let r := if flt PI64 r then fsub TWOPI64 r else r in let a := m_sin m (fdiv r (round_ratio 2 1)) in
    let d := m_sin m (fdiv (fsub p2 p1) (round_ratio 2 1)) in
    fmul (fmul (round_ratio 2 1) (m_asin m (fsqrt (fadd (fmul d d) (fmul (fmul (m_cos m p1) (m_cos m p2)) (fmul a a)))))) RAD64) by reflexivity.
  rewrite !U. cbv zeta. clear U. set (u1 := if flt t1 _ then _ else _). set (u2 := if flt t2 _ then _ else _).
  rewrite (mirrored_abs _ _ (fsub_swap u1 u2)). rewrite (fmul_comm (m_cos m p1)).
  assert (D : mirrored (m_sin m (fdiv (fsub p2 p1) (round_ratio 2 1))) (m_sin m (fdiv (fsub p1 p2) (round_ratio 2 1)))).
  { destruct (mirrored_half _ _ (fsub_swap p1 p2)) as [-> | ->]; [left; reflexivity|right; apply O]. }
  rewrite (mirrored_square _ _ D). reflexivity.
Qed.

(** A direction from itself. *)
Lemma fsub_self (x : b64) : fin x -> fsub x x = B754_zero false.
Proof.
  intros F. destruct x as [s|s| |s mx ex Hx]; try discriminate F; [destruct s; reflexivity|]. unfold fsub, Bminus. cbv zeta.
  replace (Fplus_naive s mx ex (negb s) mx ex (Z.min ex ex)) with 0%Z; [reflexivity|]. unfold Fplus_naive. destruct s; cbn [negb cond_Zopp SpecFloat.cond_Zopp]; lia.
Qed.
Lemma zero_times (x : b64) : fin x -> Bsign x = false -> fmul x (B754_zero false) = B754_zero false.
Proof. intros F S. destruct x as [s|s| |s mx ex Hx]; try discriminate F; cbn in S; subst s; reflexivity. Qed.
Lemma square_sign (x : b64) : fin (fmul x x) -> Bsign (fmul x x) = false.
Proof.
  intros F. pose proof (Bmult_correct 53 1024 prec64_gt0 prec64_lt mode_NE x x) as C. destruct (Rlt_bool _ _) in C.
  - destruct C as (_ & _ & C). unfold fmul. rewrite C; [apply xorb_nilpotent|]. change (is_finite (fmul x x) = true) in F. unfold fmul in F. destruct (Bmult mode_NE x x); try discriminate F; reflexivity.
  - exfalso. change (is_finite (fmul x x) = true) in F. unfold fmul in F. destruct (Bmult mode_NE x x); try discriminate F; cbn in C; unfold binary_overflow in C; cbn in C; discriminate C.
Qed.
Lemma skysep_self m (t p : b64) : (Rabs (toR t) <= 1000)%R -> fin t -> fin p -> fin (m_cos m p) -> (Rabs (toR (m_cos m p)) <= 1)%R ->
  m_sin m (B754_zero false) = B754_zero false -> m_asin m (B754_zero false) = B754_zero false -> skysep_h (machine m) t p t p = B754_zero false.
Proof.
  intros Bt Ft Fp Fc Bc S0 A0.
  assert (U : skysep_h (machine m) t p t p =
    let t1 := if flt t (round_ratio 0 1) then fadd t TWOPI64 else t in 
    let r := fabs (fsub t1 t1) in let r := if flt PI64 r then fsub TWOPI64 r else r in let a := m_sin m (fdiv r (round_ratio 2 1)) in
    let d := m_sin m (fdiv (fsub p p) (round_ratio 2 1)) in
    fmul (fmul (round_ratio 2 1) (m_asin m (fsqrt (fadd (fmul d d) (fmul (fmul (m_cos m p) (m_cos m p)) (fmul a a)))))) RAD64) by reflexivity.
  rewrite U. cbv zeta. clear U. set (u := if flt t _ then _ else _).
  assert (FU : fin u).
  { unfold u. destruct (flt t _); [|exact Ft]. destruct TWOPI64_R as [FT VT]. apply (fadd_R t TWOPI64 11 Ft FT); [lia|]. rewrite VT. apply Rabs_le_inv in Bt. apply Rabs_le. cbn. lra. }
  rewrite (fsub_self u FU), (fsub_self p Fp).
  replace (flt PI64 (fabs (B754_zero false))) with false by (vm_compute; reflexivity).
  replace (fdiv (fabs (B754_zero false)) (round_ratio 2 1)) with (B754_zero false : b64) by (apply B2SF_inj; vm_compute; reflexivity).
  replace (fdiv (B754_zero false) (round_ratio 2 1)) with (B754_zero false : b64) by (apply B2SF_inj; vm_compute; reflexivity).
  rewrite S0. replace (fmul (B754_zero false) (B754_zero false)) with (B754_zero false : b64) by reflexivity.
  destruct (mul_unit (m_cos m p) (m_cos m p) Fc Fc Bc Bc) as (G & _ & _). rewrite (zero_times _ G (square_sign _ G)).
  replace (fsqrt (fadd (B754_zero false) (B754_zero false))) with (B754_zero false : b64) by reflexivity. rewrite A0.
  apply B2SF_inj. vm_compute. reflexivity.
Qed.
