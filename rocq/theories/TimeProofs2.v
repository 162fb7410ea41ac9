(** Sidereal time in binary64: ranges and rounding. *)
From Coq Require Import ZArith Reals Lra Lia Bool Psatz.
From Flocq Require Import Core IEEE754.BinarySingleNaN.
From Verif Require Import CLib FloatModel ArithModel FloatLemmas GeoLemmas OrbModel TimeModel TimeSpec TimeProofs AngleProofs.
Open Scope R_scope.

(** x - (double)(long)x is the exact fraction. *)
Lemma frac_exact s z : to_long s = Ok z ->
  fin s /\ z = Ztrunc (toR s) /\ fin (of_int z) /\ toR (of_int z) = IZR z /\ fin (fsub s (of_int z)) /\ toR (fsub s (of_int z)) = toR s - IZR z.
Proof.
  unfold to_long. destruct (is_finite s) eqn:F; [|intros; discriminate]. cbv zeta.
  destruct ((- long_max - 1 <=? Btrunc s)%Z && (Btrunc s <=? long_max)%Z) eqn:B; [|intros; discriminate].
  intros H. assert (Ez : z = Btrunc s) by (inversion H; reflexivity). rewrite Btrunc_R in Ez.
  apply andb_prop in B. destruct B as [B1 B2]. apply Z.leb_le in B1, B2. rewrite Btrunc_R in B1, B2. rewrite <- Ez in B1, B2. unfold long_max in *.
  assert (N : Rabs (IZR z) <= bpow radix2 64). { rewrite <- abs_IZR. change (bpow radix2 64) with (IZR 18446744073709551616). apply IZR_le. lia. }
  assert (GZ : RN (IZR z) = IZR z). { destruct (ftrunc_R s F) as [_ T]. rewrite Ez, <- T. apply RN_gen, gen. }
  assert (OI : fin (of_int z) /\ toR (of_int z) = IZR z).
  { assert (C := binary_normalize_correct 53 1024 prec64_gt0 prec64_lt mode_NE z 0 false). cbv zeta in C. replace (F2R (Float radix2 z 0)) with (IZR z) in C by (unfold F2R; cbn; ring).
    change (round radix2 fexp64 (round_mode mode_NE) (IZR z)) with (RN (IZR z)) in C. rewrite GZ in C.
    assert (OV : Rlt_bool (Rabs (IZR z)) (bpow radix2 1024) = true).
    { apply Rlt_bool_true. eapply Rle_lt_trans; [exact N | apply bpow_lt_1024; lia]. }
    rewrite OV in C. destruct C as (C1 & C2 & _). split; assumption. }
  destruct OI as [FO VO]. split; [exact F|]. split; [exact Ez|]. split; [exact FO|]. split; [exact VO|].
  assert (NR : Rabs (toR s - IZR z) < 1).
  { assert (T := trunc_rem (toR s) 1 ltac:(lra)). unfold Rdiv in T. rewrite Rinv_1, Rmult_1_r, Rmult_1_r in T. rewrite Ez. exact T. }
  assert (SB : Rabs (toR s) <= bpow radix2 900).
  { apply Rle_trans with (Rabs (IZR z) + 1). { apply Rabs_def2 in NR. assert (T := Rabs_triang (IZR z) (toR s - IZR z)). replace (IZR z + (toR s - IZR z)) with (toR s) in T by ring.
      assert (Rabs (toR s - IZR z) <= 1) by (apply Rabs_le; lra). lra. }
    apply Rle_trans with (bpow radix2 65); [|apply bpow_le; lia]. change (bpow radix2 65) with (2 * bpow radix2 64)%R || (replace (bpow radix2 65) with (2 * bpow radix2 64) by (change 65%Z with (1 + 64)%Z; rewrite bpow_plus; reflexivity)).
    assert (1 <= bpow radix2 64) by (change 1 with (bpow radix2 0); apply bpow_le; lia). lra. }
  destruct (fmod1_R s F SB) as [_ V1]. rewrite <- Ez in V1.
  assert (GD : RN (toR s - IZR z) = toR s - IZR z) by (rewrite <- V1; apply RN_gen, gen).
  destruct (fsub_R s (of_int z) 1 F FO) as [F2 V2]; [lia | rewrite VO; change (bpow radix2 1) with 2; lra |].
  split; [exact F2|]. rewrite V2, VO. exact GD.
Qed.

Lemma frac_small s z : to_long s = Ok z -> Rabs (toR (fsub s (of_int z))) < 1.
Proof.
  intros H. destruct (frac_exact s z H) as (F & Ez & _ & _ & _ & V). rewrite V, Ez.
  assert (T := trunc_rem (toR s) 1 ltac:(lra)). unfold Rdiv in T. rewrite Rinv_1, Rmult_1_r, Rmult_1_r in T. exact T.
Qed.

Lemma ok_pair (A B : Type) (a c : A) (b d : B) : Ok (a, b) = Ok (c, d) -> a = c /\ b = d.
Proof. intros H. injection H. auto. Qed.

Definition F24 : b64 := round_ratio 24 1.
Lemma F24_R : fin F24 /\ toR F24 = 24.
Proof. split; [reflexivity|]. rewrite <- SF2R_B2SF. replace (B2SF F24) with (SpecFloat.S754_finite false 6755399441055744 (-48)) by (vm_compute; reflexivity). cbn. unfold F2R. cbn. lra. Qed.
Definition F0 : b64 := round_ratio 0 1.
Lemma F0_R : fin F0 /\ toR F0 = 0.
Proof. split; reflexivity. Qed.

(** The last lines of the function: from the fraction of a revolution to hours. *)
Lemma hours_range f : fin f -> Rabs (toR f) < 1 ->
  let d := fmul f F24 in let l := if flt d F0 then fadd d F24 else d in fin l /\ 0 <= toR l <= 24
  /\ (toR l = RN (toR f * 24) \/ toR l = RN (RN (toR f * 24) + 24)).
Proof.
  intros Ff Hf. cbv zeta. destruct F24_R as [G1 G2]. destruct F0_R as [Z1 Z2]. apply Rabs_def2 in Hf.
  destruct (fmul_R f F24 10 Ff G1) as [Fd Vd]; [lia | rewrite G2; change (bpow radix2 10) with 1024; apply Rabs_le; lra|]. rewrite G2 in Vd.
  assert (D1 : RN (toR f * 24) <= IZR 24) by (apply RN_int_le; [lia | lra]). assert (D2 : IZR (-24) <= RN (toR f * 24)) by (apply RN_int_ge; [lia | lra]).
  destruct (flt (fmul f F24) F0) eqn:Q; [apply flt_R in Q; try assumption | apply flt_false in Q; try assumption]; rewrite Vd, Z2 in Q.
  - destruct (fadd_R (fmul f F24) F24 10 Fd G1) as [F V]; [lia | rewrite Vd, G2; change (bpow radix2 10) with 1024; apply Rabs_le; lra|]. rewrite Vd, G2 in V.
    split; [exact F|]. rewrite V. split; [|right; reflexivity].
    split; [apply (RN_int_ge _ 0); [lia | lra] | apply (RN_int_le _ 24); [lia | lra]].
  - split; [exact Fd|]. rewrite Vd. split; [lra | left; reflexivity].
Qed.

Lemma nan_add_r x y : fin (fadd x y) -> fin x /\ fin y.
Proof. unfold fin, fadd. destruct x, y; cbn; intros; try discriminate; try (split; reflexivity); repeat match goal with H : context [Bool.eqb ?a ?b] |- _ => destruct (Bool.eqb a b) end; try discriminate. Qed.
Lemma mul_fin x y : fin (fmul x y) -> fin x /\ fin y.
Proof. unfold fin, fmul. destruct x, y; cbn; intros; try discriminate; split; reflexivity. Qed.

Lemma reduce24_64 m : forall n g r, fin g -> reduce24 (machine m) n g = Ok r -> fin r /\ toR r <= 24 /\ (-24 <= toR g -> -24 <= toR r).
Proof.
  induction n as [|n IH]; intros g r Fg; cbn [reduce24 ltn sub machine]; change (int (machine m) 24) with F24; destruct F24_R as [G1 G2].
  - destruct (flt F24 g) eqn:Q; [discriminate|]. apply flt_false in Q; try assumption. intros H. inversion H; subst. split; [exact Fg|]. rewrite G2 in Q. split; [exact Q | auto].
  - destruct (flt F24 g) eqn:Q.
    + apply flt_R in Q; try assumption. rewrite G2 in Q. intros H.
      assert (FS : fin (fsub g F24) /\ toR (fsub g F24) = RN (toR g - 24)).
      { assert (C := Bminus_correct 53 1024 prec64_gt0 prec64_lt mode_NE g F24 Fg G1). 
        change (round radix2 fexp64 (round_mode mode_NE) (toR g - toR F24)) with (RN (toR g - toR F24)) in C. rewrite G2 in C.
        assert (B : RN (toR g - 24) <= toR g) by (rewrite <- (RN_gen (toR g)) at 2 by apply gen; apply RN_le; lra).
        assert (B0 : 0 <= RN (toR g - 24)) by (apply (RN_int_ge _ 0); [lia | lra]).
        assert (OV : Rlt_bool (Rabs (RN (toR g - 24))) (bpow radix2 1024) = true).
        { apply Rlt_bool_true. rewrite Rabs_pos_eq by exact B0. eapply Rle_lt_trans; [exact B|]. assert (K := abs_B2R_lt_emax 53 1024 g). apply Rabs_def2 in K. lra. }
        rewrite OV in C. destruct C as (C1 & C2 & _). split; [exact C2 | exact C1]. }
      destruct FS as [FS VS]. destruct (IH _ _ FS H) as (A1 & A2 & A3). split; [exact A1|]. split; [exact A2|]. intros _. apply A3. rewrite VS. apply (RN_int_ge _ (-24)); [lia | lra].
    + apply flt_false in Q; try assumption. intros H. inversion H; subst. split; [exact Fg|]. rewrite G2 in Q. split; [exact Q | auto].
Qed.

Definition F05 : b64 := round_ratio 5 10.
Lemma F05_R : fin F05 /\ toR F05 = 1 / 2.
Proof. split; [reflexivity|]. rewrite <- SF2R_B2SF. replace (B2SF F05) with (SpecFloat.S754_finite false 4503599627370496 (-53)) by (vm_compute; reflexivity). cbn. unfold F2R. cbn. lra. Qed.
Definition FS : b64 := round_ratio 100273790934 100000000000.
Lemma FS_R : fin FS /\ Rabs (toR FS - 100273790934 / 100000000000) <= / 1000000000000000.
Proof.
  unfold FS. split; [reflexivity|]. rewrite <- SF2R_B2SF.
  replace (B2SF (round_ratio 100273790934 100000000000)) with (SpecFloat.S754_finite false 4515930074853894 (-52)) by (vm_compute; reflexivity). cbn. unfold F2R. cbn. apply Rabs_le. lra.
Qed.
Lemma ut_range jd jz jm ut : to_long jd = Ok jz ->
  (if flt (fsub jd (of_int jz)) F05 then (fsub (of_int jz) F05, fadd (fsub jd (of_int jz)) F05) else (fadd (of_int jz) F05, fsub (fsub jd (of_int jz)) F05)) = (jm, ut) ->
  fin ut /\ Rabs (toR ut) <= 2.
Proof.
  intros J P. destruct (frac_exact jd jz J) as (_ & _ & _ & _ & FF & _). assert (B := frac_small jd jz J). apply Rabs_def2 in B.
  destruct F05_R as [H1 H2]. destruct (flt _ F05); inversion P; subst.
  - destruct (fadd_R _ F05 10 FF H1) as [F V]; [lia | rewrite H2; change (bpow radix2 10) with 1024; apply Rabs_le; lra|]. split; [exact F|]. rewrite V, H2.
    apply Rabs_le. split; [apply (RN_int_ge _ (-2)) | apply (RN_int_le _ 2)]; try lia; lra.
  - destruct (fsub_R _ F05 10 FF H1) as [F V]; [lia | rewrite H2; change (bpow radix2 10) with 1024; apply Rabs_le; lra|]. split; [exact F|]. rewrite V, H2.
    apply Rabs_le. split; [apply (RN_int_ge _ (-2)) | apply (RN_int_le _ 2)]; try lia; lra.
Qed.


Definition sid64 (jm : b64) : b64 :=
  let t := fdiv (fsub jm (round_ratio 2451545 1)) (round_ratio 36525 1) in
  fdiv (fadd (round_ratio 2411054841 100000) (fmul t (fadd (round_ratio 8640184812866 1000000) (fmul t (fsub (round_ratio 93104 1000000) (fmul t (round_ratio 62 10000000)))))))
    (round_ratio 86400 1).
Fixpoint red64 (n : nat) (g : b64) : res b64 :=
  if flt F24 g then match n with O => UB Stuck | S n => red64 n (fsub g F24) end else Ok g.
Definition last64 (s : b64) (q : Z) : b64 :=
  let d := fmul (fsub s (of_int q)) F24 in if flt d F0 then fadd d F24 else d.
Definition lmst64 (jd lon : b64) : res (b64 * b64) :=
  jz <- to_long jd ;;
  let jf := fsub jd (of_int jz) in
  let '(jm, ut) := if flt jf F05 then (fsub (of_int jz) F05, fadd jf F05) else (fadd (of_int jz) F05, fsub jf F05) in
  let s := sid64 jm in
  sz <- to_long s ;;
  let g := fadd (fsub s (of_int sz)) (fmul FS ut) in
  let q := fadd g (fdiv lon (round_ratio 360 1)) in
  gm <- red64 4 (fmul g F24) ;;
  qz <- to_long q ;;
  Ok (last64 q qz, gm).
Lemma red64_eq m n g : reduce24 (machine m) n g = red64 n g.
Proof. reflexivity. Qed.
Lemma bind_ext (A B : Type) (x : res A) (f g : A -> res B) : (forall a, f a = g a) -> bind x f = bind x g.
Proof. destruct x; cbn; auto. Qed.
Lemma bind_eq (A B : Type) (x y : res A) (f g : A -> res B) : x = y -> (forall a, f a = g a) -> bind x f = bind y g.
Proof. intros -> H. apply bind_ext, H. Qed.
Lemma lmst64_eq m jd lon : lmst_hr (machine m) jd lon = lmst64 jd lon.
Proof.
  unfold lmst_hr, lmst64. apply (bind_ext _ _ (to_long jd)). intros jz. cbv zeta.
  change (c_real (machine m) jz) with (of_int jz). change (sub (machine m)) with fsub. change (add (machine m)) with fadd. change (cst (machine m) 5 10) with F05. change (ltn (machine m)) with flt.
  cbn [num machine].
  destruct (if flt (fsub jd (of_int jz)) F05 then _ else _) as [jm ut]. 
  apply (bind_ext _ _ (to_long (sid64 jm))). intros sz.
  apply bind_eq; [apply red64_eq|]. intros gm.
  match goal with |- _ = bind (to_long ?q) _ => apply (bind_ext _ _ (to_long q)) end. intros qz. unfold last64. cbv zeta.
  change (mul (machine m)) with fmul. change (c_real (machine m)) with of_int. change (int (machine m) 24) with F24. change (int (machine m) 0) with F0. change (cst (machine m) 100273790934 100000000000) with FS. change (div (machine m)) with fdiv. change (int (machine m) 360) with (round_ratio 360 1).
  reflexivity.
Qed.

Lemma sidereal64_range m jd lon l g : lmst_hr (machine m) jd lon = Ok (l, g) ->
  fin l /\ 0 <= toR l <= 24 /\ fin g /\ toR g <= 24.
Proof.
  rewrite lmst64_eq. unfold lmst64. intros H.
  destruct (to_long jd) as [jz|] eqn:J; cbn [bind] in H; [|discriminate].
  match type of H with context [match ?W with pair _ _ => _ end] => destruct W as [jm ut] eqn:P end.
  match type of H with context [bind (to_long ?s) _] => set (S := s) in *; destruct (to_long S) as [sz|] eqn:TS end; cbn [bind] in H; [|discriminate].
  destruct (red64 _ _) as [gm|] eqn:RG in H; cbn [bind] in H; [|discriminate].
  match type of H with context [bind (to_long ?s) _] => set (Q := s) in *; destruct (to_long Q) as [qz|] eqn:TQ end; cbn [bind] in H; [|discriminate].
  destruct (frac_exact Q qz TQ) as (FQ & _ & _ & _ & FF & _). assert (B := frac_small Q qz TQ).
  destruct (hours_range _ FF B) as (L1 & L2 & _). apply ok_pair in H. destruct H as [Hl Hg]. cbv zeta in L1, L2. unfold last64 in Hl. cbv zeta in Hl. rewrite Hl in L1, L2. subst g.
  split; [exact L1|]. split; [exact L2|]. clear L1 L2 FF B TQ Hl FQ Q.
  destruct (ut_range jd jz jm ut J P) as [FU BU].
  destruct (frac_exact S sz TS) as (_ & _ & _ & _ & FF & _). assert (B := frac_small S sz TS). apply Rabs_def2 in B.
  destruct F24_R as [G1 G2]. destruct FS_R as [FS1 FS2].
  assert (FB : 1 <= toR FS <= 2) by (unfold Rabs in FS2; destruct (Rcase_abs _); lra).
  assert (UB1 : -2 <= toR ut <= 2) by (unfold Rabs in BU; destruct (Rcase_abs _); lra).
  assert (PB : -4 <= toR FS * toR ut <= 4) by nra.
  destruct (fmul_R FS ut 10 FS1 FU) as [FM VM]; [lia | change (bpow radix2 10) with 1024; apply Rabs_le; lra|].
  assert (BM : IZR (-4) <= RN (toR FS * toR ut) <= IZR 4) by (split; [apply RN_int_ge | apply RN_int_le]; try lia; lra).
  destruct (fadd_R _ _ 10 FF FM) as [FG VG]; [lia | rewrite VM; change (bpow radix2 10) with 1024; apply Rabs_le; lra|]. rewrite VM in VG.
  assert (BG : IZR (-5) <= RN (toR (fsub S (of_int sz)) + RN (toR FS * toR ut)) <= IZR 5) by (split; [apply RN_int_ge | apply RN_int_le]; try lia; lra).
  destruct (fmul_R _ F24 10 FG G1) as [F V]; [lia | rewrite VG, G2; change (bpow radix2 10) with 1024; apply Rabs_le; lra|].
  rewrite <- (red64_eq m) in RG. destruct (reduce24_64 m 4 _ _ F RG) as (R1 & R2 & _). split; assumption.
Qed.
