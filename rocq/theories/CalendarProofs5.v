(** The clock fields of [clock] are in range for every day fraction. *)
From Coq Require Import ZArith List Bool Lia Reals Lra.
From Flocq Require Import Core IEEE754.BinarySingleNaN.
From Verif Require Import CLib FloatModel FloatLemmas CalendarModel CalendarSpec CalendarProofs1 CalendarProofs2 CalendarProofs3 CalendarProofs4 CalendarTable.
Import ListNotations.
Open Scope R_scope.

(** The double m * 2^e. *)
Definition dbl (m e : Z) : b64 := binary_normalize 53 1024 prec64_gt0 prec64_lt mode_NE m e false.

Lemma dbl_R : forall m e, (Z.abs m <= 2 ^ 53)%Z -> (-1074 <= e <= 900)%Z -> fin (dbl m e) /\ toR (dbl m e) = IZR m * bpow radix2 e.
Proof.
  intros m e Hm He. pose proof (binary_normalize_correct 53 1024 prec64_gt0 prec64_lt mode_NE m e false) as C.
  cbn zeta in C.
  assert (E: F2R (Float radix2 m e) = IZR m * bpow radix2 e) by reflexivity.
  rewrite E in C. rewrite (no_overflow _ (53 + e)) in C; [|lia|apply fx_bound; [lia|exact Hm]].
  destruct C as (C1 & C2 & _). split; [exact C2|]. unfold dbl. eapply eq_trans; [exact C1|].
  apply (RN_fx e m); [lia|reflexivity|exact Hm].
Qed.

Definition hr (f : b64) : Z := Btrunc (fmul f (of_int 24)).
Definition rem_h (h : Z) (f : b64) : b64 := fsub f (fdiv (of_int h) (of_int 24)).
Definition mn (h : Z) (f : b64) : Z := Btrunc (fmul (rem_h h f) (of_int 1440)).
Definition rem_m (h m : Z) (f : b64) : b64 := fsub (rem_h h f) (fdiv (of_int m) (of_int 1440)).
Definition sc (h m : Z) (f : b64) : Z := Btrunc (fmul (rem_m h m f) (of_int 86400)).

Lemma to_int_inv : forall x z, to_int x = Ok z -> z = Btrunc x.
Proof. intros x z. unfold to_int, chk_int. destruct (is_finite x); [|discriminate]. destruct (in_int _); [|discriminate]. congruence. Qed.

Lemma clock_inv : forall f h m s, clock f = Ok (h, m, s) -> h = hr f /\ m = mn h f /\ s = sc h m f.
Proof.
  intros f h m s H. unfold clock in H.
  destruct (to_int (fmul f (of_int 24))) as [h'|] eqn:E1; [|discriminate]. cbn [bind] in H. apply to_int_inv in E1.
  destruct (to_int (fmul (fsub f (fdiv (of_int h') (of_int 24))) (of_int 1440))) as [m'|] eqn:E2; [|discriminate].
  cbn [bind] in H. apply to_int_inv in E2.
  destruct (to_int _) as [s'|] eqn:E3 in H; [|discriminate].
  cbn [bind] in H. apply to_int_inv in E3. injection H as <- <- <-. repeat split; assumption.
Qed.

Lemma mul_mono : forall x y c, fin x -> fin y -> (0 <= c <= 2 ^ 30)%Z -> Rabs (toR x) <= 4 -> Rabs (toR y) <= 4 -> toR x <= toR y ->
  (Btrunc (fmul x (of_int c)) <= Btrunc (fmul y (of_int c)))%Z.
Proof.
  intros x y c Fx Fy Hc Bx By L. destruct (of_int_R c ltac:(lia)) as [Fc Ec].
  assert (Hr: 0 <= IZR c <= 1073741824) by (split; [apply (IZR_le 0)|apply (IZR_le _ 1073741824)]; lia).
  assert (K: forall z, Rabs z <= 4 -> Rabs (z * IZR c) <= bpow radix2 33).
  { intros z Hz. rewrite Rabs_mult, (Rabs_pos_eq (IZR c)) by lra. change (bpow radix2 33) with 8589934592.
    pose proof (Rabs_pos z). nra. }
  destruct (fmul_R x (of_int c) 33 Fx Fc) as [_ E1]; [lia|rewrite Ec; auto|].
  destruct (fmul_R y (of_int c) 33 Fy Fc) as [_ E2]; [lia|rewrite Ec; auto|].
  rewrite !Btrunc_R, E1, E2, Ec. apply Ztrunc_le, RN_le. nra.
Qed.

Lemma sub_mono : forall x y h d, fin x -> fin y -> (0 <= h <= 100)%Z -> (24 <= d <= 1440)%Z -> Rabs (toR x) <= 2 -> Rabs (toR y) <= 2 -> toR x <= toR y ->
  IZR h / IZR d <= 1 ->
  let q := fdiv (of_int h) (of_int d) in
  fin (fsub x q) /\ fin (fsub y q) /\ toR (fsub x q) <= toR (fsub y q) /\
  (toR x - 1 <= toR (fsub x q) + / 1000 /\ toR (fsub x q) <= toR x + / 1000) /\ (toR y - 1 <= toR (fsub y q) + / 1000 /\ toR (fsub y q) <= toR y + / 1000).
Proof.
  intros x y h d Fx Fy Hh Hd Bx By L Hq q.
  assert (Hh': 0 <= IZR h <= 100) by (split; [apply (IZR_le 0)|apply (IZR_le _ 100)]; lia).
  assert (Hd': 24 <= IZR d <= 1440) by (split; [apply (IZR_le 24)|apply (IZR_le _ 1440)]; lia).
  assert (Q0: 0 <= IZR h / IZR d).
  { apply Rmult_le_pos; [lra|]. apply Rlt_le, Rinv_0_lt_compat. lra. }
  destruct (lit_R h d 0 ltac:(lia) ltac:(lia) ltac:(lia)) as [Fq Eq]; [rewrite Rabs_pos_eq by lra; cbn [bpow]; lra|].
  unfold lit in Fq, Eq. fold q in Fq, Eq.
  assert (Bq: 0 <= toR q <= 1).
  { rewrite Eq. split; [apply (RN_int_ge _ 0); [lia|lra]|apply (RN_int_le _ 1); [lia|lra]]. }
  assert (C: forall z, fin z -> Rabs (toR z) <= 2 -> fin (fsub z q) /\ toR (fsub z q) = RN (toR z - toR q) /\
             toR z - toR q - / 4503599627370496 <= RN (toR z - toR q) <= toR z - toR q + / 4503599627370496).
  { intros z Fz Bz. apply Rabs_le_inv in Bz.
    assert (Hz: Rabs (toR z - toR q) <= 3) by (apply Rabs_le; lra).
    destruct (fsub_R z q 2 Fz Fq) as [F E]; [lia|change (bpow radix2 2) with 4; lra|].
    split; [exact F|]. split; [exact E|]. pose proof (err_abs _ 2 _ ltac:(lia) Hz ltac:(change (bpow radix2 2) with 4; lra)) as H.
    change (bpow radix2 (2 - 54)) with (/ 4503599627370496) in H. exact H. }
  destruct (C x Fx Bx) as (F1 & E1 & K1). destruct (C y Fy By) as (F2 & E2 & K2).
  split; [exact F1|]. split; [exact F2|]. rewrite E1, E2. split; [apply RN_le; lra|]. lra.
Qed.

Lemma clock_mono : forall f g, fin f -> fin g -> 0 <= toR f -> toR f <= toR g -> toR g < 1 ->
  (hr f <= hr g)%Z /\ (forall h, (0 <= h <= 24)%Z -> (mn h f <= mn h g)%Z) /\
  (forall h m, (0 <= h <= 24)%Z -> (0 <= m <= 60)%Z -> (sc h m f <= sc h m g)%Z).
Proof.
  intros f g Ff Fg Hf L Hg.
  assert (A: Rabs (toR f) <= 1) by (apply Rabs_le; lra). assert (B: Rabs (toR g) <= 1) by (apply Rabs_le; lra).
  assert (S: forall h, (0 <= h <= 24)%Z -> fin (rem_h h f) /\ fin (rem_h h g) /\ toR (rem_h h f) <= toR (rem_h h g) /\
     -1.1 <= toR (rem_h h f) <= 1.1 /\ -1.1 <= toR (rem_h h g) <= 1.1).
  { intros h Hh. assert (0 <= IZR h <= 24) by (split; [apply (IZR_le 0)|apply (IZR_le _ 24)]; lia).
    destruct (sub_mono f g h 24 Ff Fg) as (F1 & F2 & E & E1 & E2); try lia; try lra.
    unfold rem_h. repeat split; try assumption; lra. }
  split; [|split].
  - unfold hr. apply mul_mono; try assumption; try lia; lra.
  - intros h Hh. destruct (S h Hh) as (F1 & F2 & E & E1 & E2).
    unfold mn. apply mul_mono; try assumption; try lia; apply Rabs_le; lra.
  - intros h m Hh Hm. destruct (S h Hh) as (F1 & F2 & E & E1 & E2).
    assert (0 <= IZR m <= 60) by (split; [apply (IZR_le 0)|apply (IZR_le _ 60)]; lia).
    destruct (sub_mono (rem_h h f) (rem_h h g) m 1440 F1 F2) as (G1 & G2 & X & X1 & X2); try lia; try lra; try (apply Rabs_le; lra).
    unfold sc. apply mul_mono; try assumption; try lia; unfold rem_m; try assumption; apply Rabs_le; lra.
Qed.

(** Check of the table: from the first to the last double of minute [j] the clock shows minute [j]. *)
Definition minute_ok (j : Z) (lo hi : b64) : bool :=
  match clock lo, clock hi with
  | Ok (h, m, _), Ok (h', m', s') =>
      (h =? j / 60)%Z && (m =? j mod 60)%Z && (h' =? j / 60)%Z && (m' =? j mod 60)%Z && (s' =? 59)%Z
  | _, _ => false
  end.
Fixpoint table_ok (j : Z) (lo : b64) (t : list (Z * Z)) : bool :=
  match t with
  | [] => true
  | (m, e) :: t' => (2 ^ 52 <=? m)%Z && (m <? 2 ^ 53)%Z && (-70 <=? e)%Z && (e <=? -53)%Z &&
                    minute_ok j lo (dbl m e) && table_ok (j + 1) (dbl (m + 1) e) t'
  end.

Lemma table_checked : table_ok 0 (of_int 0) minute_ends = true.
Proof. vm_compute. reflexivity. Qed.

Lemma table_minutes : forall t j lo f, table_ok j lo t = true -> (0 <= j)%Z -> (j + Z.of_nat (length t) <= 1440)%Z ->
  fin lo -> fin f -> 0 <= toR lo -> toR lo <= toR f -> toR f < 1 ->
  (exists m e, In (m, e) t /\ toR f <= IZR m * bpow radix2 e) ->
  (0 <= hr f <= 23)%Z /\ (0 <= mn (hr f) f <= 59)%Z /\ (sc (hr f) (mn (hr f) f) f <= 59)%Z.
Proof.
  induction t as [|[m e] t IH]; intros j lo f T Hj Hl Flo Ff L0 L1 L2 (m0 & e0 & In0 & U); [destruct In0|].
  cbn [table_ok] in T. rewrite !andb_true_iff, !Z.leb_le, Z.ltb_lt in T. destruct T as [[[[[T1 T2] T3] T4] T5] T6].
  destruct (dbl_R m e ltac:(lia) ltac:(lia)) as [Fh Eh].
  cbn [length] in Hl. rewrite Nat2Z.inj_succ in Hl.
  assert (P: 0 < bpow radix2 e) by apply bpow_gt_0.
  assert (Pm: 0 < IZR m) by (apply (IZR_lt 0); lia).
  destruct (Rle_dec (toR f) (toR (dbl m e))) as [Le|Gt].
  - unfold minute_ok in T5.
    destruct (clock lo) as [[[h1 m1] s1]|] eqn:C1; [|discriminate].
    destruct (clock (dbl m e)) as [[[h2 m2] s2]|] eqn:C2; [|discriminate].
    rewrite !andb_true_iff, !Z.eqb_eq in T5. destruct T5 as [[[[A1 A2] A3] A4] A5].
    apply clock_inv in C1, C2. destruct C1 as (C1 & C1' & _). destruct C2 as (C2 & C2' & C2'').
    assert (Hi1: toR (dbl m e) < 1).
    { rewrite Eh. apply Rlt_le_trans with (IZR (2 ^ 53) * bpow radix2 e).
      - apply Rmult_lt_compat_r; [exact P|]. apply IZR_lt; lia.
      - change (IZR (2 ^ 53)) with (bpow radix2 53). rewrite <- bpow_plus. change 1 with (bpow radix2 0). apply bpow_le. lia. }
    destruct (clock_mono lo f Flo Ff L0 L1 L2) as (M1 & M2 & M3).
    destruct (clock_mono f (dbl m e) Ff Fh ltac:(lra) Le Hi1) as (N1 & N2 & N3).
    assert (Hd: (0 <= j / 60 <= 23 /\ 0 <= j mod 60 <= 59)%Z).
    { split; [split; [apply Z.div_pos; lia|]|pose proof (Z.mod_pos_bound j 60); lia].
      assert (j / 60 < 24)%Z; [|lia]. apply Z.div_lt_upper_bound; lia. }
    assert (H: hr f = (j / 60)%Z) by lia.
    specialize (M2 (j / 60)%Z ltac:(lia)). specialize (N2 (j / 60)%Z ltac:(lia)).
    rewrite H. subst h1 h2. rewrite A1 in C1'. rewrite A3 in C2'.
    assert (H': mn (j / 60) f = (j mod 60)%Z) by lia.
    rewrite H'. specialize (N3 (j / 60) (j mod 60) ltac:(lia) ltac:(lia))%Z.
    rewrite A3, A4 in C2''. lia.
  - apply Rnot_le_lt in Gt. rewrite Eh in Gt.
    assert (B: bpow radix2 (e + 52) <= Rabs (toR f)).
    { rewrite Rabs_pos_eq by lra. apply Rlt_le. eapply Rle_lt_trans; [|exact Gt].
      replace (e + 52)%Z with (52 + e)%Z by lia. rewrite bpow_plus. apply Rmult_le_compat_r; [lra|].
      change (bpow radix2 52) with (IZR (2 ^ 52)). apply IZR_le. lia. }
    destruct (b64_fx_le f (e + 52) e B ltac:(lia) ltac:(lia)) as [a Ha]. unfold fx in Ha.
    assert (Hma: (m < a)%Z).
    { apply lt_IZR. apply (Rmult_lt_reg_r (bpow radix2 e)); [exact P|]. now rewrite <- Ha. }
    destruct (dbl_R (m + 1) e ltac:(lia) ltac:(lia)) as [Fn En].
    apply (IH (j + 1)%Z (dbl (m + 1) e) f T6); try assumption; try lia.
    + rewrite En. apply Rmult_le_pos; [apply (IZR_le 0); lia|lra].
    + rewrite En, Ha. apply Rmult_le_compat_r; [lra|]. apply IZR_le. lia.
    + exists m0, e0. split; [|exact U]. destruct In0 as [In0|In0]; [|exact In0]. injection In0 as -> ->. lra.
Qed.

Lemma clock_range : forall f h m s, fin f -> 0 <= toR f < 1 -> clock f = Ok (h, m, s) ->
  (0 <= h <= 23 /\ 0 <= m <= 59 /\ 0 <= s <= 59)%Z.
Proof.
  intros f h m s F B C.
  destruct (clock_close f F B) as (h' & m' & s' & C' & R & _). rewrite C in C'. injection C' as <- <- <-.
  destruct zero_int as [Fz Ez].
  apply clock_inv in C. destruct C as (-> & -> & ->).
  assert (L: (0 + Z.of_nat (length minute_ends) <= 1440)%Z) by (vm_compute; discriminate).
  destruct (table_minutes minute_ends 0 (of_int 0) f table_checked ltac:(lia) L Fz F) as (R1 & R2 & R3); try lra; [|lia].
  exists 9007199254740991%Z, (-53)%Z. split.
  - assert (E: minute_ends = removelast minute_ends ++ [(9007199254740991, -53)%Z]) by (vm_compute; reflexivity).
    rewrite E. apply in_or_app. right. now left.
  - (* the largest double below 1 *)
    destruct (Rlt_le_dec (toR f) (/ 2)) as [S|S].
    + change (bpow radix2 (-53)) with (/ 9007199254740992). lra.
    + destruct (b64_fx_le f (-1) (-53)) as [a Ha]; [rewrite Rabs_pos_eq by lra; change (bpow radix2 (-1)) with (/ 2); lra|lia|lia|].
      rewrite Ha. apply Rmult_le_compat_r; [apply bpow_ge_0|]. apply IZR_le.
      unfold fx in Ha. change (bpow radix2 (-53)) with (/ 9007199254740992) in Ha.
      assert (a < 9007199254740992)%Z; [|lia]. apply lt_IZR. lra.
Qed.
