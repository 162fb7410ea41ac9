(** The propagator SGP against the report. *)
From Coq Require Import ZArith Reals Lra Psatz Lia Bool.
From Verif Require Import CLib ArithModel GeoLemmas OrbModel OrbSpec OrbProofs2 OrbProofs3 OrbProofs5 DeepProofs1 DeepProofs7 ThirdProofs1 Sgp8Model Sgp8Spec Sgp8Proofs1 Sgp8Proofs2 Sgp8Proofs5 SgpModel SgpSpec.
Open Scope R_scope.

(** ** Kepler's equation *)
Lemma polar_exists x y : exists el wl, 0 <= el /\ x = el * cos wl /\ y = el * sin wl /\ el * el = x * x + y * y.
Proof.
  exists (sqrt (x * x + y * y)). destruct (Req_dec (x * x + y * y) 0) as [Z|Z].
  - exists 0. assert (x = 0) by nra. assert (y = 0) by nra. subst. rewrite Z, sqrt_0. repeat split; lra.
  - exists (Ratan2 y x). destruct (Ratan2_polar y x Z) as [X Y]. split; [apply sqrt_pos|]. split; [exact X|]. split; [exact Y|]. apply sqrt_sqrt. nra.
Qed.
Lemma pow_unit q n : 0 <= q <= 1 -> 0 <= q ^ n <= 1.
Proof. intros H. induction n as [|n IH]; cbn [pow]; [lra|nra]. Qed.
Lemma pow_half j : (1 / 2) ^ (2 ^ j) <= 1 / 2.
Proof. assert (X : (2 ^ j <> 0)%nat) by (apply Nat.pow_nonzero; lia). replace (2 ^ j)%nat with (S (2 ^ j - 1))%nat by lia. cbn [pow]. assert (Y := pow_unit (1 / 2) (2 ^ j - 1) ltac:(lra)). lra. Qed.
Section Kepler.
Context (a e i w U : R).
Let x := axN e w.
Let y := ayS a e i w.
Local Notation im := (improve a e i w U).
Lemma improve_step ax0 E : ax0 = 1 - cos E * x - sin E * y -> let d := (U - y * cos E + x * sin E - E) / ax0 in im E = E + (if Rltb 1 (Rabs d) then Rabs d / d else d).
Proof.
  intros -> d. unfold improve, defect. fold x y. replace ((U - (E - x * sin E + y * cos E)) / (1 - (x * cos E + y * sin E))) with d by (unfold d; f_equal; ring). cbv zeta. unfold Rltb.
  destruct (Rlt_dec 1 (Rabs d)) as [H|H].
  - destruct (Rle_dec 0 d) as [D|D].
    + rewrite Rabs_right in * by lra. destruct (Rlt_dec 1 d); [|lra]. replace (d / d) with 1 by (field; lra). reflexivity.
    + rewrite Rabs_left in * by lra. destruct (Rlt_dec 1 d); [lra|]. destruct (Rlt_dec d (-1)); [|lra]. replace (- d / d) with (-1) by (field; lra). reflexivity.
  - assert (B := Rle_abs d). assert (B2 := Rle_abs (- d)). rewrite Rabs_Ropp in B2. destruct (Rlt_dec 1 d); [lra|]. destruct (Rlt_dec d (-1)); [lra|]. reflexivity.
Qed.
Lemma kepler_sgp_ok : forall n j tem, (n + j = 10)%nat ->
  (match j with O => tem = 1 | S k => tem = Nat.iter j im U - Nat.iter k im U end) ->
  exists E, kepler_sgp ideal n U x y (Nat.iter j im U) tem = (sin E, cos E) /\ solved a e i w U E.
Proof.
  induction n as [|n IH]; intros j tem J T; cbn [kepler_sgp]; unfold e6a; ic.
  - exists (Nat.iter j im U). split; [match goal with |- (if ?c then _ else _) = _ => destruct c; reflexivity end|]. exists j. split; [lia|]. split; [reflexivity|]. left. lia.
  - match goal with |- exists E, (if ?c then _ else _) = _ /\ _ => destruct c eqn:C end.
    + exists (Nat.iter j im U). split; [reflexivity|]. exists j. split; [lia|]. split; [reflexivity|]. right. unfold Rltb in C. destruct (Rlt_dec _ _) as [L|] in C; [|discriminate C].
      destruct j as [|k]; [rewrite T, Rabs_R1 in L; lra|]. exists k. split; [reflexivity|]. rewrite <- T. replace (/ 10 ^ 6) with (1 / 1000000) by lra. exact L.
    + replace (1 / 1) with 1 by lra. set (E0 := Nat.iter j im U). assert (S1 := improve_step _ E0 eq_refl). cbv zeta in S1.
      match goal with |- context [kepler_sgp ideal n U x y (E0 + ?v) ?v] => set (s := v) in * end.
      assert (S2 : Nat.iter (S j) im U = E0 + s) by exact S1.
      destruct (IH (S j) s ltac:(lia)) as (E & K & SE). { rewrite S2. unfold E0. ring. }
      exists E. split; [|exact SE]. rewrite <- K, S2. reflexivity.
Qed.
(** Up to the eccentricity 1/2 it is solved. *)
Lemma newton_quad el M X : 0 <= el <= 1 / 2 -> Rabs (left_over el M (newton el M X)) <= el * (newton el M X - X) ^ 2 / 2.
Proof.
  intros He. assert (S := slope el He X). set (h := newton el M X - X). assert (E : left_over el M (newton el M X) = - el * (sin (X + h) - sin X - h * cos X)).
  { replace (newton el M X) with (X + h) by (unfold h; ring). unfold left_over. assert (H : h * (1 - el * cos X) = - left_over el M X) by (unfold h; rewrite (newton_step el M He); field; lra). unfold left_over in H. lra. }
  rewrite E, Rabs_mult, Rabs_Ropp, (Rabs_right el) by lra. assert (D := sin_defect X h). nra.
Qed.
Lemma solved_sgp E : x * x + y * y <= 1 / 4 -> solved a e i w U E -> Rabs (defect a e i w U E) <= 1 / 10 ^ 12.
Proof.
  intros H4. destruct (polar_exists x y) as (el & wl & L0 & LX & LY & LE). assert (He : 0 <= el <= 1 / 2) by (split; [exact L0|nra]).
  set (M := U - wl).
  assert (D : forall E, defect a e i w U E = - left_over el M (E - wl)).
  { intros F. unfold defect, left_over, M. fold x y. rewrite LX, LY, sin_minus. ring. }
  assert (SL : forall F, 1 - (x * cos F + y * sin F) = 1 - el * cos (F - wl)) by (intros F; rewrite LX, LY, cos_minus; ring).
  assert (ST : forall F, Rabs (left_over el M (F - wl)) <= 1 / 2 -> im F - wl = newton el M (F - wl)).
  { intros F B. assert (NM := newton_move el M He (F - wl)). unfold improve. cbv zeta. fold x y. rewrite D, SL. assert (NS := newton_step el M He (F - wl)).
    assert (Q : Rabs (newton el M (F - wl) - (F - wl)) <= 1) by lra. rewrite NS in Q. apply Rabs_inv in Q. destruct (Rlt_dec _ _); [lra|]. destruct (Rlt_dec _ _); [lra|]. lra. }
  assert (IT : forall j, Rabs (left_over el M (Nat.iter j im U - wl)) <= (1 / 2) ^ (2 ^ j)).
  { induction j as [|j IH].
    - change (Nat.iter 0 im U) with U. unfold left_over, M. replace (U - wl - el * sin (U - wl) - (U - wl)) with (- (el * sin (U - wl))) by ring. rewrite Rabs_Ropp, Rabs_mult, (Rabs_right el) by lra.
      assert (B := SIN_bound (U - wl)). assert (Rabs (sin (U - wl)) <= 1) by (apply Rabs_le; lra). assert (0 <= Rabs (sin (U - wl))) by apply Rabs_pos. cbn. nra.
    - change (Nat.iter (S j) im U) with (im (Nat.iter j im U)). assert (HB : (1 / 2) ^ (2 ^ j) <= 1 / 2).
      { apply pow_half. }
      rewrite ST by lra. eapply Rle_trans; [apply (newton_left el M He)|]. rewrite <- pow2_abs. replace (2 ^ S j)%nat with (2 ^ j * 2)%nat by (cbn; lia). rewrite pow_mult. apply pow_incr. split; [apply Rabs_pos|exact IH]. }
  assert (HALF : forall j, Rabs (left_over el M (Nat.iter j im U - wl)) <= 1 / 2).
  { intros j. eapply Rle_trans; [apply IT|]. apply pow_half. }
  intros (j & J & -> & [->|(k & -> & K)]).
  - rewrite D, Rabs_Ropp. eapply Rle_trans; [apply IT|]. change (2 ^ 10)%nat with (64 * 16)%nat. rewrite pow_mult. assert (X1 : 0 <= (1 / 2) ^ 64 <= 1 / 10 ^ 12) by lra.
    set (q := (1 / 2) ^ 64) in *. clearbody q. change (q ^ 16) with (q * q ^ 15). assert (X2 := pow_unit q 15 ltac:(lra)). set (z := q ^ 15) in *. clearbody z. nra.
  - rewrite D, Rabs_Ropp. change (Nat.iter (S k) im U) with (im (Nat.iter k im U)) in *. set (F := Nat.iter k im U) in *. rewrite (ST F (HALF k)). eapply Rle_trans; [apply newton_quad; exact He|].
    rewrite <- (ST F (HALF k)). replace (im F - wl - (F - wl)) with (im F - F) by ring. rewrite <- pow2_abs. assert (0 <= Rabs (im F - F)) by apply Rabs_pos. assert (P2 : Rabs (im F - F) ^ 2 <= (/ 10 ^ 6) ^ 2) by (apply pow_incr; lra).
    assert (0 <= Rabs (im F - F) ^ 2) by (apply pow_le; lra). replace (1 / 10 ^ 12) with ((/ 10 ^ 6) ^ 2) by (field). set (z := Rabs (im F - F) ^ 2) in *. clearbody z. nra.
Qed.
(** And close to the solution, whichever the eccentricity. *)
Lemma close_sgp E T : x * x + y * y < 1 -> defect a e i w U T = 0 -> Rabs (E - T) <= Rabs (defect a e i w U E) / (1 - sqrt (x * x + y * y)).
Proof.
  intros H1 HT. assert (G := g_near x y H1 T E). unfold defect in *. fold x y in HT |- *.
  replace (U - (E - x * sin E + y * cos E)) with (- ((E - x * sin E + y * cos E) - (T - x * sin T + y * cos T))) by lra. rewrite Rabs_Ropp. exact G.
Qed.
End Kepler.
