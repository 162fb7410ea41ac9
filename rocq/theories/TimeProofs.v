(** Sidereal time. *)
From Coq Require Import ZArith Reals Lra Lia Bool Psatz.
From Verif Require Import CLib FloatModel ArithModel GeoLemmas TimeModel TimeSpec.
Open Scope R_scope.

Lemma Int_part_unique x z : IZR z <= x < IZR z + 1 -> Int_part x = z.
Proof. intros [H1 H2]. unfold Int_part. rewrite <- (tech_up x (z + 1)); [lia | rewrite plus_IZR; lra | rewrite plus_IZR; lra]. Qed.
Lemma Rtrunc_near x : Rabs (x - IZR (Rtrunc x)) < 1.
Proof.
  unfold Rtrunc. destruct (Rle_dec 0 x).
  - destruct (base_Int_part x). apply Rabs_def1; lra.
  - destruct (base_Int_part (- x)). rewrite opp_IZR. apply Rabs_def1; lra.
Qed.
Lemma Rlong_ok x : Rabs x <= 1000000000000000000 -> Rlong x = Ok (Rtrunc x).
Proof.
  intros H. unfold Rlong. cbv zeta. assert (T := Rtrunc_near x). apply Rabs_def2 in T.
  assert (B : - 1000000000000000000 <= x <= 1000000000000000000) by (unfold Rabs in H; destruct (Rcase_abs x); lra).
  assert (L1 : (-1000000000000000001 <= Rtrunc x)%Z) by (apply le_IZR; lra).
  assert (L2 : (Rtrunc x <= 1000000000000000001)%Z) by (apply le_IZR; lra).
  assert (E : ((- long_max - 1 <=? Rtrunc x) && (Rtrunc x <=? long_max) = true)%Z).
  { apply andb_true_intro. unfold long_max. split; apply Z.leb_le; lia. }
  rewrite E. reflexivity.
Qed.

Lemma reduce24_ok : forall n g, g <= 24 * (INR n + 1) ->
  exists k, reduce24 ideal n g = Ok (g - 24 * IZR k) /\ g - 24 * IZR k <= 24 /\ (24 < g -> 0 < g - 24 * IZR k) /\ (g <= 24 -> k = 0%Z).
Proof.
  induction n as [|n IH]; intros g H.
  - exists 0%Z. cbn [INR] in H. cbn [reduce24 ltn sub ideal int cst]. unfold int. cbn [cst ideal].
    assert (Q : Rltb (24 / 1) g = false) by (apply Rltb_f; lra). rewrite Q. split; [f_equal; lra|]. split; [lra|]. split; [lra|reflexivity].
  - cbn [reduce24]. unfold int. cbn [ltn sub cst ideal]. destruct (Rltb (24 / 1) g) eqn:Q.
    + apply Rltb_t in Q. destruct (IH (g - 24 / 1)) as (k & K1 & K2 & K3 & K4). { rewrite S_INR in H. lra. }
      exists (k + 1)%Z. rewrite plus_IZR. unfold int in K1. cbn [cst ideal] in K1. split; [rewrite K1; f_equal; change (num ideal) with R; lra|].
      split; [lra|]. split; [|intros; lra]. intros _. destruct (Rle_dec (g - 24 / 1) 24) as [L|L]; [rewrite (K4 L) in *; lra | lra].
    + apply Rltb_f in Q. exists 0%Z. split; [f_equal; change (num ideal) with R; lra|]. split; [lra|]. split; [lra|reflexivity].
Qed.

Lemma sidereal_ideal jd lon : 0 <= jd <= 1000000000 -> Rabs lon <= 1000000000 ->
  exists l g, lmst_hr ideal jd lon = Ok (l, g) /\ 0 <= l < 24 /\ -24 < g <= 24
    /\ (exists k, l = gmst_hours jd + lon / 15 - 24 * IZR k) /\ (exists k, g = gmst_hours jd - 24 * IZR k)
    /\ (2451545 <= jd -> 0 <= g).
Proof.
  intros J L. unfold lmst_hr, int. cbn [add sub mul div ltn cst c_long c_real ideal]. change (num ideal) with R in *.
  rewrite Rlong_ok by (rewrite Rabs_pos_eq; lra). cbn [bind].
  assert (TJ : Rtrunc jd = Int_part jd) by (unfold Rtrunc; destruct (Rle_dec 0 jd); [reflexivity|lra]). rewrite TJ.
  destruct (base_Int_part jd) as [I1 I2]. set (di := IZR (Int_part jd)) in *.
  assert (DS : exists ut, (if Rltb (jd - di) (5 / 10) then (di - 5 / 10, jd - di + 5 / 10) else (di + 5 / 10, jd - di - 5 / 10)) = (day_start jd, ut)
               /\ ut = jd - day_start jd /\ 0 <= ut < 1).
  { unfold day_start. destruct (Rltb (jd - di) (5 / 10)) eqn:Q; [apply Rltb_t in Q | apply Rltb_f in Q].
    - rewrite (Int_part_unique (jd - 1 / 2) (Int_part jd - 1)); rewrite minus_IZR; fold di; [|lra].
      exists (jd - di + 5 / 10). split; [f_equal; lra | lra].
    - rewrite (Int_part_unique (jd - 1 / 2) (Int_part jd)); fold di; [|lra].
      exists (jd - di - 5 / 10). split; [f_equal; lra | lra]. }
  destruct DS as (ut & DS & U1 & U2). 
  match goal with |- context [match ?P with pair _ _ => _ end] => replace P with (day_start jd, ut) end. cbn beta iota. 
  set (d0 := day_start jd) in *.
  assert (D0 : Rabs d0 <= 1000000001) by (apply Rabs_le; lra).
  set (T := (d0 - 2451545 / 1) / (36525 / 1)).
  assert (T1 : Rabs T <= 27500). { unfold T. apply Rabs_le. unfold Rabs in D0. destruct (Rcase_abs d0); lra. }
  assert (T2 : -27500 <= T <= 27500) by (unfold Rabs in T1; destruct (Rcase_abs T); lra).
  set (S := (2411054841 / 100000 + T * (8640184812866 / 1000000 + T * (93104 / 1000000 - T * (62 / 10000000)))) / (86400 / 1)).
  assert (ES : S = sidereal_at_midnight d0 / 86400). { unfold S, sidereal_at_midnight. cbv zeta. replace ((d0 - 2451545) / 36525) with T by (unfold T; field). 
    replace 24110.54841 with (2411054841 / 100000) by lra. replace 8640184.812866 with (8640184812866 / 1000000) by lra.
    replace 0.093104 with (93104 / 1000000) by lra. replace 6.2e-6 with (62 / 10000000) by lra. field. }
  assert (BS : Rabs S <= 1000000000000).
  { unfold S. assert (X : Rabs (T * (93104 / 1000000 - T * (62 / 10000000))) <= 27500).
    { rewrite Rabs_mult. assert (Rabs (93104 / 1000000 - T * (62 / 10000000)) <= 1) by (apply Rabs_le; lra).
      assert (0 <= Rabs T) by apply Rabs_pos. assert (0 <= Rabs (93104 / 1000000 - T * (62 / 10000000))) by apply Rabs_pos. nra. }
    set (y := T * (93104 / 1000000 - T * (62 / 10000000))) in *. assert (-27500 <= y <= 27500) by (unfold Rabs in X; destruct (Rcase_abs y); lra).
    assert (Z : Rabs (T * (8640184812866 / 1000000 + y)) <= 27500 * 10000000).
    { rewrite Rabs_mult. assert (Rabs (8640184812866 / 1000000 + y) <= 10000000) by (apply Rabs_le; lra).
      assert (0 <= Rabs T) by apply Rabs_pos. assert (0 <= Rabs (8640184812866 / 1000000 + y)) by apply Rabs_pos. nra. }
    set (z := T * (8640184812866 / 1000000 + y)) in *. assert (-275000000000 <= z <= 275000000000) by (unfold Rabs in Z; destruct (Rcase_abs z); lra).
    apply Rabs_le. lra. }
  rewrite Rlong_ok by lra. cbn [bind].
  assert (N1 := Rtrunc_near S). apply Rabs_def2 in N1. set (si := Rtrunc S) in *.
  set (G := S - IZR si + 100273790934 / 100000000000 * ut).
  assert (BG : -1 < G < 3) by (unfold G; lra).
  assert (BL : -1000000000 <= lon <= 1000000000) by (unfold Rabs in L; destruct (Rcase_abs lon); lra).
  destruct (reduce24_ok 4 (G * (24 / 1))) as (k & K1 & K2 & K3 & K4). { cbn [INR]. lra. }
  rewrite K1. cbn [bind].
  set (Q := G + lon / (360 / 1)). assert (BQ : Rabs Q <= 1000000000000) by (unfold Q; apply Rabs_le; lra).
  rewrite Rlong_ok by lra. cbn [bind]. assert (N2 := Rtrunc_near Q). apply Rabs_def2 in N2. set (qi := Rtrunc Q) in *.
  assert (EG : G * 24 = gmst_hours jd - 24 * IZR si). { unfold G, gmst_hours. fold d0. rewrite <- ES, <- U1. replace 1.00273790934 with (100273790934 / 100000000000) by lra. ring. }
  eexists _, _. split; [reflexivity|]. split; [|split; [|split; [|split]]].
  - destruct (Rltb _ (0 / 1)) eqn:Z; [apply Rltb_t in Z | apply Rltb_f in Z]; lra.
  - destruct (Rlt_dec 24 (G * (24 / 1))); [lra|]. rewrite K4 by lra. lra.
  - assert (EQ : 24 * Q = gmst_hours jd + lon / 15 - 24 * IZR si) by (unfold Q; lra).
    destruct (Rltb _ (0 / 1)) eqn:Z; [apply Rltb_t in Z; exists (si + qi - 1)%Z | apply Rltb_f in Z; exists (si + qi)%Z]; rewrite ?minus_IZR, plus_IZR; lra.
  - exists (si + k)%Z. rewrite plus_IZR. lra.
  - intros JJ. destruct (Rlt_dec 24 (G * (24 / 1))); [assert (H := K3 r); lra|]. rewrite K4 by lra.
    assert (0 <= S).
    { unfold S. assert (-1 / 36525 <= T) by (unfold T; lra). assert (0 <= T \/ T < 0) as [P|P] by lra.
      - assert (-1 <= 93104 / 1000000 - T * (62 / 10000000)) by lra. assert (0 <= T * (8640184812866 / 1000000 + T * (93104 / 1000000 - T * (62 / 10000000)))); [|lra].
        apply Rmult_le_pos; [lra|]. assert (-27500 <= T * (93104 / 1000000 - T * (62 / 10000000))) by nra. lra.
      - assert (0 <= 93104 / 1000000 - T * (62 / 10000000) <= 1) by lra. assert (-1 <= T * (93104 / 1000000 - T * (62 / 10000000)) <= 0) by nra.
        set (y := T * (93104 / 1000000 - T * (62 / 10000000))) in *. assert (-300 <= T * (8640184812866 / 1000000 + y)) by nra. lra. }
    assert (0 <= S - IZR si). { unfold si, Rtrunc. destruct (Rle_dec 0 S); [|lra]. destruct (base_Int_part S). lra. }
    unfold G. lra.
Qed.
