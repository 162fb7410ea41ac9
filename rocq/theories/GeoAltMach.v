(** dechalat2alt in binary64 away from the nadir: asin is called on a number of [-1, 1]. *)
From Coq Require Import ZArith Bool Reals Lra Lia Psatz.
From Flocq Require Import Core IEEE754.BinarySingleNaN.
From Verif Require Import CLib FloatModel FloatLemmas ArithModel GeoModel GeoNadirSpec AngleProofs TrigBounds GeoMachProofs GeoNadir.
Open Scope R_scope.

Lemma alt_cases (A : arith) (dec ha lat : num A) h : dechalat2alt A dec ha lat = Ok h ->
  let l := mul A lat (c_deg A) in let hr := mul A (mul A ha (int A 15)) (c_deg A) in
  hz_alt A h = int A 90 \/
  ltn A (c_fabs A (sub A dec l)) (cst A 1 1000000) = false /\
  exists ch cl sl, hz_alt A h = mul A (c_rad A) (c_asin A (add A (mul A (mul A (c_cos A dec) ch) cl) (mul A (c_sin A dec) sl))) /\
  ((eqn A ha (int A 0) = true /\ ch = int A 1 \/ eqn A ha (int A 0) = false /\ ch = c_cos A hr) /\ cl = c_cos A l /\ sl = c_sin A l \/
   ch = c_cos A hr /\ cl = int A 0 /\ (sl = int A (-1) \/ sl = int A 1)).
Proof.
  unfold dechalat2alt. cbv zeta. intros E.
  destruct (eqn A ha (int A 0)) eqn:H1; [|destruct (ltn A (c_cos A (mul A lat (c_deg A))) (cst A 1 1000000)) eqn:H2]; cbv iota beta in E;
    match type of E with bind ?m _ = _ => destruct m as [pa|] eqn:EP; cbn [bind] in E; [|discriminate E] end; injection E as E; subst h; cbn [hz_alt];
    (destruct (ltn A (c_fabs A (sub A dec (mul A lat (c_deg A)))) (cst A 1 1000000)) eqn:H4; [left; reflexivity|right]; split; [reflexivity|]);
    do 3 eexists; (split; [reflexivity|]).
  - left. split; [left; split; reflexivity|]. split; reflexivity.
  - right. split; [reflexivity|]. split; [reflexivity|]. destruct (ltn A (mul A lat (c_deg A)) (int A 0)); [left|right]; reflexivity.
  - left. split; [right; split; reflexivity|]. split; reflexivity.
Qed.

Lemma RN_unit x : Rabs x <= 1 -> Rabs (RN x) <= 1 /\ Rabs (RN x - x) <= / 2 * / 2 ^ 53.
Proof.
  intros H. split; [apply (RN_abs_le x 0); [lia|exact H]|]. eapply Rle_trans; [apply (RN_err x 0); [lia|exact H]|]. cbn. lra.
Qed.
Lemma mul_unit (a b : b64) : fin a -> fin b -> Rabs (toR a) <= 1 -> Rabs (toR b) <= 1 ->
  fin (fmul a b) /\ Rabs (toR (fmul a b)) <= 1 /\ Rabs (toR (fmul a b) - toR a * toR b) <= / 2 * / 2 ^ 53.
Proof.
  intros Fa Fb Ha Hb. assert (P : Rabs (toR a * toR b) <= 1). { rewrite Rabs_mult, <- (Rmult_1_r 1). apply Rmult_le_compat; try apply Rabs_pos; assumption. }
  destruct (fmul_R a b 0 Fa Fb ltac:(lia) P) as [F V]. rewrite V. split; [exact F|]. apply RN_unit. exact P.
Qed.
Lemma prod_err a b x y e f : Rabs a <= 1 -> Rabs y <= 1 -> Rabs (a - x) <= e -> Rabs (b - y) <= f -> Rabs (a * b - x * y) <= e + f.
Proof.
  intros Ha Hy He Hf. replace (a * b - x * y) with (a * (b - y) + (a - x) * y) by ring. eapply Rle_trans; [apply Rabs_triang|]. rewrite !Rabs_mult.
  assert (Rabs a * Rabs (b - y) <= 1 * f) by (apply Rmult_le_compat; try apply Rabs_pos; assumption).
  assert (Rabs (a - x) * Rabs y <= e * 1) by (apply Rmult_le_compat; try apply Rabs_pos; assumption). lra.
Qed.

(** The sum, from the factors. *)
Lemma sum_err (c1 c2 c3 s1 s2 : b64) C1 C2 C3 S1 S2 :
  (forall z, z = c1 \/ z = c2 \/ z = c3 \/ z = s1 \/ z = s2 -> fin z /\ Rabs (toR z) <= 1) ->
  Rabs C1 <= 1 -> Rabs C2 <= 1 -> Rabs C3 <= 1 -> Rabs S1 <= 1 -> Rabs S2 <= 1 ->
  Rabs (toR c1 - C1) <= / 2 ^ 53 -> Rabs (toR c2 - C2) <= / 2 ^ 53 -> Rabs (toR c3 - C3) <= / 2 ^ 53 -> Rabs (toR s1 - S1) <= / 2 ^ 53 -> Rabs (toR s2 - S2) <= / 2 ^ 53 ->
  let q := fadd (fmul (fmul c1 c2) c3) (fmul s1 s2) in
  fin q /\ Rabs (toR q - (C1 * C2 * C3 + S1 * S2)) <= / 2 ^ 50.
Proof.
  intros U K1 K2 K3 K4 K5 E1 E2 E3 E4 E5 q. destruct (U c1 ltac:(tauto)) as [F1 B1]. destruct (U c2 ltac:(tauto)) as [F2 B2]. destruct (U c3 ltac:(tauto)) as [F3 B3].
  destruct (U s1 ltac:(tauto)) as [F4 B4]. destruct (U s2 ltac:(tauto)) as [F5 B5]. clear U. set (e := / 2 ^ 53) in *.
  destruct (mul_unit c1 c2 F1 F2 B1 B2) as (G1 & D1 & R1). fold e in R1. set (p := fmul c1 c2) in *.
  destruct (mul_unit p c3 G1 F3 D1 B3) as (G2 & D2 & R2). fold e in R2. set (p2 := fmul p c3) in *.
  destruct (mul_unit s1 s2 F4 F5 B4 B5) as (G3 & D3 & R3). fold e in R3. set (s := fmul s1 s2) in *.
  assert (W1 := prod_err _ _ _ _ _ _ B1 K2 E1 E2).
  assert (Q1 : Rabs (toR p - C1 * C2) <= 5 / 2 * e). { replace (toR p - C1 * C2) with ((toR p - toR c1 * toR c2) + (toR c1 * toR c2 - C1 * C2)) by ring. eapply Rle_trans; [apply Rabs_triang|lra]. }
  assert (W2 := prod_err _ _ _ _ _ _ D1 K3 Q1 E3).
  assert (W3 := prod_err _ _ _ _ _ _ B4 K5 E4 E5).
  assert (T : Rabs (toR p2 + toR s) <= bpow radix2 1). { eapply Rle_trans; [apply Rabs_triang|]. cbn. lra. }
  destruct (fadd_R p2 s 1 G2 G3 ltac:(lia) T) as [G V]. fold q in G, V. split; [exact G|]. rewrite V.
  assert (X := RN_err _ 1 ltac:(lia) T). assert (XE : bpow radix2 (1 - 54) = e) by (unfold e; cbn; lra). rewrite XE in X.
  assert (Y : / 2 ^ 50 = 8 * e) by (unfold e; lra). rewrite Y.
  replace (RN (toR p2 + toR s) - (C1 * C2 * C3 + S1 * S2)) with ((RN (toR p2 + toR s) - (toR p2 + toR s)) + ((toR p2 - toR p * toR c3) + (toR p * toR c3 - C1 * C2 * C3)) + ((toR s - toR s1 * toR s2) + (toR s1 * toR s2 - S1 * S2))) by ring.
  assert (0 < e) by (unfold e; lra).
  eapply Rle_trans; [apply Rabs_triang|]. eapply Rle_trans; [apply Rplus_le_compat; [apply Rabs_triang|apply Rabs_triang]|].
  eapply Rle_trans; [apply Rplus_le_compat_r; apply Rplus_le_compat_l; apply Rabs_triang|]. lra.
Qed.

(** Two directions that differ by a millionth in declination are not the same. *)
Lemma cos_gap t : / 1010000 <= t <= 4 -> cos t <= 1 - / 2 ^ 50 - / 2 ^ 50.
Proof.
  intros H. assert (P := pi_in). assert (T0 : cos (/ 1010000) <= 1 - / 4000000000000).
  { destruct (pre_cos_bound (/ 1010000) 0 ltac:(lra) ltac:(lra)) as [_ B]. eapply Rle_trans; [exact B|]. unfold cos_approx, cos_term. cbn [sum_f_R0 Nat.mul Nat.add fact INR pow]. 
    simpl. lra. }
  destruct (Rle_lt_dec t PI) as [L|L].
  - destruct (Req_dec t (/ 1010000)) as [->|N]; [lra|]. assert (cos t < cos (/ 1010000)) by (apply cos_decreasing_1; lra). lra.
  - assert (cos t <= 0). { apply cos_le_0; lra. } lra.
Qed.

Lemma const_R n d s M e : B2SF (round_ratio n d) = SpecFloat.S754_finite s M e -> toR (round_ratio n d) = F2R (Float radix2 (cond_Zopp s (Zpos M)) e).
Proof. apply of_SF. Qed.
Lemma one64 : fin (round_ratio 1 1) /\ toR (round_ratio 1 1) = 1.
Proof. split; [vm_compute; reflexivity|]. rewrite (const_R 1 1 false 4503599627370496%positive (-52)) by (vm_compute; reflexivity). unfold F2R. cbn. lra. Qed.
Lemma minus_one64 : fin (round_ratio (-1) 1) /\ toR (round_ratio (-1) 1) = -1.
Proof. split; [vm_compute; reflexivity|]. rewrite (const_R (-1) 1 true 4503599627370496%positive (-52)) by (vm_compute; reflexivity). unfold F2R. cbn. lra. Qed.
Lemma deg64 : fin DEG64 /\ toR DEG64 = 5030569068109113 / 288230376151711744.
Proof. split; [vm_compute; reflexivity|]. rewrite (of_SF DEG64 false 5030569068109113%positive (-58)) by (vm_compute; reflexivity). unfold F2R. cbn. lra. Qed.
Lemma millionth : fin (round_ratio 1 1000000) /\ / 1000001 <= toR (round_ratio 1 1000000).
Proof. split; [vm_compute; reflexivity|]. rewrite (const_R 1 1000000 false 4722366482869645%positive (-72)) by (vm_compute; reflexivity). unfold F2R. cbn. lra. Qed.
Lemma quarter : toR (fmul (round_ratio 90 1) DEG64) <= PI / 2 /\ toR (fmul (round_ratio 90 1) DEG64) = RN (90 * toR DEG64).
Proof.
  assert (N : fin (round_ratio 90 1) /\ toR (round_ratio 90 1) = 90).
  { split; [vm_compute; reflexivity|]. rewrite (const_R 90 1 false 6333186975989760%positive (-46)) by (vm_compute; reflexivity). unfold F2R. cbn. lra. }
  destruct deg64 as [FD VD]. split.
  - rewrite (of_SF (fmul (round_ratio 90 1) DEG64) false 7074237752028440%positive (-52)) by (vm_compute; reflexivity). assert (P := pi_in). unfold F2R. cbn. lra.
  - destruct (fmul_R (round_ratio 90 1) DEG64 10 (proj1 N) FD ltac:(lia)) as [_ V]; [|rewrite V, (proj2 N); reflexivity].
    rewrite (proj2 N), VD, Rabs_pos_eq by lra. cbn. lra.
Qed.
Lemma unit_trig x : Rabs (sin x) <= 1 /\ Rabs (cos x) <= 1.
Proof. split; apply Rabs_le; [apply SIN_bound|apply COS_bound]. Qed.

(** What asin is called on. *)
Lemma altitude_domain m (dec ha lat : b64) h : accurate (m_sin m) sin -> accurate (m_cos m) cos -> fin dec -> fin ha -> fin lat ->
  Rabs (toR dec) <= PI / 2 -> Rabs (toR lat) <= 90 -> Rabs (toR ha) <= 100 ->
  let l := toR (fmul lat DEG64) in let hr := toR (fmul (fmul ha (round_ratio 15 1)) DEG64) in
  -1 + / 2 ^ 50 <= cos (toR dec) * cos hr * cos l + sin (toR dec) * sin l ->
  dechalat2alt (machine m) dec ha lat = Ok h ->
  hz_alt (machine m) h = round_ratio 90 1 \/
  exists q, hz_alt (machine m) h = fmul RAD64 (m_asin m q) /\ fin q /\ Rabs (toR q) <= 1.
Proof.
  intros HS HC Fd Fh Fl Bd Bl Bh l hr N E. destruct (alt_cases (machine m) dec ha lat h E) as [Z|(G & ch & cl & sl & V & K)]; [left; exact Z|right].
  assert (P := pi_in). destruct deg64 as [FD VD]. destruct one64 as [F1 V1]. destruct minus_one64 as [FM VM]. destruct zero64 as [FZ VZ].
  assert (BL : Rabs (toR lat * toR DEG64) <= 90 * toR DEG64). { rewrite Rabs_mult, (Rabs_pos_eq (toR DEG64)) by (rewrite VD; lra). apply Rmult_le_compat_r; [rewrite VD; lra|exact Bl]. }
  destruct (fmul_R lat DEG64 1 Fl FD ltac:(lia)) as [FL VL]. { eapply Rle_trans; [exact BL|]. rewrite VD. cbn. lra. }
  destruct quarter as [Q1 Q2].
  assert (L : Rabs l <= PI / 2).
  { unfold l. rewrite VL. apply Rabs_le_inv in BL. assert (U := RN_le _ _ (proj2 BL)). assert (D := RN_le _ _ (proj1 BL)). rewrite RN_opp in D. rewrite <- Q2 in U, D. apply Rabs_le. lra. }
  assert (V15 : fin (round_ratio 15 1) /\ toR (round_ratio 15 1) = 15).
  { split; [vm_compute; reflexivity|]. rewrite (const_R 15 1 false 8444249301319680%positive (-49)) by (vm_compute; reflexivity). unfold F2R. cbn. lra. }
  assert (B15 : Rabs (toR ha * toR (round_ratio 15 1)) <= bpow radix2 11). { rewrite (proj2 V15), Rabs_mult, (Rabs_pos_eq 15) by lra. cbn. lra. }
  destruct (fmul_R ha (round_ratio 15 1) 11 Fh (proj1 V15) ltac:(lia) B15) as [F15 V15'].
  assert (B15' : Rabs (toR (fmul ha (round_ratio 15 1))) <= bpow radix2 11) by (rewrite V15'; apply RN_abs_le; [lia|exact B15]).
  destruct (fmul_R (fmul ha (round_ratio 15 1)) DEG64 11 F15 FD ltac:(lia)) as [FH VH].
  { rewrite Rabs_mult, (Rabs_pos_eq (toR DEG64)) by (rewrite VD; lra). rewrite <- (Rmult_1_r (bpow radix2 11)). apply Rmult_le_compat; [apply Rabs_pos|rewrite VD; lra|exact B15'|rewrite VD; lra]. }
  destruct (HC dec Fd) as (A1 & A2 & A3). destruct (HS dec Fd) as (A4 & A5 & A6).
  destruct (HC _ FL) as (A7 & A8 & A9). destruct (HS _ FL) as (A10 & A11 & A12). destruct (HC _ FH) as (A13 & A14 & A15). fold l in A9, A12. fold hr in A15.
  change (mul (machine m) lat (c_deg (machine m))) with (fmul lat DEG64) in *.
  change (mul (machine m) (mul (machine m) ha (int (machine m) 15)) (c_deg (machine m))) with (fmul (fmul ha (round_ratio 15 1)) DEG64) in *.
  change (c_cos (machine m)) with (m_cos m) in *. change (c_sin (machine m)) with (m_sin m) in *.
  exists (fadd (fmul (fmul (m_cos m dec) ch) cl) (fmul (m_sin m dec) sl)). split; [exact V|]. clear V E.
  destruct K as [(KH & -> & ->)|(-> & -> & KS)].
  - assert (CH : fin ch /\ Rabs (toR ch) <= 1 /\ Rabs (toR ch - cos hr) <= / 2 ^ 53).
    { destruct KH as [[E0 ->]|[E0 ->]]; [|split; [exact A13|split; [exact A14|exact A15]]].
      change (int (machine m) 1) with (round_ratio 1 1). split; [exact F1|]. rewrite V1. split; [rewrite Rabs_R1; lra|].
      assert (H0 : toR ha = 0). { change (feq ha (round_ratio 0 1) = true) in E0. destruct ha as [s|s| |s mx ex Hx]; try discriminate Fh; [reflexivity|]. destruct s; discriminate E0. }
      assert (H1 : hr = 0). { unfold hr. rewrite VH, V15', H0, Rmult_0_l, RN0, Rmult_0_l. apply RN0. }
      rewrite H1, cos_0. rewrite Rminus_eq_0, Rabs_R0. lra. }
    destruct CH as (CH1 & CH2 & CH3).
    destruct (sum_err (m_cos m dec) ch (m_cos m (fmul lat DEG64)) (m_sin m dec) (m_sin m (fmul lat DEG64)) (cos (toR dec)) (cos hr) (cos l) (sin (toR dec)) (sin l)) as [FQ BQ]; try (apply unit_trig); try assumption.
    { intros z [->|[->|[->|[->| ->]]]]; split; assumption. }
    split; [exact FQ|]. set (q := fadd _ _) in *. apply Rabs_le_inv in BQ.
    assert (UP : cos (toR dec) * cos hr * cos l + sin (toR dec) * sin l <= 1 - / 2 ^ 50 - / 2 ^ 50).
    { assert (D : cos (toR dec - l) <= 1 - / 2 ^ 50 - / 2 ^ 50).
      { change (flt (fabs (fsub dec (fmul lat DEG64))) (round_ratio 1 1000000) = false) in G.
        assert (BD : Rabs (toR dec - l) <= 4). { apply Rabs_le_inv in Bd, L. apply Rabs_le. lra. }
        destruct (fsub_R dec (fmul lat DEG64) 2 Fd FL ltac:(lia)) as [FS VS]; [exact BD|]. fold l in VS.
        destruct millionth as [FE VE].
        apply flt_false in G; [|unfold fin, fabs; rewrite is_finite_Babs; exact FS|exact FE]. unfold fabs in G. rewrite B2R_Babs, VS in G.
        assert (X := RN_err (toR dec - l) 2 ltac:(lia) BD). assert (XE : bpow radix2 (2 - 54) = / 2 ^ 52) by (cbn; lra). rewrite XE in X.
        assert (T := Rabs_triang_inv (RN (toR dec - l)) (toR dec - l)).
        assert (GT : / 1010000 <= Rabs (toR dec - l)) by lra.
        replace (cos (toR dec - l)) with (cos (Rabs (toR dec - l))). { apply cos_gap. lra. }
        unfold Rabs. destruct (Rcase_abs _); [apply cos_neg|reflexivity]. }
      rewrite cos_minus in D. assert (0 <= cos (toR dec)) by (apply Rabs_le_inv in Bd; apply cos_ge_0; lra). assert (0 <= cos l) by (apply Rabs_le_inv in L; apply cos_ge_0; lra).
      destruct (COS_bound hr) as [_ CB]. assert (0 <= cos (toR dec) * cos l) by (apply Rmult_le_pos; assumption).
      assert (cos (toR dec) * cos l * cos hr <= cos (toR dec) * cos l * 1) by (apply Rmult_le_compat_l; assumption). lra. }
    apply Rabs_le. lra.
  - change (int (machine m) 0) with (round_ratio 0 1).
    destruct (mul_unit (m_cos m dec) (m_cos m (fmul (fmul ha (round_ratio 15 1)) DEG64)) A1 A13 A2 A14) as (G1 & G2 & _).
    destruct (fmul_R _ (round_ratio 0 1) 0 G1 FZ ltac:(lia)) as [G3 G4]. { rewrite VZ, Rmult_0_r, Rabs_R0. cbn. lra. }
    rewrite VZ, Rmult_0_r, RN0 in G4.
    assert (S : fin (fmul (m_sin m dec) sl) /\ Rabs (toR (fmul (m_sin m dec) sl)) <= 1).
    { destruct KS as [-> | ->]; [change (int (machine m) (-1)) with (round_ratio (-1) 1)|change (int (machine m) 1) with (round_ratio 1 1)];
        [destruct (mul_unit (m_sin m dec) (round_ratio (-1) 1) A4 FM A5) as (S1 & S2 & _)|destruct (mul_unit (m_sin m dec) (round_ratio 1 1) A4 F1 A5) as (S1 & S2 & _)]; try (split; assumption);
        [rewrite VM, Rabs_left by lra; lra|rewrite V1, Rabs_R1; lra]. }
    destruct S as [S1 S2].
    match goal with |- fin (fadd ?a ?b) /\ _ => destruct (fadd_R a b 0 G3 S1 ltac:(lia)) as [W1 W2] end. { rewrite G4, Rplus_0_l. exact S2. }
    split; [exact W1|]. rewrite W2, G4, Rplus_0_l. apply RN_unit. exact S2.
Qed.
(** The hypotheses hold for a star of the equator on the meridian of a place at 8 degrees. *)
Lemma ex_not_nadir : -1 + / 2 ^ 50 <= cos (toR (round_ratio 0 1)) * cos (toR (fmul (fmul (round_ratio 0 1) (round_ratio 15 1)) DEG64)) * cos (toR (fmul (round_ratio 8 1) DEG64)) + sin (toR (round_ratio 0 1)) * sin (toR (fmul (round_ratio 8 1) DEG64)).
Proof.
  replace (toR (fmul (fmul (round_ratio 0 1) (round_ratio 15 1)) DEG64)) with 0 by reflexivity. rewrite (proj2 zero64), cos_0, sin_0.
  assert (0 <= cos (toR lat8)). { rewrite lat8_R. assert (P := pi_in). apply cos_ge_0; lra. } fold lat8. lra.
Qed.
(** Correctly rounded functions are accurate. *)
Lemma rounded_accurate f g : (forall x, Rabs (g x) <= 1) -> correctly_rounded f g -> accurate f g.
Proof.
  intros B H x F. destruct (H x F) as [G V]. split; [exact G|]. rewrite V. destruct (RN_unit _ (B (toR x))) as [U1 U2]. split; [exact U1|]. lra.
Qed.
Lemma accurate_library : exists m, accurate (m_sin m) sin /\ accurate (m_cos m) cos.
Proof.
  destruct good_library as (m & HS & HC). exists m. split; apply rounded_accurate; try assumption; intros x; apply unit_trig.
Qed.
