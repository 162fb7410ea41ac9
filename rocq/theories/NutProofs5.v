(** earthtilt in binary64; sidereal time; the conversions of zenith_site_ra.c. *)
From Coq Require Import ZArith List Bool Reals Lra Lia.
From Flocq Require Import Core BinarySingleNaN.
From Verif Require Import CLib FloatModel FloatLemmas ArithModel GeoLemmas GeoSpec TrigBounds NutModel NutSpec NutProofs1 NutProofs2 NutProofs3 NutProofs4.
Import ListNotations.
Open Scope R_scope.

Definition hundredth : b64 := round_ratio 1 100.
Lemma hundredth_R : fin hundredth /\ toR hundredth = IZR 5764607523034235 * bpow radix2 (-59).
Proof.
  assert (E : exists p, hundredth = B754_finite false 5764607523034235 (-59) p).
  { eexists ?[p]. [p] : (vm_compute; reflexivity). apply B2SF_inj. vm_compute. reflexivity. }
  destruct E as [p ->]. split; [reflexivity|]. cbn [B2R]. unfold F2R. cbn [Fnum Fexp cond_Zopp]. reflexivity.
Qed.
Lemma apart_machine m a b : fin a -> fin b -> apart (machine m) a b = false -> Rabs (toR a - toR b) <= 0.010000000000000002.
Proof.
  intros Ha Hb H. unfold apart in H. cbn [machine ltn cst c_fabs sub] in H. fold hundredth in H. destruct hundredth_R as [F V].
  assert (C := @Bminus_correct 53 1024 _ _ mode_NE a b Ha Hb). fold (fsub a b) in C. destruct (Rlt_bool _ _) in C.
  - destruct C as (C1 & C2 & _). assert (FA : fin (fabs (fsub a b))) by (unfold fin, fabs; rewrite is_finite_Babs; exact C2).
    apply flt_false in H; [|exact F | exact FA]. unfold fabs in H. rewrite B2R_Babs, C1, V in H.
    apply Rnot_lt_le. intros K. revert H. apply Rlt_not_le.
    set (G := IZR 5764607523034236 * bpow radix2 (-59)). assert (EG : RN G = G) by (apply (RN_fx (-59) 5764607523034236); [lia | reflexivity | lia]).
    apply Rlt_le_trans with G; [unfold G; apply Rmult_lt_compat_r; [apply bpow_gt_0 | apply IZR_lt; lia]|].
    assert (FG : generic_format radix2 fexp64 G) by (rewrite <- EG; apply generic_format_round; auto with typeclass_instances).
    apply abs_round_ge_generic; auto with typeclass_instances.
    eapply Rle_trans; [|apply Rlt_le, K]. unfold G. change (bpow radix2 (-59)) with (/ IZR (2 ^ 59)). cbn [Z.pow Z.pow_pos Pos.iter Z.mul Pos.mul]. lra.
  - exfalso. destruct C as [C _]. assert (EI : exists s, fsub a b = B754_infinity s).
    { destruct (fsub a b); cbn in C; try discriminate; eauto. }
    destruct EI as [s EI]. rewrite EI in H. revert H. vm_compute. discriminate.
Qed.
(** A date that is not a number: nothing is computed. *)
Lemma not_a_number m st : earthtilt (machine m) st B754_nan = Ok (st, results (machine m) st).
Proof.
  unfold earthtilt. replace (ltn (machine m) _ _) with false; [reflexivity|].
  cbn [machine ltn cst c_fabs sub]. assert (E : fsub B754_nan (tjd_last (machine m) st) = B754_nan) by reflexivity. cbn [machine] in *. rewrite E. vm_compute. reflexivity.
Qed.

(** ** Sidereal time *)
Lemma floor_is x z : IZR z <= x < IZR z + 1 -> Int_part x = z.
Proof.
  intros H. destruct (base_Int_part x) as [P Q]. set (y := Int_part x) in *.
  assert (H1 : IZR y < IZR (z + 1)) by (rewrite plus_IZR; lra). assert (H2 : IZR z < IZR (y + 1)) by (rewrite plus_IZR; lra). apply lt_IZR in H1, H2. lia.
Qed.
Lemma day_turn g : exists k, let r := (g - 86400 / 1 * IZR (Int_part (g / (86400 / 1)))) / (3600 / 1) in 0 <= r < 24 /\ 3600 * r + 86400 * IZR k = g.
Proof.
  exists (Int_part (g / (86400 / 1))). cbv zeta. destruct (base_Int_part (g / (86400 / 1))) as [P Q]. set (k := IZR _) in *. lra.
Qed.
Lemma gmst_is ut1 n : let mid := IZR n + 0.5 in mid <= ut1 < mid + 1 ->
  let T := (mid - 2451545) / 36525 in let secs := (ut1 - mid) * 86400 in
  0 <= ut2gmst ideal ut1 < 24 /\
  exists k, 3600 * ut2gmst ideal ut1 + 86400 * IZR k =
    12344601 / 512 + 8640185 * T + 0.0927701 * T ^ 2 - 0.0000003 * T ^ 3 - 0.000002 * T ^ 4
    + (1 + (8640185 + 2 * 0.0927701 * T - 3 * 0.0000003 * T ^ 2 - 4 * 0.000002 * T ^ 3) / (86400 * 36525)) * secs.
Proof.
  intros mid H T secs. unfold ut2gmst. cbn [ideal c_floor sub ltn cst add mul div opp len]. unfold int. cbn [ideal cst].
  match goal with |- context [if Rltb (ut1 - IZR (Int_part ut1)) (5 / 10) then ?p else ?q] =>
    assert (M : (if Rltb (ut1 - IZR (Int_part ut1)) (5 / 10) then p else q) = (mid, ut1 - mid)) end.
  { unfold mid in *. destruct (Rlt_dec ut1 (IZR n + 1)).
    - rewrite (floor_is ut1 n) by lra. rewrite (proj2 (Rltb_f _ _)) by lra. f_equal; lra.
    - rewrite (floor_is ut1 (n + 1)) by (rewrite plus_IZR; lra). rewrite plus_IZR. rewrite (proj2 (Rltb_t _ _)) by lra. f_equal; lra. }
  rewrite M. clear M.
  replace ((mid - 2451545 / 1) / (36525 / 1)) with T by (unfold T; lra).
  match goal with |- context [IZR (Int_part (?g / (86400 / 1)))] => destruct (day_turn g) as (k & R1 & R2); set (r := (g - 86400 / 1 * IZR (Int_part (g / (86400 / 1)))) / (3600 / 1)) in * end.
  rewrite (proj2 (Rltb_f r (0 / 1))) by lra. rewrite (proj2 (Rleb_f (24 / 1) r)) by lra. split; [exact R1|]. exists k. rewrite R2. unfold secs. lra.
Qed.
Lemma gmst_close ut1 n : let mid := IZR n + 0.5 in mid <= ut1 < mid + 1 -> let T := (mid - 2451545) / 36525 in
  0 <= ut2gmst ideal ut1 < 24 /\
  exists k, Rabs (3600 * ut2gmst ideal ut1 - 86400 * IZR k - (sidereal_0h T + sidereal_rate T * ((ut1 - mid) * 86400))) <= 0.00043 + 0.2058 * Rabs T.
Proof.
  intros mid H T. destruct (gmst_is ut1 n H) as (G & k & E). split; [exact G|]. fold mid in E. fold T in E. exists (- k)%Z. rewrite opp_IZR.
  unfold sidereal_0h, sidereal_rate. set (s := (ut1 - mid) * 86400) in *. assert (S : 0 <= s <= 86400) by (unfold s; lra).
  replace (_ - _ - _) with ((12344601 / 512 - 24110.54841) + (8640185 - 8640184.7942063) * T + (8640185 - 8640184.7942063) / (86400 * 36525) * s) by lra.
  eapply Rle_trans; [apply Rabs_triang|]. eapply Rle_trans; [apply Rplus_le_compat_r, Rabs_triang|].
  rewrite (Rabs_right (_ - _)), (Rabs_mult (_ - _) T), (Rabs_right (8640185 - _)), (Rabs_right (_ * s)) by lra. assert (P := Rabs_pos T). lra.
Qed.
(** At 0h UT of 2024-12-31 it is 0.05 s off. *)
Lemma gmst_off : let mid := IZR 2460675 + 0.5 in let T := (mid - 2451545) / 36525 in
  forall k, 0.0518 < Rabs (3600 * ut2gmst ideal mid - 86400 * IZR k - sidereal_0h T).
Proof.
  intros mid T k. destruct (gmst_is mid 2460675 ltac:(unfold mid; lra)) as (G & l & E). fold mid in E. fold T in E.
  unfold sidereal_0h. replace (mid - mid) with 0 in E by lra. rewrite Rmult_0_l, Rmult_0_r, Rplus_0_r in E.
  assert (ET : T = 9130.5 / 36525) by (unfold T, mid; lra).
  set (x := 3600 * _ - _ - _). assert (EX : x + 86400 * IZR (l + k) = 12344601 / 512 - 24110.54841 + (8640185 - 8640184.7942063) * T) by (unfold x; rewrite plus_IZR; lra).
  rewrite ET in EX. assert (C : (l + k = 0 \/ l + k <= -1 \/ 1 <= l + k)%Z) by lia. destruct C as [C|[C|C]].
  - rewrite C in EX. rewrite Rabs_right; lra.
  - apply IZR_le in C. rewrite Rabs_right; lra.
  - apply IZR_le in C. rewrite Rabs_left; lra.
Qed.

(** ** The right ascension of the zenith *)
Lemma into_day_ok h : -24 <= h < 48 -> 0 <= into_day ideal h < 24 /\ exists k, into_day ideal h = h + 24 * IZR k.
Proof.
  intros H. unfold into_day. cbn [ideal ltn len add sub]. unfold int. cbn [ideal cst].
  destruct (Rlt_dec h 0); [rewrite (proj2 (Rltb_t h (0 / 1))) by lra; split; [lra | exists 1%Z; lra]|]. rewrite (proj2 (Rltb_f h (0 / 1))) by lra.
  destruct (Rle_dec 24 h); [rewrite (proj2 (Rleb_t (24 / 1) h)) by lra; split; [lra | exists (-1)%Z; lra]|]. rewrite (proj2 (Rleb_f (24 / 1) h)) by lra. split; [lra | exists 0%Z; lra].
Qed.
Lemma gmst_range ut1 : 0 <= ut2gmst ideal ut1 < 24.
Proof.
  destruct (base_Int_part (ut1 - 0.5)) as [P Q]. apply (gmst_is ut1 (Int_part (ut1 - 0.5))). cbv zeta. lra.
Qed.
Lemma zenith_ok mjd lon : -360 <= lon <= 360 ->
  0 <= zenith_site_ra ideal mjd lon < 360 /\ exists k, zenith_site_ra ideal mjd lon = 15 * ut2gmst ideal (mjd + 2400000.5) + lon + 360 * IZR k.
Proof.
  intros H. unfold zenith_site_ra. cbv zeta. cbn [ideal add mul div]. unfold int. cbn [ideal cst]. replace (mjd + 24000005 / 10) with (mjd + 2400000.5) by lra.
  assert (G := gmst_range (mjd + 2400000.5)). set (g := ut2gmst ideal _) in *. destruct (into_day_ok (g + lon / (15 / 1)) ltac:(lra)) as (R1 & k & R2).
  cbn [ideal add div] in *. split; [lra|]. exists k. lra.
Qed.
Lemma zenith_far mjd lon : 360 <= lon -> 15 * ut2gmst ideal (mjd + 2400000.5) + lon - 360 <= zenith_site_ra ideal mjd lon.
Proof.
  intros H. unfold zenith_site_ra. cbv zeta. cbn [ideal add mul div]. unfold int. cbn [ideal cst]. replace (mjd + 24000005 / 10) with (mjd + 2400000.5) by lra.
  assert (G := gmst_range (mjd + 2400000.5)). set (g := ut2gmst ideal _) in *.
  unfold into_day. cbn [ideal ltn len add sub]. unfold int. cbn [ideal cst].
  rewrite (proj2 (Rltb_f _ (0 / 1))) by lra. rewrite (proj2 (Rleb_t (24 / 1) _)) by lra. lra.
Qed.
Lemma last_ok dates ut1 lon : (forall j, In j (ut1 :: dates) -> Rabs (centuries j) <= 100) -> Rabs lon <= 350 ->
  exists st st' last eq, tilt_after ideal dates = Ok st /\ ut2last ideal st ut1 lon = Ok (st', last) /\ 0 <= last < 24 /\
  (exists k, last = ut2gmst ideal ut1 + eq / 3600 + lon / 15 + 24 * IZR k) /\
  (eq = 0 /\ (forall j, In j (ut1 :: dates) -> Rabs j <= 0.01) \/ exists j, In j (ut1 :: dates) /\ Rabs (ut1 - j) <= 0.01 /\ Rabs (eq - equinoxes j) <= 1 / 10 ^ 8).
Proof.
  intros H HL. destruct (recent dates ut1 H) as (st & st' & out & E & F & C). destruct out as [[[[o1 o2] eq] o4] o5].
  assert (HE : Rabs eq <= 3).
  { destruct C as [[C _]|(j & I & _ & N)].
    - inversion C. rewrite Rabs_R0. lra.
    - assert (B := theory_size j (H j I)). unfold equinoxes in B. destruct (theory j) as [[[[t1 t2] t3] t4] t5]. cbn [near5] in N. destruct N as (_ & _ & N & _).
      assert (K := Rabs_triang_inv eq t3). lra. }
  unfold ut2last, ut2gast. cbv zeta. exists st. rewrite F. cbn [bind]. cbn [ideal add div]. unfold int. cbn [ideal cst].
  assert (G := gmst_range ut1). set (g := ut2gmst ideal ut1) in *. apply Rabs_le_inv in HE. apply Rabs_le_inv in HL.
  destruct (into_day_ok (g + eq / (3600 / 1) + lon / (15 / 1)) ltac:(lra)) as (R1 & k & R2).
  do 2 eexists. exists eq. split; [exact E|]. split; [reflexivity|]. split; [exact R1|]. split; [exists k; rewrite R2; lra|].
  destruct C as [[C D]|(j & I & D & N)].
  - left. inversion C. subst. split; [reflexivity | exact D].
  - right. exists j. split; [exact I|]. split; [exact D|]. unfold equinoxes. destruct (theory j) as [[[[t1 t2] t3] t4] t5]. cbn [near5] in N. apply N.
Qed.

(** ** Directions *)
Lemma sph2v_unit ra dec : let '(x, y, z) := sph2v ideal ra dec in x * x + y * y + z * z = 1 /\ z = sin (dec * (PI / 180)) /\
  x = cos (ra * (PI / 180)) * cos (dec * (PI / 180)) /\ y = sin (ra * (PI / 180)) * cos (dec * (PI / 180)).
Proof.
  unfold sph2v. cbn [ideal mul c_cos c_sin c_deg]. set (a := ra * _). set (d := dec * _). repeat split.
  assert (P := sin2_cos2 a). assert (Q := sin2_cos2 d). unfold Rsqr in *. nra.
Qed.
Lemma dh2e az el phi : let '(ha, dec) := slaDh2e ideal az el phi in
  - PI / 2 <= dec <= PI / 2 /\ sin dec = sin el * sin phi + cos el * cos az * cos phi /\
  cos dec * cos ha = sin el * cos phi - cos el * cos az * sin phi /\ cos dec * sin ha = - cos el * sin az.
Proof.
  unfold slaDh2e. cbv zeta. cbn [ideal mul add opp c_cos c_sin c_sqrt c_atan2 eqn]. unfold int. cbn [ideal cst].
  set (x := - cos az * cos el * sin phi + sin el * cos phi). set (y := - sin az * cos el). set (z := cos az * cos el * cos phi + sin el * sin phi).
  assert (U : x * x + y * y + z * z = 1).
  { unfold x, y, z. assert (P := sin2_cos2 az). assert (Q := sin2_cos2 el). assert (S := sin2_cos2 phi). unfold Rsqr in *.
    set (sa := sin az) in *. set (ca := cos az) in *. set (se := sin el) in *. set (ce := cos el) in *. set (sp := sin phi) in *. set (cp := cos phi) in *.
    replace (_ + _ + _) with (ca * ca * (ce * ce) * (sp * sp + cp * cp) + se * se * (sp * sp + cp * cp) + sa * sa * (ce * ce)) by ring. rewrite S.
    replace (_ + _ + _) with ((sa * sa + ca * ca) * (ce * ce) + se * se) by ring. rewrite P. lra. }
  set (r := sqrt (x * x + y * y)). assert (R0 : 0 <= r) by apply sqrt_pos. assert (RR : r * r = x * x + y * y) by (apply sqrt_sqrt; nra).
  assert (N : z * z + r * r <> 0) by lra. assert (PZ := Ratan2_polar z r ltac:(lra)). replace (sqrt (r * r + z * z)) with 1 in PZ by (rewrite RR, U, sqrt_1; reflexivity).
  split; [apply Ratan2_right; exact R0|]. destruct PZ as [PC PS].
  assert (EC : cos (Ratan2 z r) = r) by lra. assert (ES : sin (Ratan2 z r) = z) by lra. rewrite EC, ES.
  split; [unfold z; ring|].
  destruct (Reqb r (0 / 1)) eqn:Z.
  - apply Reqb_t in Z. assert (x * x + y * y = 0) by (rewrite <- RR, Z; lra). assert (x = 0 /\ y = 0) by (split; nra). replace (0 / 1) with 0 by lra. rewrite sin_0, cos_0. unfold x, y in *. lra.
  - apply Reqb_f in Z. assert (K : x * x + y * y <> 0). { intros K. apply Z. unfold r. rewrite K, sqrt_0. lra. }
    destruct (Ratan2_polar y x K) as [C S]. fold r in C, S. split; [transitivity x; [symmetry; exact C | unfold x; ring] | transitivity y; [symmetry; exact S | unfold y; ring]].
Qed.
Lemma dh2e_frame az el phi : let '(ha, dec) := slaDh2e ideal az el phi in
  - PI / 2 <= dec <= PI / 2 /\ dot (ha_dir dec ha) (zenith phi) = sin el /\ dot (ha_dir dec ha) (north phi) = cos el * cos az /\ dot (ha_dir dec ha) east = cos el * sin az.
Proof.
  assert (H := dh2e az el phi). destruct (slaDh2e ideal az el phi) as [ha dec]. destruct H as (H0 & H1 & H2 & H3). split; [exact H0|].
  unfold dot, ha_dir, zenith, north, east. rewrite H1.
  assert (P := sin2_cos2 phi). unfold Rsqr in P. set (sp := sin phi) in *. set (cp := cos phi) in *.
  set (u := cos dec * cos ha) in *. set (v := cos dec * sin ha) in *. rewrite ?H2, ?H3. split; [|split].
  - transitivity (sin el * (sp * sp + cp * cp)); [ring | rewrite P; ring].
  - transitivity (cos el * cos az * (sp * sp + cp * cp)); [ring | rewrite P; ring].
  - ring.
Qed.

(** ** As stated in Prop_Nut *)
Lemma tables_hold : exists ks, length ks = 106%nat /\ NoDup ks /\ (forall r, In r iau1980 -> In (fst r) ks \/ In (opposite (fst r)) ks) /\
  forall t, exists a, near5 ((1000 + 1260000 * Rabs t + Rabs t ^ 2 + 0.01 * Rabs t ^ 3) / 10 ^ 18) a (fundamental t) /\
    fill ideal t = Ok (106%Z, map (fun k => Some (cos (phase k a))) ks, map (fun k => Some (sin (phase k a))) ks) /\
    calcnutation ideal t = Ok (nutation_lon a t, nutation_obl a t).
Proof.
  exists Ks. split; [reflexivity|]. split; [exact Ks_nodup|]. split; [exact Ks_all|]. intros t. exists (code_args t).
  split; [apply args_near|]. split; [apply fill_angles | apply series].
Qed.
Lemma series_close t : Rabs t <= 100 -> exists psi eps, calcnutation ideal t = Ok (psi, eps) /\
  Rabs (psi - nutation_lon (fundamental t) t) <= 1 / 10 ^ 8 /\ Rabs (eps - nutation_obl (fundamental t) t) <= 1 / 10 ^ 8.
Proof. intros H. rewrite series. do 2 eexists. split; [reflexivity|]. apply nutation_close. exact H. Qed.
Lemma rounded_distance m dates jd : fin jd -> (forall j, In j dates -> fin j) -> exists st st' out, tilt_after (machine m) dates = Ok st /\ earthtilt (machine m) st jd = Ok (st', out) /\
  (out = (int (machine m) 0, int (machine m) 0, int (machine m) 0, int (machine m) 0, int (machine m) 0) /\ (forall j, In j (jd :: dates) -> Rabs (toR j) <= 0.010000000000000002) \/
   exists j, In j (jd :: dates) /\ Rabs (toR jd - toR j) <= 0.010000000000000002 /\
     forall s, ltn (machine m) (cst (machine m) 1 100) (c_fabs (machine m) (sub (machine m) j (tjd_last (machine m) s))) = true -> exists s', earthtilt (machine m) s j = Ok (s', out)).
Proof.
  intros F FS. destruct (cache (machine m) dates jd) as (st & st' & out & E1 & E2 & C). exists st, st', out. split; [exact E1|]. split; [exact E2|].
  assert (FA : forall j, In j (jd :: dates) -> fin j) by (intros j [<-|I]; auto).
  destruct C as [[-> C]|(j & I & C & K)].
  - left. split; [reflexivity|]. intros j I. specialize (C j I). apply apart_machine in C; [|apply FA; exact I | reflexivity].
    change (toR (int (machine m) 0)) with 0 in C. rewrite Rminus_0_r in C. exact C.
  - right. exists j. split; [exact I|]. split; [|exact K].
    destruct C as [->|C]; [rewrite Rminus_diag_eq, Rabs_R0 by reflexivity; lra | apply (apart_machine m); [exact F | apply FA; exact I | exact C]].
Qed.
Lemma zenith_far_2 : exists mjd lon, 0 <= lon <= 720 /\ 360 <= zenith_site_ra ideal mjd lon.
Proof. exists 0, 720. split; [lra|]. assert (Z := zenith_far 0 720 ltac:(lra)). assert (G := gmst_range (0 + 2400000.5)). lra. Qed.
Lemma last_deg A st mjd lon : zenith_site_ra_last A st mjd lon = match ut2last A st (add A mjd (cst A 24000005 10)) lon with Ok (st', l) => Ok (st', mul A l (int A 15)) | UB r => UB r end.
Proof. unfold zenith_site_ra_last. cbv zeta. destruct (ut2last _ _ _ _) as [[s l]|]; reflexivity. Qed.
Lemma zenith_last dates mjd lon : (forall j, In j (mjd + 2400000.5 :: dates) -> Rabs (centuries j) <= 100) -> Rabs lon <= 350 ->
  exists st st' ra eq, tilt_after ideal dates = Ok st /\ zenith_site_ra_last ideal st mjd lon = Ok (st', ra) /\ 0 <= ra < 360 /\
  (exists k, ra = 15 * ut2gmst ideal (mjd + 2400000.5) + eq / 240 + lon + 360 * IZR k) /\
  (eq = 0 /\ (forall j, In j (mjd + 2400000.5 :: dates) -> Rabs j <= 0.01) \/
   exists j, In j (mjd + 2400000.5 :: dates) /\ Rabs (mjd + 2400000.5 - j) <= 0.01 /\ Rabs (eq - equinoxes j) <= 1 / 10 ^ 8).
Proof.
  intros H HL. destruct (last_ok dates (mjd + 2400000.5) lon H HL) as (st & st' & last & eq & E & F & R1 & (k & R2) & C).
  exists st, st', (last * 15), eq. split; [exact E|]. rewrite last_deg. cbn [ideal add mul]. unfold int. cbn [ideal cst]. replace (mjd + 24000005 / 10) with (mjd + 2400000.5) by lra. rewrite F.
  split; [do 2 f_equal; lra|]. split; [lra|]. split; [exists k; lra | exact C].
Qed.
