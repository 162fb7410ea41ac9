(** Sidereal time in binary64: the distance from the exact formula. *)
From Coq Require Import ZArith Reals Lra Lia Bool Psatz.
From Flocq Require Import Core IEEE754.BinarySingleNaN.
From Verif Require Import CLib FloatModel ArithModel FloatLemmas GeoLemmas OrbModel TimeModel TimeSpec TimeProofs AngleProofs TimeProofs2.
Open Scope R_scope.

Definition near (x : b64) (X e : R) : Prop := fin x /\ - e <= toR x - X <= e.

Lemma near_add x y X Y ex ey b e u : near x X ex -> near y Y ey -> (-900 <= e <= 900)%Z -> bpow radix2 e = b -> bpow radix2 (e - 54) = u ->
  - b <= X + Y - ex - ey -> X + Y + ex + ey <= b -> near (fadd x y) (X + Y) (ex + ey + u).
Proof.
  intros [Fx Hx] [Fy Hy] He Hb Hu L1 L2. assert (B : Rabs (toR x + toR y) <= bpow radix2 e) by (apply Rabs_le; rewrite Hb; lra).
  destruct (fadd_R x y e Fx Fy) as [F V]; [lia | exact B |]. split; [exact F|]. rewrite V.
  assert (E := RN_err (toR x + toR y) e ltac:(lia) B). rewrite Hu in E. apply Rabs_le_inv in E. lra.
Qed.
Lemma near_sub x y X Y ex ey b e u : near x X ex -> near y Y ey -> (-900 <= e <= 900)%Z -> bpow radix2 e = b -> bpow radix2 (e - 54) = u ->
  - b <= X - Y - ex - ey -> X - Y + ex + ey <= b -> near (fsub x y) (X - Y) (ex + ey + u).
Proof.
  intros [Fx Hx] [Fy Hy] He Hb Hu L1 L2. assert (B : Rabs (toR x - toR y) <= bpow radix2 e) by (apply Rabs_le; rewrite Hb; lra).
  destruct (fsub_R x y e Fx Fy) as [F V]; [lia | exact B |]. split; [exact F|]. rewrite V.
  assert (E := RN_err (toR x - toR y) e ltac:(lia) B). rewrite Hu in E. apply Rabs_le_inv in E. lra.
Qed.
Lemma near_mul x y X Y ex ey bX bY b e u : near x X ex -> near y Y ey -> (-900 <= e <= 900)%Z -> bpow radix2 e = b -> bpow radix2 (e - 54) = u ->
  0 <= ex -> 0 <= ey -> - bX <= X <= bX -> - bY <= Y <= bY -> (bX + ex) * (bY + ey) <= b -> near (fmul x y) (X * Y) (bX * ey + bY * ex + ex * ey + u).
Proof.
  intros [Fx Hx] [Fy Hy] He Hb Hu P1 P2 BX BY L.
  assert (A1 : Rabs (toR x) <= bX + ex) by (apply Rabs_le; lra). assert (A2 : Rabs (toR y) <= bY + ey) by (apply Rabs_le; lra).
  assert (B : Rabs (toR x * toR y) <= bpow radix2 e).
  { rewrite Rabs_mult, Hb. apply Rle_trans with ((bX + ex) * (bY + ey)); [|exact L]. apply Rmult_le_compat; auto using Rabs_pos. }
  destruct (fmul_R x y e Fx Fy) as [F V]; [lia | exact B |]. split; [exact F|]. rewrite V.
  assert (E := RN_err (toR x * toR y) e ltac:(lia) B). rewrite Hu in E. apply Rabs_le_inv in E.
  assert (D : Rabs (toR x * toR y - X * Y) <= bX * ey + bY * ex + ex * ey).
  { replace (toR x * toR y - X * Y) with (X * (toR y - Y) + Y * (toR x - X) + (toR x - X) * (toR y - Y)) by ring.
    assert (Rabs (X * (toR y - Y)) <= bX * ey) by (rewrite Rabs_mult; apply Rmult_le_compat; auto using Rabs_pos; apply Rabs_le; lra).
    assert (Rabs (Y * (toR x - X)) <= bY * ex) by (rewrite Rabs_mult; apply Rmult_le_compat; auto using Rabs_pos; apply Rabs_le; lra).
    assert (Rabs ((toR x - X) * (toR y - Y)) <= ex * ey) by (rewrite Rabs_mult; apply Rmult_le_compat; auto using Rabs_pos; apply Rabs_le; lra).
    assert (T1 := Rabs_triang (X * (toR y - Y) + Y * (toR x - X)) ((toR x - X) * (toR y - Y))). assert (T2 := Rabs_triang (X * (toR y - Y)) (Y * (toR x - X))). lra. }
  apply Rabs_le_inv in D. lra.
Qed.
Lemma near_div x y X Y ex b e u : near x X ex -> toR y = Y -> 0 < Y -> (-900 <= e <= 900)%Z -> bpow radix2 e = b -> bpow radix2 (e - 54) = u ->
  - b <= X / Y - ex / Y -> X / Y + ex / Y <= b -> near (fdiv x y) (X / Y) (ex / Y + u).
Proof.
  intros [Fx Hx] Hy P He Hb Hu L1 L2.
  assert (D : - (ex / Y) <= toR x / Y - X / Y <= ex / Y).
  { replace (toR x / Y - X / Y) with ((toR x - X) / Y) by (field; lra). replace (- (ex / Y)) with ((- ex) / Y) by (field; lra).
    split; apply Rmult_le_compat_r; try lra; apply Rlt_le, Rinv_0_lt_compat; lra. }
  assert (B : Rabs (toR x / toR y) <= bpow radix2 e) by (rewrite Hy; apply Rabs_le; rewrite Hb; lra).
  destruct (fdiv_R x y e Fx) as [F V]; [lra | lia | exact B |]. split; [exact F|]. rewrite V.
  assert (E := RN_err (toR x / toR y) e ltac:(lia) B). rewrite Hu in E. apply Rabs_le_inv in E. rewrite Hy in E. rewrite Hy. lra.
Qed.
Lemma near_weak x X e e' : near x X e -> e <= e' -> near x X e'.
Proof. intros [F H] L. split; [exact F | lra]. Qed.
Lemma near_eq x X Y e : near x X e -> X = Y -> near x Y e.
Proof. intros H <-. exact H. Qed.

(** A literal is within an ulp of its text. *)
Ltac lit_near m e := split; [vm_compute; reflexivity | rewrite <- SF2R_B2SF; match goal with |- context [B2SF ?c] => replace (B2SF c) with (SpecFloat.S754_finite false m e) by (vm_compute; reflexivity) end; cbn; unfold F2R; cbn; lra].

Lemma c_2451545 : near (round_ratio 2451545 1) 2451545 0. Proof. lit_near 5264652799836160%positive (-31)%Z. Qed.
Lemma c_36525 : toR (round_ratio 36525 1) = 36525. Proof. assert (near (round_ratio 36525 1) 36525 0) as [_ H] by lit_near 5019957775564800%positive (-37)%Z. lra. Qed.
Lemma c_86400 : toR (round_ratio 86400 1) = 86400. Proof. assert (near (round_ratio 86400 1) 86400 0) as [_ H] by lit_near 5937362789990400%positive (-36)%Z. lra. Qed.
Lemma c_360 : toR (round_ratio 360 1) = 360. Proof. assert (near (round_ratio 360 1) 360 0) as [_ H] by lit_near 6333186975989760%positive (-44)%Z. lra. Qed.
Lemma c_24110 : near (round_ratio 2411054841 100000) (2411054841 / 100000) (/ 100000000000). Proof. lit_near 6627457082212787%positive (-38)%Z. Qed.
Lemma c_864 : near (round_ratio 8640184812866 1000000) (8640184812866 / 1000000) (/ 1000000000). Proof. lit_near 4638663900331919%positive (-29)%Z. Qed.
Lemma c_93 : near (round_ratio 93104 1000000) (93104 / 1000000) (/ 100000000000000000). Proof. lit_near 6708850235307243%positive (-56)%Z. Qed.
Lemma c_62 : near (round_ratio 62 10000000) (62 / 10000000) (/ 100000000000000000000). Proof. lit_near 7319668048447950%positive (-70)%Z. Qed.

Definition S_of (d0 : R) : R := let T := (d0 - 2451545) / 36525 in
  (2411054841 / 100000 + T * (8640184812866 / 1000000 + T * (93104 / 1000000 - T * (62 / 10000000)))) / 86400.

Lemma sid64_near jm d0 : near jm d0 (/ 1000000000) -> -1 <= d0 <= 8388609 -> near (sid64 jm) (S_of d0) (/ 25000000000) /\ -8000 <= S_of d0 <= 20000.
Proof.
  intros N B. unfold sid64. cbv zeta.
  assert (N1 : near (fsub jm (round_ratio 2451545 1)) (d0 - 2451545) (3 / 2000000000)).
  { eapply near_weak; [eapply (near_sub jm (round_ratio 2451545 1) d0 2451545 _ _ _ 23 _ N c_2451545); [lia | reflexivity | reflexivity | |]; cbn; lra | cbn; lra]. }
  set (T := (d0 - 2451545) / 36525).
  assert (BT : -163 <= T <= 163) by (unfold T; lra).
  assert (NT : near (fdiv (fsub jm (round_ratio 2451545 1)) (round_ratio 36525 1)) T (/ 10000000000000)).
  { eapply near_weak; [eapply (near_div _ _ _ 36525 _ _ 8 _ N1 c_36525); [lra | lia | reflexivity | reflexivity | |]; cbn; lra | cbn; lra]. }
  set (t := fdiv _ (round_ratio 36525 1)) in *.
  assert (Na : near (fmul t (round_ratio 62 10000000)) (T * (62 / 10000000)) (/ 100000000000000000)).
  { eapply near_weak; [eapply (near_mul _ _ _ _ _ _ 163 (/ 100000) _ (-8) _ NT c_62); [lia | reflexivity | reflexivity | | | | |]; cbn; lra | cbn; lra]. }
  assert (Nb : near (fsub (round_ratio 93104 1000000) (fmul t (round_ratio 62 10000000))) (93104 / 1000000 - T * (62 / 10000000)) (/ 10000000000000000)).
  { eapply near_weak; [eapply (near_sub _ _ _ _ _ _ _ 0 _ c_93 Na); [lia | reflexivity | reflexivity | |]; cbn; lra | cbn; lra]. }
  set (b := fsub (round_ratio 93104 1000000) _) in *. set (Bv := 93104 / 1000000 - T * (62 / 10000000)) in *.
  assert (BB : -1 <= Bv <= 1) by (unfold Bv; lra).
  assert (Nc : near (fmul t b) (T * Bv) (/ 5000000000000)).
  { eapply near_weak; [eapply (near_mul _ _ _ _ _ _ 163 1 _ 8 _ NT Nb); [lia | reflexivity | reflexivity | | | | |]; cbn; lra | cbn; lra]. }
  set (c := fmul t b) in *. set (C := T * Bv) in *. assert (BC : -163 <= C <= 163) by (unfold C; nra).
  assert (Nd : near (fadd (round_ratio 8640184812866 1000000) c) (8640184812866 / 1000000 + C) (3 / 1000000000)).
  { eapply near_weak; [eapply (near_add _ _ _ _ _ _ _ 24 _ c_864 Nc); [lia | reflexivity | reflexivity | |]; cbn; lra | cbn; lra]. }
  set (d := fadd (round_ratio 8640184812866 1000000) c) in *. set (Dv := 8640184812866 / 1000000 + C) in *. assert (BD : 8640000 <= Dv <= 8640400) by (unfold Dv; lra).
  assert (Ne : near (fmul t d) (T * Dv) (/ 500000)).
  { eapply near_weak; [eapply (near_mul _ _ _ _ _ _ 163 8640400 _ 31 _ NT Nd); [lia | reflexivity | reflexivity | | | | |]; cbn; lra | cbn; lra]. }
  set (e := fmul t d) in *. set (E := T * Dv) in *.
  assert (BT' : -68 <= T <= 163) by (unfold T; lra).
  assert (BE : -600000000 <= E <= 1500000000) by (unfold E; nra).
  assert (Nf : near (fadd (round_ratio 2411054841 100000) e) (2411054841 / 100000 + E) (3 / 1000000)).
  { eapply near_weak; [eapply (near_add _ _ _ _ _ _ _ 31 _ c_24110 Ne); [lia | reflexivity | reflexivity | |]; cbn; lra | cbn; lra]. }
  set (f := fadd (round_ratio 2411054841 100000) e) in *. set (F := 2411054841 / 100000 + E) in *.
  assert (EF : S_of d0 = F / 86400) by reflexivity. rewrite EF. assert (BF : -600000000 <= F <= 1600000000) by (unfold F; lra).
  split; [|lra]. eapply near_weak; [eapply (near_div _ _ _ 86400 _ _ 15 _ Nf c_86400); [lra | lia | reflexivity | reflexivity | |]; cbn; lra | cbn; lra].
Qed.

Lemma to_long_ok x : fin x -> -1000000000 <= toR x <= 1000000000 -> exists z, to_long x = Ok z.
Proof.
  intros F B. unfold to_long. unfold fin in F. rewrite F. cbv zeta. rewrite Btrunc_R.
  assert (T := trunc_rem (toR x) 1 ltac:(lra)). unfold Rdiv in T. rewrite Rinv_1, Rmult_1_r, Rmult_1_r in T. apply Rabs_def2 in T.
  assert (L1 : (-1000000001 <= Ztrunc (toR x))%Z) by (apply le_IZR; lra). assert (L2 : (Ztrunc (toR x) <= 1000000001)%Z) by (apply le_IZR; lra).
  assert (E : ((- long_max - 1 <=? Ztrunc (toR x)) && (Ztrunc (toR x) <=? long_max) = true)%Z) by (apply andb_true_intro; unfold long_max; split; apply Z.leb_le; lia).
  rewrite E. eexists; reflexivity.
Qed.
Lemma near_self x : fin x -> near x (toR x) 0.
Proof. intros F. split; [exact F | lra]. Qed.

Lemma red64_near : forall n g, fin g -> toR g <= 24 * (INR n + 1) -> -100 <= toR g <= 200 ->
  exists r k, red64 n g = Ok r /\ near r (toR g - 24 * IZR k) (INR n * / 70368744177664) /\ (0 <= toR g -> 0 <= toR r) /\ toR r <= 24 /\ (-24 <= toR g -> -24 <= toR r).
Proof.
  induction n as [|n IH]; intros g F L B; destruct F24_R as [G1 G2].
  - cbn [INR] in *. exists g, 0%Z. cbn [red64]. destruct (flt F24 g) eqn:Q; [apply flt_R in Q; try assumption; lra|]. apply flt_false in Q; try assumption.
    split; [reflexivity|]. split; [split; [exact F | lra]|]. split; [auto|]. split; [lra | auto].
  - cbn [red64]. destruct (flt F24 g) eqn:Q.
    + apply flt_R in Q; try assumption. rewrite G2 in Q. rewrite S_INR in *.
      assert (N' : near (fsub g F24) (toR g - 24) (/ 70368744177664)).
      { eapply near_weak; [eapply (near_sub g F24 (toR g) 24 0 0 _ 8 _ (near_self g F)); [split; [exact G1 | lra] | lia | reflexivity | reflexivity | |]; cbn; lra | cbn; lra]. }
      destruct N' as [F' H']. destruct (fsub_R g F24 8 F G1) as [_ V]; [lia | rewrite G2; apply Rabs_le; cbn; lra|]. rewrite G2 in V.
      assert (P : 0 <= toR (fsub g F24)) by (rewrite V; apply (RN_int_ge _ 0); [lia | lra]).
      assert (U2 : toR (fsub g F24) <= IZR 176) by (rewrite V; apply RN_int_le; [lia | lra]).
      assert (U : toR (fsub g F24) <= 24 * (INR n + 1)).
      { rewrite V. assert (C : 24 * (INR n + 1) <= 176 \/ 176 <= 24 * (INR n + 1)) by lra. destruct C as [C|C]; [|rewrite <- V; lra].
        rewrite INR_IZR_INZ in *. replace (24 * (IZR (Z.of_nat n) + 1)) with (IZR (24 * (Z.of_nat n + 1))) in * by (rewrite mult_IZR, plus_IZR; reflexivity).
        apply le_IZR in C. apply RN_int_le; [lia|]. replace (IZR (Z.of_nat n) + 1 + 1) with (IZR (Z.of_nat n + 1) + 1) in L by (rewrite plus_IZR; ring).
        rewrite mult_IZR. lra. }
      destruct (IH (fsub g F24) F' U ltac:(lra)) as (r & k & R1 & R2 & R3 & R4 & R5).
      exists r, (k + 1)%Z. split; [exact R1|]. split; [|split; [auto|split; [exact R4 | intros _; apply R5; lra]]].
      rewrite plus_IZR. destruct R2 as [FR HR]. split; [exact FR|]. assert (0 <= INR n) by apply pos_INR. lra.
    + apply flt_false in Q; try assumption. rewrite G2 in Q. exists g, 0%Z. split; [reflexivity|]. assert (0 <= INR (S n)) by apply pos_INR. split; [split; [exact F | lra]|]. auto.
Qed.

Lemma S_of_eq jd0 : S_of jd0 = sidereal_at_midnight jd0 / 86400.
Proof.
  unfold S_of, sidereal_at_midnight. cbv zeta. set (T := (jd0 - 2451545) / 36525). replace 24110.54841 with (2411054841 / 100000) by lra. replace 8640184.812866 with (8640184812866 / 1000000) by lra.
  replace 0.093104 with (93104 / 1000000) by lra. replace 6.2e-6 with (62 / 10000000) by lra. field.
Qed.

Ltac bp := try change (bpow radix2 3) with 8; try change (bpow radix2 5) with 32; try change (bpow radix2 6) with 64; try change (bpow radix2 7) with 128.
Lemma sidereal64_near m jd lon : fin jd -> fin lon -> 0 <= toR jd <= 8388608 -> -1000 <= toR lon <= 1000 ->
  exists l g, lmst_hr (machine m) jd lon = Ok (l, g)
    /\ fin l /\ 0 <= toR l <= 24 /\ (exists k, Rabs (toR l - (gmst_hours (toR jd) + toR lon / 15 - 24 * IZR k)) <= / 500000000)
    /\ fin g /\ -24 <= toR g <= 24 /\ (exists k, Rabs (toR g - (gmst_hours (toR jd) - 24 * IZR k)) <= / 500000000)
    /\ (2451545 <= toR jd -> 0 <= toR g).
Proof.
  intros FJ FL BJ BL. rewrite lmst64_eq. unfold lmst64.
  destruct (to_long_ok jd FJ ltac:(lra)) as [jz TJ]. rewrite TJ. cbn [bind]. cbv zeta.
  destruct (frac_exact jd jz TJ) as (_ & Ez & FO & VO & FF & VF).
  assert (ZJ : IZR jz <= toR jd < IZR jz + 1). { rewrite Ez, Ztrunc_floor by lra. assert (A := Zfloor_lb (toR jd)). assert (A' := Zfloor_ub (toR jd)). lra. }
  assert (IP : Int_part (toR jd) = jz) by (apply Int_part_unique; lra).
  destruct F05_R as [H1 H2].
  assert (DS : exists jm ut, (if flt (fsub jd (of_int jz)) F05 then (fsub (of_int jz) F05, fadd (fsub jd (of_int jz)) F05) else (fadd (of_int jz) F05, fsub (fsub jd (of_int jz)) F05)) = (jm, ut)
     /\ near jm (day_start (toR jd)) (/ 1000000000) /\ near ut (toR jd - day_start (toR jd)) (/ 1000000000000000) /\ 0 <= toR ut <= 1 /\ 0 <= toR jd - day_start (toR jd) < 1).
  { unfold day_start. destruct (flt (fsub jd (of_int jz)) F05) eqn:Q; [apply flt_R in Q; try assumption | apply flt_false in Q; try assumption]; rewrite VF, H2 in Q.
    - rewrite (Int_part_unique (toR jd - 1 / 2) (jz - 1)); rewrite minus_IZR; [|lra]. eexists _, _. split; [reflexivity|].
      split. { eapply near_weak; [eapply near_eq; [eapply (near_sub (of_int jz) F05 (IZR jz) (1 / 2) 0 0 _ 24 _); [split; [exact FO | lra] | split; [exact H1 | lra] | lia | reflexivity | reflexivity | |]; cbn; lra | lra] | cbn; lra]. }
      split. { eapply near_weak; [eapply near_eq; [eapply (near_add (fsub jd (of_int jz)) F05 (toR jd - IZR jz) (1 / 2) 0 0 _ 1 _); [split; [exact FF | lra] | split; [exact H1 | lra] | lia | reflexivity | reflexivity | |]; cbn; lra | lra] | cbn; lra]. }
      split; [|lra]. destruct (fadd_R (fsub jd (of_int jz)) F05 2 FF H1) as [_ V]; [lia | rewrite VF, H2; apply Rabs_le; cbn; lra|]. rewrite V, VF, H2.
      split; [apply (RN_int_ge _ 0) | apply (RN_int_le _ 1)]; try lia; lra.
    - rewrite (Int_part_unique (toR jd - 1 / 2) jz); [|lra]. eexists _, _. split; [reflexivity|].
      split. { eapply near_weak; [eapply near_eq; [eapply (near_add (of_int jz) F05 (IZR jz) (1 / 2) 0 0 _ 24 _); [split; [exact FO | lra] | split; [exact H1 | lra] | lia | reflexivity | reflexivity | |]; cbn; lra | lra] | cbn; lra]. }
      split. { eapply near_weak; [eapply near_eq; [eapply (near_sub (fsub jd (of_int jz)) F05 (toR jd - IZR jz) (1 / 2) 0 0 _ 1 _); [split; [exact FF | lra] | split; [exact H1 | lra] | lia | reflexivity | reflexivity | |]; cbn; lra | lra] | cbn; lra]. }
      split; [|lra]. destruct (fsub_R (fsub jd (of_int jz)) F05 2 FF H1) as [_ V]; [lia | rewrite VF, H2; apply Rabs_le; cbn; lra|]. rewrite V, VF, H2.
      split; [apply (RN_int_ge _ 0) | apply (RN_int_le _ 1)]; try lia; lra. }
  destruct DS as (jm & ut & PE & NJ & NU & BU & BU'). rewrite PE. set (d0 := day_start (toR jd)) in *.
  destruct (sid64_near jm d0 NJ ltac:(lra)) as [NS BS]. set (s := sid64 jm) in *. set (S0 := S_of d0) in *.
  destruct (to_long_ok s (proj1 NS)) as [sz TS]. { destruct NS. lra. } rewrite TS. cbn [bind].
  destruct (frac_exact s sz TS) as (_ & Esz & _ & _ & FFs & VFs). assert (Bs := frac_small s sz TS). apply Rabs_def2 in Bs.
  assert (NF : near (fsub s (of_int sz)) (S0 - IZR sz) (/ 25000000000)) by (split; [exact FFs|]; rewrite VFs; destruct NS; lra).
  destruct FS_R as [F1 F2]. apply Rabs_le_inv in F2.
  set (ratio := 100273790934 / 100000000000) in *. set (day := toR jd - d0) in *.
  assert (NM : near (fmul FS ut) (ratio * day) (/ 100000000000000)).
  { eapply near_weak; [eapply (near_mul FS ut ratio day (/ 1000000000000000) (/ 1000000000000000) 2 1 _ 2 _ (conj F1 F2) NU); [lia | reflexivity | reflexivity | | | | |]; unfold ratio in *; cbn; lra | cbn; lra]. }
  assert (BM : 0 <= toR (fmul FS ut) <= 2).
  { assert (FB : 1 <= toR FS <= 2) by (unfold ratio in F2; lra). assert (PB : 0 <= toR FS * toR ut <= 2) by nra.
    destruct (fmul_R FS ut 3 F1 (proj1 NU)) as [_ V]; [lia | change (bpow radix2 3) with 8; apply Rabs_le; lra|]. rewrite V. split; [apply (RN_int_ge _ 0) | apply (RN_int_le _ 2)]; try lia; lra. }
  assert (BP : 0 <= ratio * day <= 2) by (unfold ratio; nra).
  assert (NG : near (fadd (fsub s (of_int sz)) (fmul FS ut)) (S0 - IZR sz + ratio * day) (/ 24900000000)).
  { eapply near_weak; [eapply (near_add _ _ _ _ _ _ _ 2 _ NF NM); [lia | reflexivity | reflexivity | |]; destruct NF; rewrite ?VFs in *; cbn; lra | cbn; lra]. }
  assert (BG : -1 <= toR (fadd (fsub s (of_int sz)) (fmul FS ut)) <= 3 /\ (0 <= toR (fsub s (of_int sz)) -> 0 <= toR (fadd (fsub s (of_int sz)) (fmul FS ut)))).
  { destruct (fadd_R _ _ 3 FFs (proj1 NM)) as [_ V]; [lia | bp; apply Rabs_le; lra|]. rewrite V. split; [split; [apply (RN_int_ge _ (-1)) | apply (RN_int_le _ 3)]; try lia; lra|]. intros. apply (RN_int_ge _ 0); [lia | lra]. }
  set (g := fadd (fsub s (of_int sz)) (fmul FS ut)) in *. set (G := S0 - IZR sz + ratio * day) in *. destruct BG as [BG BGp].
  destruct F24_R as [G1 G2].
  assert (NG' := NG). destruct NG' as [FG HG].
  assert (N24 : near (fmul g F24) (G * 24) (24 * / 24800000000)).
  { eapply near_weak; [eapply (near_mul g F24 G 24 _ 0 4 24 _ 7 _ NG); [split; [exact G1 | lra] | lia | reflexivity | reflexivity | | | | |]; cbn; lra | cbn; lra]. }
  destruct (fmul_R g F24 7 FG G1) as [Fm Vm]; [lia | rewrite G2; bp; apply Rabs_le; lra|]. rewrite G2 in Vm.
  assert (Bm : IZR (-24) <= toR (fmul g F24) <= IZR 72) by (rewrite Vm; split; [apply RN_int_ge | apply RN_int_le]; try lia; lra).
  destruct (red64_near 4 (fmul g F24) Fm) as (r & k & R1 & R2 & R3 & R4 & R5). { cbn [INR]. lra. } { lra. }
  rewrite R1. cbn [bind].
  assert (NL : near (fdiv lon (round_ratio 360 1)) (toR lon / 360) (/ 1000000000000000)).
  { eapply near_weak; [eapply (near_div lon (round_ratio 360 1) (toR lon) 360 0 _ 2 _ (near_self lon FL) c_360); [lra | lia | reflexivity | reflexivity | |]; cbn; lra | cbn; lra]. }
  assert (NQ : near (fadd g (fdiv lon (round_ratio 360 1))) (G + toR lon / 360) (/ 24800000000)).
  { eapply near_weak; [eapply (near_add _ _ _ _ _ _ _ 3 _ NG NL); [lia | reflexivity | reflexivity | |]; cbn; lra | cbn; lra]. }
  set (q := fadd g _) in *. destruct (to_long_ok q (proj1 NQ)) as [qz TQ]. { destruct NQ. lra. } rewrite TQ. cbn [bind].
  destruct (frac_exact q qz TQ) as (_ & Eqz & _ & _ & FFq & VFq). assert (Bq := frac_small q qz TQ).
  destruct (hours_range _ FFq Bq) as (L1 & L2 & L3). fold (last64 q qz) in L1, L2, L3. apply Rabs_def2 in Bq.
  assert (EG : gmst_hours (toR jd) = 24 * (S0 + ratio * day)). { unfold gmst_hours. fold d0. rewrite <- S_of_eq. fold S0 day. unfold ratio. replace 1.00273790934 with (100273790934 / 100000000000) by lra. ring. }
  exists (last64 q qz), r. split; [reflexivity|]. split; [exact L1|]. split; [exact L2|]. split; [|split; [apply R2|split; [split; [apply R5; lra | exact R4]|split]]].
  - destruct NQ as [_ HQ]. rewrite VFq in L3.
    assert (ER : Rabs (RN ((toR q - IZR qz) * 24) - (toR q - IZR qz) * 24) <= bpow radix2 (5 - 54)) by (apply RN_err; [lia | bp; apply Rabs_le; lra]).
    apply Rabs_le_inv in ER. replace (bpow radix2 (5 - 54)) with (/ 562949953421312) in ER by reflexivity.
    destruct L3 as [-> | ->].
    + exists (sz + qz)%Z. rewrite plus_IZR. apply Rabs_le. rewrite EG. unfold G in HQ. lra.
    + assert (ER2 : Rabs (RN (RN ((toR q - IZR qz) * 24) + 24) - (RN ((toR q - IZR qz) * 24) + 24)) <= bpow radix2 (6 - 54)) by (apply RN_err; [lia | bp; apply Rabs_le; lra]).
      apply Rabs_le_inv in ER2. replace (bpow radix2 (6 - 54)) with (/ 281474976710656) in ER2 by reflexivity.
      exists (sz + qz - 1)%Z. rewrite minus_IZR, plus_IZR. apply Rabs_le. rewrite EG. unfold G in HQ. lra.
  - destruct R2 as [_ HR]. destruct N24 as [_ H24]. exists (sz + k)%Z. rewrite plus_IZR. apply Rabs_le. rewrite EG. unfold G in H24. cbn [INR] in HR. lra.
  - intros JJ. apply R3. rewrite Vm. apply (RN_int_ge _ 0); [lia|]. assert (0 <= toR g); [|lra]. apply BGp. rewrite VFs, Esz.
    assert (P : 0 <= toR s). { destruct NS as [_ HS]. assert (2451544 <= d0 <= 8388609) by (unfold day in BU'; lra). assert (27 / 100 <= S0); [|lra].
      unfold S0, S_of. cbv zeta. set (T := (d0 - 2451545) / 36525). assert (-1 / 36525 <= T <= 163) by (unfold T; lra).
      assert (-1 <= 93104 / 1000000 - T * (62 / 10000000) <= 1) by lra. set (b := 93104 / 1000000 - T * (62 / 10000000)) in *. assert (-163 <= T * b <= 163) by nra.
      assert (-300 <= T * (8640184812866 / 1000000 + T * b)) by nra. lra. }
    rewrite Ztrunc_floor by exact P. assert (A := Zfloor_lb (toR s)). lra.
Qed.
