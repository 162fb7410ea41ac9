(** Every direction has a 64-bit pixel number of the nested scheme in range, except at the corner of C22. *)
From Coq Require Import ZArith List Bool Reals Lra Lia Psatz.
From Flocq Require Import Core IEEE754.BinarySingleNaN.
From Verif Require Import CLib FloatModel FloatLemmas GeoLemmas TleProofs3 PipeProofs5 CalendarProofs2 CalendarProofs3 CalendarProofs4.
From Verif Require Import HealpixModel HealpixSpec HealpixAngModel HealpixRealModel HealpixFloatModel HealpixFloatSpec HealpixAng64Model HealpixAng64Spec HealpixVecModel HealpixVecSpec HealpixProofs1 HealpixProofs2 HealpixProofs3 HealpixProofs4 HealpixProofs5 HealpixProofs6 HealpixProofs7 HealpixProofs8 HealpixProofs9 HealpixProofs10 HealpixProofs11 HealpixProofs12 HealpixProofs13 HealpixProofs14 HealpixProofs15 HealpixProofs16 HealpixProofs17 HealpixProofs18 HealpixProofs19 HealpixProofs20 HealpixProofs21 HealpixProofs22 HealpixProofs23 HealpixProofs24.
Import ListNotations.
Open Scope R_scope.

Lemma trunc_to_long x M : fin x -> (0 <= M <= 1000000000000)%Z -> 0 <= toR x -> toR x < IZR M + 1 -> exists j, to_long x = Ok j /\ (0 <= j <= M)%Z /\ j = Ztrunc (toR x).
Proof.
  intros F HM H0 H1. destruct (trunc_bounds (toR x)) as [T _]. specialize (T H0).
  set (j := Ztrunc (toR x)) in *. assert (-1 < j)%Z by (apply lt_IZR; lra).
  assert (j < M + 1)%Z by (apply lt_IZR; rewrite plus_IZR; lra).
  exists j. split; [|lia]. apply to_long_R; [exact F|unfold long_max; fold j; lia].
Qed.

(** The equatorial belt. *)
Lemma belt_ok64 : forall a z s phi, (0 <= a <= 29)%Z -> fin z -> fin phi -> fle (Babs z) twothird = true -> ~ corner z phi ->
  exists x y f, ang2xyf64 (2 ^ a) z s phi = Ok (x, y, f) /\ on_grid (2 ^ a) x y f.
Proof.
  intros a z s phi Ha Fz Fp C NC. unfold ang2xyf64. rewrite C.
  destruct (turn_R phi Fp) as (FT & BT & BT'). set (tt := fmul (fmodulo phi twopi) inv_halfpi) in *.
  destruct half_R' as [FH EH]. destruct lit34 as [F34 E34]. destruct twothird_R as [F23 E23].
  assert (FA: fin (Babs z)) by (unfold fin; rewrite is_finite_Babs; exact Fz).
  apply fle_R in C; [|assumption..]. rewrite B2R_Babs, E23 in C.
  assert (ZB: - (6004799503160661 / 9007199254740992) <= toR z <= 6004799503160661 / 9007199254740992) by (apply Rabs_le_inv; exact C).
  (* 0.5 + tt *)
  destruct (fadd_R (lit 1 2) tt 3 FH FT) as [FA1 EA1]; [lia| |].
  { rewrite EH, bpow_pos. change (IZR (2 ^ 3)) with 8. rewrite Rabs_pos_eq; lra. }
  set (A := fadd (lit 1 2) tt) in *. rewrite EH in EA1.
  assert (A1: / 2 <= toR A <= 9 / 2).
  { rewrite EA1. split.
    - apply (RN_lb (-1) 1); [lia|unfold fx; rewrite bpow_neg; change (IZR (2 ^ 1)) with 2; lra|lia|lra].
    - apply (RN_ub (-1) 9); [lia|unfold fx; rewrite bpow_neg; change (IZR (2 ^ 1)) with 2; lra|lia|lra]. }
  assert (A2: toR (fmodulo phi twopi) <> toR last_phi -> toR A <= 9 / 2 - / 1125899906842624).
  { intro N. specialize (BT' N). rewrite EA1.
    apply (RN_ub (-50) 5066549580791807); [lia|unfold fx; rewrite bp50; lra|lia|lra]. }
  (* 0.75 z *)
  destruct (fmul_R z (lit 3 4) 0 Fz F34) as [FB EB]; [lia| |].
  { rewrite E34. change (bpow radix2 0) with 1. apply Rabs_le. lra. }
  set (B := fmul z (lit 3 4)) in *. rewrite E34 in EB.
  assert (B1: - / 2 <= toR B <= / 2).
  { rewrite EB. split.
    - apply (RN_lb (-1) (-1)); [lia|unfold fx; rewrite bpow_neg; change (IZR (2 ^ 1)) with 2; lra|lia|lra].
    - apply (RN_ub (-1) 1); [lia|unfold fx; rewrite bpow_neg; change (IZR (2 ^ 1)) with 2; lra|lia|lra]. }
  assert (B2: - (66666666666666 / 100000000000000) <= toR z -> - (1 / 2) + / 1125899906842624 <= toR B).
  { intro N. rewrite EB.
    apply (RN_lb (-50) (-562949953421311)); [lia|unfold fx; rewrite bp50; lra|lia|lra]. }
  destruct (scale_exact a A) as [FT1 ET1]; [lia|exact FA1|apply Rabs_le; lra|].
  destruct (scale_exact a B) as [FT2 ET2]; [lia|exact FB|apply Rabs_le; lra|].
  set (n := (2 ^ a)%Z) in *. set (t1 := fmul (of_int n) A) in *. set (t2 := fmul (of_int n) B) in *.
  set (N := bpow radix2 a) in *.
  assert (NE: N = IZR n) by (apply power_R; lia).
  assert (N1: (1 <= n <= 536870912)%Z).
  { split; [assert (0 < n)%Z by (apply Z.pow_pos_nonneg; lia); lia|]. change 536870912%Z with (2 ^ 29)%Z. apply Z.pow_le_mono_r; lia. }
  assert (N1': 1 <= N <= 536870912) by (rewrite NE; split; apply IZR_le; lia).
  assert (NC1: toR A - toR B <= 5 - / 1125899906842624).
  { destruct (Rle_lt_dec (- (66666666666666 / 100000000000000)) (toR z)) as [G|L].
    - specialize (B2 G). lra.
    - assert (toR (fmodulo phi twopi) <> toR last_phi) as K by (intro K; apply NC; split; assumption). specialize (A2 K). lra. }
  assert (LIM: forall w, fin w -> forall r, toR w = RN (N * r) -> 0 <= r -> r <= 5 - / 1125899906842624 ->
    exists j, to_long w = Ok j /\ (0 <= j < 5 * n)%Z).
  { intros w Fw r Ew R0 R1. assert (W0: 0 <= toR w) by (rewrite Ew; apply (RN_int_ge _ 0); [lia|nra]).
    assert (W1: toR w <= N * (5629499534213119 * bpow radix2 (-50))).
    { rewrite Ew. apply RN_scaled_le; [lia|lia|]. apply Rmult_le_compat_l; [fold N; lra|]. rewrite bp50. lra. }
    rewrite bp50 in W1. destruct (trunc_to_long w (5 * n - 1)) as (j & Ej & Bj & _); [exact Fw|lia|exact W0| |exists j; split; [exact Ej|lia]].
    rewrite minus_IZR, mult_IZR, <- NE. nra. }
  destruct (fsub_R t1 t2 33 FT1 FT2) as [FS ES]; [lia| |].
  { rewrite ET1, ET2, bpow_pos. change (IZR (2 ^ 33)) with 8589934592. fold N. apply Rabs_le. nra. }
  destruct (fadd_R t1 t2 33 FT1 FT2) as [FP EP]; [lia| |].
  { rewrite ET1, ET2, bpow_pos. change (IZR (2 ^ 33)) with 8589934592. fold N. apply Rabs_le. nra. }
  rewrite ET1, ET2 in ES, EP. rewrite <- Rmult_minus_distr_l in ES. rewrite <- Rmult_plus_distr_l in EP. fold N in ES, EP.
  destruct (LIM _ FS _ ES) as (jp & -> & Jp); [lra|exact NC1|]. cbn [bind].
  assert (M: exists jm, to_long (fadd t1 t2) = Ok jm /\ (0 <= jm <= 5 * n)%Z).
  { assert (W0: 0 <= toR (fadd t1 t2)) by (rewrite EP; apply (RN_int_ge _ 0); [lia|nra]).
    assert (W1: toR (fadd t1 t2) <= N * 5).
    { rewrite EP. replace (N * 5) with (N * (5629499534213120 * bpow radix2 (-50))) by (rewrite bp50; lra). apply RN_scaled_le; [lia|lia|].
      apply Rmult_le_compat_l; [fold N; lra|]. rewrite bp50. lra. }
    destruct (trunc_to_long (fadd t1 t2) (5 * n)) as (jm & Ejm & Bjm & _); [exact FP|lia|exact W0|rewrite mult_IZR, <- NE; lra|].
    exists jm. split; [exact Ejm|exact Bjm]. }
  destruct M as (jm & -> & Jm). cbn [bind]. eexists _, _, _. split; [reflexivity|].
  unfold n. replace (2 ^ a - 1)%Z with (Z.ones a) by (rewrite Z.ones_equiv; lia). rewrite !Z.land_ones by lia. fold n.
  pose proof (Z.mod_pos_bound jm n ltac:(lia)). pose proof (Z.mod_pos_bound jp n ltac:(lia)).
  rewrite !Z.quot_div_nonneg by lia. unfold on_grid. split; [lia|]. split; [lia|]. apply face_range.
  - split; [apply Z.div_pos; lia|]. assert (jp / n < 5)%Z by (apply Z.div_lt_upper_bound; lia). lia.
  - split; [apply Z.div_pos; lia|]. assert (jm / n < 6)%Z by (apply Z.div_lt_upper_bound; lia). lia.
Qed.

(** The polar caps. *)
Lemma cap_rings_ok n z s : (1 <= n <= 536870912)%Z -> fin z -> Rabs (toR z) <= 1 -> fle (Babs z) twothird = false -> s = of_int (-5) \/ (fin s /\ 0 <= toR s <= 1 / 5) ->
  fin (cap_rings64 (of_int n) z s) /\ 0 <= toR (cap_rings64 (of_int n) z s) <= IZR n + 1 / 1000.
Proof.
  intros Hn Fz Z1 C HS. assert (NB : 1 <= IZR n <= 536870912) by (split; apply IZR_le; lia).
  unfold cap_rings64. destruct HS as [-> |[FS BS]].
      - replace (flt (of_int (-2)) (of_int (-5))) with false by (vm_compute; reflexivity). destruct (root_ok z Fz Z1 C) as [FR BR]. exact (rings_ok n _ Hn FR BR).
      - destruct (near_int (-2) ltac:(lia)) as [F2 D2]. apply Rabs_le_inv in D2. replace (flt (of_int (-2)) s) with true by (symmetry; apply flt_R; [exact F2|exact FS|lra]).
        destruct twothird_R as [F23 E23]. assert (FA: fin (Babs z)) by (unfold fin; rewrite is_finite_Babs; exact Fz). assert (C' := C). apply fle_false in C'; [|assumption..]. rewrite B2R_Babs, E23 in C'. set (za := Rabs (toR z)) in *.
        assert (NA := near_exact _ FA). rewrite B2R_Babs in NA. fold za in NA. assert (N1 := near_add _ _ _ _ _ _ 1 (near_int 1 ltac:(lia)) NA ltac:(lia)). change (bpow radix2 1) with 2 in N1. specialize (N1 ltac:(rewrite !Rabs_pos_eq; lra)). change (1 - 54)%Z with (-53)%Z in N1. rewrite bp53 in N1.
        assert (N3 := near_div _ 3 _ _ 1 N1 ltac:(lia) ltac:(lia)). change (bpow radix2 1) with 2 in N3. specialize (N3 ltac:(rewrite Rabs_pos_eq; lra)). change (1 - 54)%Z with (-53)%Z in N3. rewrite bp53 in N3. destruct N3 as [F3 D3]. apply Rabs_le_inv in D3. set (g := fdiv (fadd (of_int 1) (Babs z)) (of_int 3)) in *.
        destruct (fsqrt_R g F3 ltac:(lra)) as [FR ER]. assert (R1 : 1 / 2 <= toR (fsqrt g)). { rewrite ER. assert (H2 : RN (1 / 2) = 1 / 2) by (apply (RN_fx (-1) 1); [lia|unfold fx; change (bpow radix2 (-1)) with (/ 2); lra|lia]). rewrite <- H2. apply RN_le. assert (Q := sqrt_sqrt (toR g) ltac:(lra)). assert (Q0 := sqrt_pos (toR g)). set (w := sqrt (toR g)) in *. destruct (Rle_lt_dec (1 / 2) w) as [|W]; [assumption|exfalso]. assert (w * w < 1 / 2 * (1 / 2)) by (apply Rmult_le_0_lt_compat; lra). lra. }
        destruct (of_int_R n ltac:(lia)) as [FN EN]. assert (P0 : 0 <= IZR n * toR s) by (apply Rmult_le_pos; lra). assert (P1 : IZR n * toR s <= IZR n * (1 / 5)) by (apply Rmult_le_compat_l; lra).
        destruct (fmul_R (of_int n) s 30 FN FS ltac:(lia)) as [G E]; [rewrite EN; change (bpow radix2 30) with 1073741824; rewrite Rabs_pos_eq; lra|]. rewrite EN in E. assert (X := RN_err (IZR n * toR s) 30 ltac:(lia)). change (bpow radix2 30) with 1073741824 in X. specialize (X ltac:(rewrite Rabs_pos_eq; lra)). change (30 - 54)%Z with (-24)%Z in X. rewrite bp24, <- E in X. apply Rabs_le_inv in X.
        assert (M0 : 0 <= toR (fmul (of_int n) s)) by (rewrite E; apply (RN_int_ge _ 0); [lia|lra]). set (a := fmul (of_int n) s) in *. set (w := toR (fsqrt g)) in *.
        assert (Q0 : 0 <= toR a / w) by (apply Rmult_le_pos; [lra|apply Rlt_le, Rinv_0_lt_compat; lra]). assert (Q1 : toR a / w <= 2 * toR a). { unfold Rdiv. assert (I : / w <= 2) by (replace 2 with (/ (1 / 2)) by field; apply Rinv_le_contravar; lra). assert (toR a * / w <= toR a * 2) by (apply Rmult_le_compat_l; lra). lra. }
        destruct (fdiv_R a (fsqrt g) 30 G ltac:(fold w; lra) ltac:(lia)) as [FQ EQ]; [fold w; change (bpow radix2 30) with 1073741824; rewrite Rabs_pos_eq; lra|]. fold w in EQ. split; [exact FQ|]. rewrite EQ. split; [apply (RN_int_ge _ 0); [lia|exact Q0]|].
        assert (Y := RN_err (toR a / w) 30 ltac:(lia)). change (bpow radix2 30) with 1073741824 in Y. specialize (Y ltac:(rewrite Rabs_pos_eq; lra)). change (30 - 54)%Z with (-24)%Z in Y. rewrite bp24 in Y. apply Rabs_le_inv in Y. lra.
Qed.
Lemma cap_ok64 n z s phi : (1 <= n <= 536870912)%Z -> fin z -> fin phi -> Rabs (toR z) <= 1 -> fle (Babs z) twothird = false -> s = of_int (-5) \/ (fin s /\ 0 <= toR s <= 1 / 5) ->
  exists x y f, ang2xyf64 n z s phi = Ok (x, y, f) /\ on_grid n x y f.
Proof.
  intros Hn Fz Fp Z1 C HS. destruct (cap_rings_ok n z s Hn Fz Z1 C HS) as [FM BM]. assert (NB : 1 <= IZR n <= 536870912) by (split; apply IZR_le; lia).
  unfold ang2xyf64. rewrite C. destruct (turn_R phi Fp) as (FT & BT & _). set (tt := fmul (fmodulo phi twopi) inv_halfpi) in *. set (tmp := cap_rings64 (of_int n) z s) in *. clearbody tmp.
  destruct (of_int_R 1) as [F1 E1]; [lia|].
  destruct (trunc_to_int tt 3 FT) as (q & -> & Bq & Tq); [lia|lra|lra|]. cbn [bind].
  rewrite (proj2 (Z.leb_gt 4 q)) by lia. destruct (trunc_bounds (toR tt)) as [TB _]. specialize (TB (proj1 BT)). rewrite <- Tq in TB.
  destruct (of_int_R q) as [FQ EQ]; [lia|].
  destruct (fsub_R tt (of_int q) 3 FT FQ) as [FP EP]; [lia|rewrite EQ, bpow_pos; change (IZR (2 ^ 3)) with 8; apply Rabs_le; lra|].
  set (tp := fsub tt (of_int q)) in *. rewrite EQ in EP.
  assert (P1: 0 <= toR tp <= 1) by (rewrite EP; split; [apply (RN_int_ge _ 0)|apply (RN_int_le _ 1)]; [lia|lra|lia|lra]).
  destruct (fsub_R (of_int 1) tp 3 F1 FP) as [FD ED]; [lia|rewrite E1, bpow_pos; change (IZR (2 ^ 3)) with 8; apply Rabs_le; lra|].
  set (tm := fsub (of_int 1) tp) in *. rewrite E1 in ED.
  assert (M1: 0 <= toR tm <= 1) by (rewrite ED; split; [apply (RN_int_ge _ 0)|apply (RN_int_le _ 1)]; [lia|lra|lia|lra]).
  assert (K: forall w, fin w -> 0 <= toR w <= 1 -> exists j, to_long (fmul w tmp) = Ok j /\ (0 <= j <= 1073741824)%Z).
  { intros w Fw Bw.
    destruct (fmul_R w tmp 30 Fw FM) as [FW EW]; [lia|change (bpow radix2 30) with 1073741824; apply Rabs_le; nra|].
    assert (W: 0 <= toR (fmul w tmp) <= 1073741824) by (rewrite EW; split; [apply (RN_int_ge _ 0)|apply (RN_int_le _ 1073741824)]; [lia|nra|lia|nra]).
    destruct (trunc_to_long (fmul w tmp) 1073741824 FW) as (j & E & B & _); [lia|lra|lra|]. exists j. split; [exact E|exact B]. }
  destruct (K tp FP P1) as (jp & -> & Jp). destruct (K tm FD M1) as (jm & -> & Jm). cbn [bind].
  assert (WI : forall j, (0 <= j <= 1073741824)%Z -> wrap_int j = j) by (intros j Bj; unfold wrap_int; rewrite Z.mod_small; lia).
  rewrite (WI jp Jp), (WI jm Jm).
  set (jp' := if (n <=? jp)%Z then (n - 1)%Z else jp). set (jm' := if (n <=? jm)%Z then (n - 1)%Z else jm).
  assert (Jp': (0 <= jp' < n)%Z) by (unfold jp'; destruct (Z.leb_spec n jp); lia).
  assert (Jm': (0 <= jm' < n)%Z) by (unfold jm'; destruct (Z.leb_spec n jm); lia).
  destruct (fle (of_int 0) z); eexists _, _, _; (split; [reflexivity|unfold on_grid; lia]).
Qed.
Lemma pixel_ok64 nside z s phi : power_of_two_upto 29 nside -> fin z -> fin phi -> Rabs (toR z) <= 1 -> s = of_int (-5) \/ (fin s /\ 0 <= toR s <= 1 / 5) -> ~ corner z phi ->
  exists p, ang2pix_nest_z_phi64 nside z s phi = Ok p /\ valid_pixel nside p.
Proof.
  intros H Fz Fp Z1 HS NC. pose proof H as H'. destruct H' as (a & Ha & ->). unfold ang2pix_nest_z_phi64.
  assert (B : (1 <= 2 ^ a <= 536870912)%Z) by (split; [assert (0 < 2 ^ a)%Z by (apply Z.pow_pos_nonneg; lia); lia|change 536870912%Z with (2 ^ 29)%Z; apply Z.pow_le_mono_r; lia]).
  assert (X: exists x y f, ang2xyf64 (2 ^ a) z s phi = Ok (x, y, f) /\ on_grid (2 ^ a) x y f).
  { destruct (fle (Babs z) twothird) eqn:C; [now apply belt_ok64|now apply cap_ok64]. }
  destruct X as (x & y & f & -> & G). cbn [bind]. destruct (nest_encode64 (2 ^ a) x y f H G) as (q & -> & _ & V & _). eexists. split; [reflexivity|exact V].
Qed.
(** The function a program calls, with any [cos] and [sin] that stay in their ranges. *)
Lemma nest_public64 (fc fs : b64 -> b64) n theta phi : (forall x, fin x -> 0 <= toR x <= toR hp_pi -> fin (fc x) /\ Rabs (toR (fc x)) <= 1) ->
  (forall x, fin x -> 0 <= toR x <= toR hp_pi -> 98 / 100 <= Rabs (toR (fc x)) -> fin (fs x) /\ 0 <= toR (fs x) <= 1 / 5) -> power_of_two_upto 29 n ->
  fin theta -> 0 <= toR theta <= toR hp_pi -> fin phi -> ~ corner (fc theta) phi -> exists p, ang2pix_nest64 fc fs n theta phi = Ok (Some p) /\ valid_pixel n p.
Proof.
  intros G S H FT BT FP NC. destruct (G theta FT BT) as [FC BC].
  assert (HS : sine64 fs (fc theta) theta = of_int (-5) \/ (fin (sine64 fs (fc theta) theta) /\ 0 <= toR (sine64 fs (fc theta) theta) <= 1 / 5)).
  { unfold sine64. destruct (flt (lit 99 100) (Babs (fc theta))) eqn:C; [right|left; reflexivity]. apply S; [exact FT|exact BT|].
    assert (FA : fin (Babs (fc theta))) by (unfold fin; rewrite is_finite_Babs; exact FC).
    assert (L : fin (lit 99 100) /\ 98 / 100 <= toR (lit 99 100)).
    { split; [vm_compute; reflexivity|]. replace (lit 99 100) with (dyadic 8917127262193582 (-53)) by (apply b64_eq; vm_compute; reflexivity). rewrite (proj2 (dyadic_R 8917127262193582 (-53) ltac:(lia) ltac:(lia))), bp53. lra. }
    destruct L as [FL EL]. apply flt_R in C; [|assumption..]. rewrite B2R_Babs in C. lra. }
  destruct (pixel_ok64 n (fc theta) _ phi H FC FP BC HS NC) as (p & E & V). exists p. split; [|exact V]. unfold ang2pix_nest64. destruct (of_int_R 0 ltac:(lia)) as [F0 E0].
  rewrite (proj2 (fle_R (of_int 0) theta F0 FT)) by (rewrite E0; lra). rewrite (proj2 (fle_R theta hp_pi FT eq_refl)) by lra. cbn [andb]. cbv zeta. rewrite E. reflexivity.
Qed.
(** At the corner the number is out of range whatever the resolution. *)
Lemma corner_always n : power_of_two_upto 29 n -> exists p, ang2pix_nest_z_phi64 n (Bopp twothird) (of_int (-5)) last_phi = Ok p /\ (12 * n * n <= p)%Z.
Proof.
  intros (a & Ha & ->).
  assert (X : forallb (fun k => match ang2pix_nest_z_phi64 (2 ^ Z.of_nat k) (Bopp twothird) (of_int (-5)) last_phi with Ok p => (12 * 2 ^ Z.of_nat k * 2 ^ Z.of_nat k <=? p)%Z | _ => false end) (seq 0 30) = true) by (vm_compute; reflexivity).
  rewrite forallb_forall in X. specialize (X (Z.to_nat a)). rewrite Z2Nat.id in X by lia. assert (I : In (Z.to_nat a) (seq 0 30)) by (apply in_seq; lia). specialize (X I).
  destruct (ang2pix_nest_z_phi64 (2 ^ a) (Bopp twothird) (of_int (-5)) last_phi) as [p|]; [|discriminate X]. exists p. split; [reflexivity|]. apply Z.leb_le, X.
Qed.
Lemma corner_here : fin (Bopp twothird) /\ Rabs (toR (Bopp twothird)) <= 1 /\ fin last_phi /\ corner (Bopp twothird) last_phi.
Proof.
  destruct twothird_R as [F E]. split; [vm_compute; reflexivity|]. split; [rewrite B2R_Bopp, E; apply Rabs_le; lra|]. split; [vm_compute; reflexivity|].
  split; [f_equal; apply b64_eq; vm_compute; reflexivity | rewrite B2R_Bopp, E; lra].
Qed.
