(** atan_circ in binary64. *)
From Coq Require Import ZArith Bool Reals Lra Lia Psatz.
From Flocq Require Import Core IEEE754.BinarySingleNaN.
From Verif Require Import CLib FloatModel FloatLemmas ArithModel GeoModel GeoNadirSpec AngleProofs GeoMachProofs GeoNadir.
Open Scope R_scope.

Lemma quotient_not_nan (y x : b64) : fin y -> fin x -> toR x <> 0 -> fdiv y x <> B754_nan.
Proof.
  intros Fy Fx N. destruct x as [s|s| |s mx ex Hx]; try discriminate Fx; [exfalso; apply N; reflexivity|].
  intros E. destruct y as [t|t| |t my ey Hy]; try discriminate Fy; [discriminate E|].
  pose proof (Bdiv_correct 53 1024 prec64_gt0 prec64_lt mode_NE (B754_finite t my ey Hy) (B754_finite s mx ex Hx) N) as C.
  unfold fdiv in E. destruct (Rlt_bool _ _) in C.
  - destruct C as (_ & C & _). rewrite E in C. discriminate C.
  - rewrite E in C. cbn in C. unfold binary_overflow in C. cbn in C. discriminate C.
Qed.

Lemma circ_unfold m x y : atan_circ (machine m) x y =
  let theta := if feq x (round_ratio 0 1) then if flt (round_ratio 0 1) y then fdiv PI64 (round_ratio 2 1) else if flt y (round_ratio 0 1) then fmul (round_ratio 3 1) (fdiv PI64 (round_ratio 2 1)) else round_ratio 0 1
               else m_atan m (fdiv y x) in
  let theta := if flt x (round_ratio 0 1) then fadd theta PI64 else theta in
  if flt theta (round_ratio 0 1) then fadd theta TWOPI64 else theta.
Proof. reflexivity. Qed.

Lemma half_pi_R : fin (fdiv PI64 (round_ratio 2 1)) /\ toR (fdiv PI64 (round_ratio 2 1)) = 7074237752028440 / 4503599627370496.
Proof. split; [vm_compute; reflexivity|]. rewrite (of_SF _ false 7074237752028440%positive (-52)) by (vm_compute; reflexivity). unfold F2R. cbn. lra. Qed.
Lemma three_half_pi_R : fin (fmul (round_ratio 3 1) (fdiv PI64 (round_ratio 2 1))) /\ toR (fmul (round_ratio 3 1) (fdiv PI64 (round_ratio 2 1))) = 5305678314021330 / 1125899906842624.
Proof. split; [vm_compute; reflexivity|]. rewrite (of_SF _ false 5305678314021330%positive (-50)) by (vm_compute; reflexivity). unfold F2R. cbn. lra. Qed.

Lemma add_turn (a : b64) : fin a -> Rabs (toR a) <= 7074237752028440 / 4503599627370496 -> toR a < 0 -> fin (fadd a TWOPI64) /\ 0 <= toR (fadd a TWOPI64) <= toR TWOPI64.
Proof.
  intros F B N. apply Rabs_le_inv in B. destruct TWOPI64_R as [FT VT]. destruct (fadd_R a TWOPI64 3 F FT ltac:(lia)) as [G V]. { apply Rabs_le. rewrite VT. cbn. lra. }
  split; [exact G|]. rewrite V. split.
  - rewrite <- RN0. apply RN_le. lra.
  - rewrite <- (RN_gen (toR TWOPI64)) at 2 by apply gen. apply RN_le. lra.
Qed.

Lemma circ_range m x y : quarter_turn (m_atan m) PI64 -> fin x -> fin y ->
  fin (atan_circ (machine m) x y) /\ 0 <= toR (atan_circ (machine m) x y) <= toR TWOPI64.
Proof.
  intros Q Fx Fy. rewrite circ_unfold. cbv zeta. destruct zero64 as [FZ VZ]. destruct TWOPI64_R as [FT VT]. destruct PI64_R as [FP VP].
  destruct (Req_dec (toR x) 0) as [X|X].
  - assert (E : feq x (round_ratio 0 1) = true). { destruct x as [s|s| |s mx ex Hx]; try discriminate Fx; [destruct s; reflexivity|]. exfalso. cbn in X. apply eq_0_F2R in X. destruct s; discriminate X. }
    assert (L : flt x (round_ratio 0 1) = false) by (apply flt_false; [assumption|assumption|lra]). rewrite E, L.
    destruct half_pi_R as [F1 V1]. destruct three_half_pi_R as [F2 V2].
    assert (P : forall t, fin t -> 0 <= toR t <= toR TWOPI64 -> fin (if flt t (round_ratio 0 1) then fadd t TWOPI64 else t) /\ 0 <= toR (if flt t (round_ratio 0 1) then fadd t TWOPI64 else t) <= toR TWOPI64).
    { intros t Ft B. replace (flt t (round_ratio 0 1)) with false by (symmetry; apply flt_false; [assumption|assumption|lra]). split; assumption. }
    destruct (flt (round_ratio 0 1) y); [apply P; [exact F1|rewrite V1, VT; lra]|]. destruct (flt y (round_ratio 0 1)); [apply P; [exact F2|rewrite V2, VT; lra]|]. apply P; [exact FZ|rewrite VZ, VT; lra].
  - assert (E : feq x (round_ratio 0 1) = false).
    { destruct x as [s|s| |s mx ex Hx]; try discriminate Fx; [exfalso; apply X; reflexivity|]. destruct s; reflexivity. }
    rewrite E. destruct (Q (fdiv y x) (quotient_not_nan y x Fy Fx X)) as [FA BA]. set (a := m_atan m (fdiv y x)) in *. rewrite VP in BA.
    assert (BB := Rabs_le_inv _ _ BA).
    destruct (flt x (round_ratio 0 1)).
    + destruct (fadd_R a PI64 3 FA FP ltac:(lia)) as [G V]. { apply Rabs_le. rewrite VP. cbn. lra. }
      assert (B0 : 0 <= toR (fadd a PI64)) by (rewrite V, <- RN0; apply RN_le; lra).
      assert (B1 : toR (fadd a PI64) <= toR TWOPI64) by (rewrite V, <- (RN_gen (toR TWOPI64)) by apply gen; apply RN_le; lra).
      replace (flt (fadd a PI64) (round_ratio 0 1)) with false by (symmetry; apply flt_false; [assumption|assumption|lra]). split; [exact G|split; assumption].
    + destruct (flt a (round_ratio 0 1)) eqn:L.
      * apply flt_R in L; [|assumption|assumption]. apply add_turn; [exact FA|lra|lra].
      * apply flt_false in L; [|assumption|assumption]. split; [exact FA|]. lra.
Qed.

(** A direction just below the x axis. *)
Lemma circ_whole_turn : exists x y, fin x /\ fin y /\ 0 < toR x /\ toR y < 0 /\
  forall m, fin (m_atan m (fdiv y x)) -> - / 2 ^ 52 <= toR (m_atan m (fdiv y x)) < 0 -> toR (atan_circ (machine m) x y) = toR TWOPI64.
Proof.
  exists (round_ratio 1 1), (round_ratio (-1) (2 ^ 60)). split; [vm_compute; reflexivity|]. split; [vm_compute; reflexivity|].
  split. { rewrite (of_SF (round_ratio 1 1) false 4503599627370496%positive (-52)) by (vm_compute; reflexivity). unfold F2R. cbn. lra. }
  split. { rewrite (of_SF (round_ratio (-1) (2 ^ 60)) true 4503599627370496%positive (-112)) by (vm_compute; reflexivity). apply F2R_lt_0. cbn. lia. }
  intros m FA BA. rewrite circ_unfold. cbv zeta. replace (feq (round_ratio 1 1) (round_ratio 0 1)) with false by (vm_compute; reflexivity).
  replace (flt (round_ratio 1 1) (round_ratio 0 1)) with false by (vm_compute; reflexivity). 
  replace (flt (m_atan m _) (round_ratio 0 1)) with true; [apply whole_turn; assumption|]. symmetry. apply flt_R; [exact FA|apply zero64|]. rewrite (proj2 zero64). lra.
Qed.
Lemma ex_circ64 m : B2SF (atan_circ (machine m) (round_ratio 0 1) (round_ratio (-5) 1)) = SpecFloat.S754_finite false 5305678314021330 (-50).
Proof. rewrite circ_unfold. vm_compute. reflexivity. Qed.
