(** The fundamental arguments, and how far the series is from the published one. *)
From Coq Require Import ZArith List Bool Reals Lra Lia.
From Verif Require Import CLib ArithModel GeoLemmas TrigBounds NutModel NutSpec NutProofs1 NutProofs2.
Import ListNotations.
Open Scope R_scope.

Lemma poly_close (T c0 c1 c2 c3 d0 d1 d2 d3 : R) : Rabs c0 <= d0 -> Rabs c1 <= d1 -> Rabs c2 <= d2 -> Rabs c3 <= d3 -> Rabs T <= 100 ->
  Rabs (c0 + c1 * T + c2 * T ^ 2 + c3 * T ^ 3) <= d0 + 100 * d1 + 10000 * d2 + 1000000 * d3.
Proof.
  intros H0 H1 H2 H3 HT. assert (P := Rabs_pos T).
  assert (A1 : Rabs (c1 * T) <= 100 * d1) by (rewrite Rabs_mult; assert (Q := Rabs_pos c1); nra).
  assert (T2 : Rabs (T ^ 2) <= 10000) by (rewrite <- RPow_abs; nra).
  assert (T3 : Rabs (T ^ 3) <= 1000000) by (rewrite <- RPow_abs; replace (Rabs T ^ 3) with (Rabs T ^ 2 * Rabs T) by ring; rewrite <- RPow_abs in T2; assert (0 <= Rabs T ^ 2) by (apply pow_le; exact P); nra).
  assert (A2 : Rabs (c2 * T ^ 2) <= 10000 * d2) by (rewrite Rabs_mult; assert (Q := Rabs_pos c2); assert (Q' := Rabs_pos (T ^ 2)); nra).
  assert (A3 : Rabs (c3 * T ^ 3) <= 1000000 * d3) by (rewrite Rabs_mult; assert (Q := Rabs_pos c3); assert (Q' := Rabs_pos (T ^ 3)); nra).
  assert (B1 := Rabs_triang (c0 + c1 * T + c2 * T ^ 2) (c3 * T ^ 3)). assert (B2 := Rabs_triang (c0 + c1 * T) (c2 * T ^ 2)). assert (B3 := Rabs_triang c0 (c1 * T)). lra.
Qed.
Lemma poly_near (T c0 c1 c2 c3 d0 d1 d2 d3 : R) : Rabs c0 <= d0 -> Rabs c1 <= d1 -> Rabs c2 <= d2 -> Rabs c3 <= d3 ->
  Rabs (c0 + c1 * T + c2 * T ^ 2 + c3 * T ^ 3) <= d0 + d1 * Rabs T + d2 * Rabs T ^ 2 + d3 * Rabs T ^ 3.
Proof.
  intros H0 H1 H2 H3.
  assert (M : forall c d n, Rabs c <= d -> Rabs (c * T ^ n) <= d * Rabs T ^ n).
  { intros c d n H. rewrite Rabs_mult, <- RPow_abs. apply Rmult_le_compat_r; [apply pow_le, Rabs_pos | exact H]. }
  assert (A1 : Rabs (c1 * T) <= d1 * Rabs T) by (assert (K := M c1 d1 1%nat H1); rewrite !pow_1 in K; exact K). assert (A2 := M _ _ 2%nat H2). assert (A3 := M _ _ 3%nat H3).
  assert (B1 := Rabs_triang (c0 + c1 * T + c2 * T ^ 2) (c3 * T ^ 3)). assert (B2 := Rabs_triang (c0 + c1 * T) (c2 * T ^ 2)). assert (B3 := Rabs_triang c0 (c1 * T)). lra.
Qed.
Lemma args_near T : near5 ((1000 + 1260000 * Rabs T + Rabs T ^ 2 + 0.01 * Rabs T ^ 3) / 10 ^ 18) (code_args T) (fundamental T).
Proof.
  assert (P := pi_in). unfold near5, code_args, fundamental, arg_of, arguments, arcsec. cbn [nth add sub mul cst ideal].
  repeat split; match goal with |- Rabs (?c0 / ?d0 + T * (?c1 / ?d1 + T * (?c2 / ?d2 + ?c3 / ?d3 * T)) - (?s0 + ?s1 * T + ?s2 * T ^ 2 + ?s3 * T ^ 3) * ?q) <= _ =>
      replace (c0 / d0 + T * (c1 / d1 + T * (c2 / d2 + c3 / d3 * T)) - (s0 + s1 * T + s2 * T ^ 2 + s3 * T ^ 3) * q) with
        ((c0 / d0 - s0 * q) + (c1 / d1 - s1 * q) * T + (c2 / d2 - s2 * q) * T ^ 2 + (c3 / d3 - s3 * q) * T ^ 3) by ring
    | |- Rabs (?c0 / ?d0 + T * (?c1 / ?d1 + T * (?c2 / ?d2 - ?c3 / ?d3 * T)) - (?s0 + ?s1 * T - ?s2 * T ^ 2 - ?s3 * T ^ 3) * ?q) <= _ =>
      replace (c0 / d0 + T * (c1 / d1 + T * (c2 / d2 - c3 / d3 * T)) - (s0 + s1 * T - s2 * T ^ 2 - s3 * T ^ 3) * q) with
        ((c0 / d0 - s0 * q) + (c1 / d1 - s1 * q) * T + (c2 / d2 + s2 * q) * T ^ 2 + (- (c3 / d3) + s3 * q) * T ^ 3) by ring
    | |- Rabs (?c0 / ?d0 + T * (?c1 / ?d1 + T * (?c2 / ?d2 + ?c3 / ?d3 * T)) - (?s0 + ?s1 * T - ?s2 * T ^ 2 + ?s3 * T ^ 3) * ?q) <= _ =>
      replace (c0 / d0 + T * (c1 / d1 + T * (c2 / d2 + c3 / d3 * T)) - (s0 + s1 * T - s2 * T ^ 2 + s3 * T ^ 3) * q) with
        ((c0 / d0 - s0 * q) + (c1 / d1 - s1 * q) * T + (c2 / d2 + s2 * q) * T ^ 2 + (c3 / d3 - s3 * q) * T ^ 3) by ring
    | |- Rabs (?c0 / ?d0 + T * (?c1 / ?d1 + T * (?c2 / ?d2 + ?c3 / ?d3 * T)) - (?s0 - ?s1 * T + ?s2 * T ^ 2 + ?s3 * T ^ 3) * ?q) <= _ =>
      replace (c0 / d0 + T * (c1 / d1 + T * (c2 / d2 + c3 / d3 * T)) - (s0 - s1 * T + s2 * T ^ 2 + s3 * T ^ 3) * q) with
        ((c0 / d0 - s0 * q) + (c1 / d1 + s1 * q) * T + (c2 / d2 - s2 * q) * T ^ 2 + (c3 / d3 - s3 * q) * T ^ 3) by ring
    end;
    (eapply Rle_trans; [apply (poly_near _ _ _ _ _ (1 / 10 ^ 15) (1.26 / 10 ^ 12) (1 / 10 ^ 18) (1 / 10 ^ 20)); apply Rabs_le; lra | lra]).
Qed.

Lemma near5_le d e a b : d <= e -> near5 d a b -> near5 e a b.
Proof. destruct a as [[[[a1 a2] a3] a4] a5], b as [[[[b1 b2] b3] b4] b5]. cbn [near5]. intros H (H1 & H2 & H3 & H4 & H5). repeat split; lra. Qed.
Lemma args_close T : Rabs T <= 100 -> near5 (1.3 / 10 ^ 10) (code_args T) (fundamental T).
Proof.
  intros H. eapply near5_le; [|apply args_near]. assert (P := Rabs_pos T). set (x := Rabs T) in *. assert (x ^ 2 <= 10000) by nra. assert (0 <= x ^ 2) by nra.
  assert (x ^ 3 <= 1000000) by (replace (x ^ 3) with (x ^ 2 * x) by ring; nra). lra.
Qed.

(** ** Sines and cosines of near angles *)
Lemma sin_near x y : Rabs (sin x - sin y) <= Rabs (x - y).
Proof.
  assert (M : forall a b, a < b -> Rabs (sin b - sin a) <= b - a).
  { intros a b H. destruct (MVT_cor2 sin cos a b H (fun c _ => derivable_pt_lim_sin c)) as (c & E & _). rewrite E, Rabs_mult, (Rabs_right (b - a)) by lra.
    assert (B := COS_bound c). assert (Rabs (cos c) <= 1) by (apply Rabs_le; lra). nra. }
  destruct (Rtotal_order x y) as [H|[H|H]].
  - rewrite (Rabs_minus_sym (sin x)), (Rabs_minus_sym x), (Rabs_right (y - x)) by lra. apply M. exact H.
  - subst. rewrite Rminus_diag_eq, Rabs_R0 by reflexivity. apply Rabs_pos.
  - rewrite (Rabs_right (x - y)) by lra. apply M. exact H.
Qed.
Lemma cos_near x y : Rabs (cos x - cos y) <= Rabs (x - y).
Proof. rewrite <- !sin_shift. eapply Rle_trans; [apply sin_near|]. replace (PI / 2 - x - (PI / 2 - y)) with (y - x) by ring. rewrite Rabs_minus_sym. lra. Qed.
Definition weight (k : multiples) : Z := let '(a1, a2, a3, a4, a5) := k in (Z.abs a1 + Z.abs a2 + Z.abs a3 + Z.abs a4 + Z.abs a5)%Z.
Lemma phase_near k d a b : near5 d a b -> Rabs (phase k a - phase k b) <= IZR (weight k) * d.
Proof.
  destruct k as [[[[k1 k2] k3] k4] k5], a as [[[[a1 a2] a3] a4] a5], b as [[[[b1 b2] b3] b4] b5]. cbn [near5 phase weight]. intros (H1 & H2 & H3 & H4 & H5).
  replace (_ - _) with (IZR k1 * (a1 - b1) + IZR k2 * (a2 - b2) + IZR k3 * (a3 - b3) + IZR k4 * (a4 - b4) + IZR k5 * (a5 - b5)) by ring.
  rewrite !plus_IZR, !abs_IZR.
  assert (M : forall k x, Rabs x <= d -> Rabs (k * x) <= Rabs k * d) by (intros k x H; rewrite Rabs_mult; apply Rmult_le_compat_l; [apply Rabs_pos | exact H]).
  assert (N1 := M (IZR k1) _ H1). assert (N2 := M (IZR k2) _ H2). assert (N3 := M (IZR k3) _ H3). assert (N4 := M (IZR k4) _ H4). assert (N5 := M (IZR k5) _ H5).
  set (p1 := IZR k1 * _) in *. set (p2 := IZR k2 * _) in *. set (p3 := IZR k3 * _) in *. set (p4 := IZR k4 * _) in *. set (p5 := IZR k5 * _) in *.
  assert (B1 := Rabs_triang (p1 + p2 + p3 + p4) p5). assert (B2 := Rabs_triang (p1 + p2 + p3) p4). assert (B3 := Rabs_triang (p1 + p2) p3). assert (B4 := Rabs_triang p1 p2). lra.
Qed.
Definition gain (g g' : Z * Z * Z * Z -> Z) : Z := fold_right (fun r s => (Z.abs (g (snd r)) + 10 * Z.abs (g' (snd r))) * weight (fst r) + s)%Z 0%Z iau1980.
Lemma sum_near f g g' T d a b : (forall x y, Rabs (f x - f y) <= Rabs (x - y)) -> Rabs T <= 100 -> 0 <= d -> near5 d a b ->
  Rabs (total_of (fun r => (IZR (g (snd r)) + IZR (g' (snd r)) / 10 * T) * f (phase (fst r) a)) iau1980
      - total_of (fun r => (IZR (g (snd r)) + IZR (g' (snd r)) / 10 * T) * f (phase (fst r) b)) iau1980) <= IZR (gain g g') * d.
Proof.
  intros F HT Hd H. unfold gain. induction iau1980 as [|[k r] l IH]; cbn [total_of fold_right fst snd].
  - rewrite Rminus_0_r, Rabs_R0. lra.
  - unfold total_of in IH. rewrite plus_IZR, mult_IZR. match type of IH with Rabs (?x - ?y) <= _ => set (S1 := x) in *; set (S2 := y) in * end.
    set (c := IZR (g r) + IZR (g' r) / 10 * T). replace (_ - _) with (c * (f (phase k a) - f (phase k b)) + (S1 - S2)) by (unfold c; ring).
    assert (B := Rabs_triang (c * (f (phase k a) - f (phase k b))) (S1 - S2)).
    assert (C : Rabs c <= IZR (Z.abs (g r) + 10 * Z.abs (g' r))).
    { unfold c. eapply Rle_trans; [apply Rabs_triang|]. rewrite plus_IZR, mult_IZR, !abs_IZR, Rabs_mult. unfold Rdiv. rewrite Rabs_mult, (Rabs_right (/ 10)) by lra.
      assert (Q := Rabs_pos (IZR (g' r))). assert (Q' := Rabs_pos T). nra. }
    assert (W : Rabs (f (phase k a) - f (phase k b)) <= IZR (weight k) * d) by (eapply Rle_trans; [apply F | apply phase_near; exact H]).
    assert (M : Rabs (c * (f (phase k a) - f (phase k b))) <= IZR (Z.abs (g r) + 10 * Z.abs (g' r)) * (IZR (weight k) * d)).
    { rewrite Rabs_mult. apply Rmult_le_compat; try apply Rabs_pos; assumption. }
    lra.
Qed.
Lemma gains : (gain g1 g2 <= 360000 /\ gain g3 g4 <= 360000)%Z.
Proof. split; vm_compute; discriminate. Qed.
Lemma nutation_close T : Rabs T <= 100 ->
  Rabs (nutation_lon (code_args T) T - nutation_lon (fundamental T) T) <= 1 / 10 ^ 8 /\ Rabs (nutation_obl (code_args T) T - nutation_obl (fundamental T) T) <= 1 / 10 ^ 8.
Proof.
  intros HT. assert (N := args_close T HT). destruct gains as [G1 G2]. apply IZR_le in G1, G2.
  assert (D0 : 0 <= 1.3 / 10 ^ 10) by lra.
  assert (S1 := sum_near sin g1 g2 T _ _ _ sin_near HT D0 N). assert (S2 := sum_near cos g3 g4 T _ _ _ cos_near HT D0 N).
  unfold nutation_lon, nutation_obl.
  rewrite (total_same (fun r => let '(k, (p, p', _, _)) := r in (IZR p + IZR p' / 10 * T) * sin (phase k (code_args T))) (fun r => (IZR (g1 (snd r)) + IZR (g2 (snd r)) / 10 * T) * sin (phase (fst r) (code_args T))))
    by (intros [k [[[p p'] e] e']]; reflexivity).
  rewrite (total_same (fun r => let '(k, (p, p', _, _)) := r in (IZR p + IZR p' / 10 * T) * sin (phase k (fundamental T))) (fun r => (IZR (g1 (snd r)) + IZR (g2 (snd r)) / 10 * T) * sin (phase (fst r) (fundamental T))))
    by (intros [k [[[p p'] e] e']]; reflexivity).
  rewrite (total_same (fun r => let '(k, (_, _, e, e')) := r in (IZR e + IZR e' / 10 * T) * cos (phase k (code_args T))) (fun r => (IZR (g3 (snd r)) + IZR (g4 (snd r)) / 10 * T) * cos (phase (fst r) (code_args T))))
    by (intros [k [[[p p'] e] e']]; reflexivity).
  rewrite (total_same (fun r => let '(k, (_, _, e, e')) := r in (IZR e + IZR e' / 10 * T) * cos (phase k (fundamental T))) (fun r => (IZR (g3 (snd r)) + IZR (g4 (snd r)) / 10 * T) * cos (phase (fst r) (fundamental T))))
    by (intros [k [[[p p'] e] e']]; reflexivity).
  match type of S1 with Rabs (?x - ?y) <= _ => set (A1 := x) in *; set (A2 := y) in * end. match type of S2 with Rabs (?x - ?y) <= _ => set (A3 := x) in *; set (A4 := y) in * end.
  replace (A1 / 10000 - A2 / 10000) with ((A1 - A2) * / 10000) by lra. replace (A3 / 10000 - A4 / 10000) with ((A3 - A4) * / 10000) by lra.
  rewrite !Rabs_mult, (Rabs_right (/ 10000)) by lra. split; nra.
Qed.
