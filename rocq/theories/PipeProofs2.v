(** The precession formula to first order. *)
From Coq Require Import ZArith Reals Lra Lia Bool Psatz.
From Flocq Require Import Core.
From Coquelicot Require Import Coquelicot.
From Verif Require Import CLib ArithModel GeoLemmas GeoModel GeoSpec PipeSpec GeoProofs1 GeoProofs2 GeoProofs3 GeoProofs4 GeoProofs6.
Open Scope R_scope.

Lemma cos_second_pos x h : 0 <= h -> Rabs (cos (x - h) - (cos x + h * sin x)) <= h * h / 2.
Proof.
  intros H. assert (L : forall u, 0 <= u -> Rabs (sin (x - u) - sin x) <= u).
  { intros u U. assert (Q := sin_lip (x - u) x). replace (x - u - x) with (- u) in Q by ring. rewrite Rabs_Ropp, (Rabs_pos_eq u U) in Q. exact Q. }
  apply Rabs_le. split.
  - assert (I := increasing_from_0 (fun u => u * u / 2 + (cos (x - u) - (cos x + u * sin x))) (fun u => u + (sin (x - u) - sin x)) h H).
    cbv beta in I. replace (x - 0) with x in I by ring.
    assert (0 * 0 / 2 + (cos x - (cos x + 0 * sin x)) <= h * h / 2 + (cos (x - h) - (cos x + h * sin x))); [apply I | lra].
    + intros t T. auto_derive; [exact Logic.I|]. change (x + - t) with (x - t). lra.
    + intros t T. specialize (L t ltac:(lra)). apply Rabs_le_inv in L. lra.
  - assert (I := increasing_from_0 (fun u => u * u / 2 - (cos (x - u) - (cos x + u * sin x))) (fun u => u - (sin (x - u) - sin x)) h H).
    cbv beta in I. replace (x - 0) with x in I by ring.
    assert (0 * 0 / 2 - (cos x - (cos x + 0 * sin x)) <= h * h / 2 - (cos (x - h) - (cos x + h * sin x))); [apply I | lra].
    + intros t T. auto_derive; [exact Logic.I|]. change (x + - t) with (x - t). lra.
    + intros t T. specialize (L t ltac:(lra)). apply Rabs_le_inv in L. lra.
Qed.
Lemma cos_second x h : Rabs (cos (x - h) - (cos x + h * sin x)) <= h * h / 2.
Proof.
  destruct (Rle_dec 0 h) as [H|H]; [apply cos_second_pos, H|].
  assert (Q := cos_second_pos (- x) (- h) ltac:(lra)). rewrite cos_neg, sin_neg in Q.
  replace (- x - - h) with (- (x - h)) in Q by ring. rewrite cos_neg in Q.
  replace (- h * - sin x) with (h * sin x) in Q by ring. replace (- h * - h / 2) with (h * h / 2) in Q by field. exact Q.
Qed.
Lemma sin_second x h : Rabs (sin (x - h) - (sin x - h * cos x)) <= h * h / 2.
Proof.
  assert (Q := cos_second (x - PI / 2) h).
  replace (cos (x - PI / 2)) with (sin x) in Q by (rewrite cos_minus, cos_PI2, sin_PI2; ring).
  replace (sin (x - PI / 2)) with (- cos x) in Q by (rewrite sin_minus, cos_PI2, sin_PI2; ring).
  replace (cos (x - PI / 2 - h)) with (sin (x - h)) in Q by (replace (x - PI / 2 - h) with ((x - h) - PI / 2) by ring; rewrite (cos_minus _ (PI / 2)), cos_PI2, sin_PI2; ring).
  replace (sin x - h * cos x) with (sin x + h * - cos x) by ring. exact Q.
Qed.

(** Moved by small angles, a direction moves along the two tangents. *)
Lemma dir_second al de a d :
  near ((a * a + d * d) / 2) (dir (al - a) (de - d))
    (cos de * cos al + a * (cos de * sin al) + d * (sin de * cos al), cos de * sin al - a * (cos de * cos al) + d * (sin de * sin al), sin de - d * cos de).
Proof.
  unfold near, dir. split; [|split].
  - assert (Q1 := cos_second (de + al) (d + a)). assert (Q2 := cos_second (de - al) (d - a)).
    replace (de + al - (d + a)) with ((de - d) + (al - a)) in Q1 by ring. replace (de - al - (d - a)) with ((de - d) - (al - a)) in Q2 by ring.
    rewrite cos_plus, (cos_plus de al), (sin_plus de al) in Q1. rewrite cos_minus, (cos_minus de al), (sin_minus de al) in Q2.
    apply Rabs_le_inv in Q1. apply Rabs_le_inv in Q2. apply Rabs_le. split; lra.
  - assert (Q1 := sin_second (de + al) (d + a)). assert (Q2 := sin_second (de - al) (d - a)).
    replace (de + al - (d + a)) with ((de - d) + (al - a)) in Q1 by ring. replace (de - al - (d - a)) with ((de - d) - (al - a)) in Q2 by ring.
    rewrite sin_plus, (cos_plus de al), (sin_plus de al) in Q1. rewrite sin_minus, (cos_minus de al), (sin_minus de al) in Q2.
    apply Rabs_le_inv in Q1. apply Rabs_le_inv in Q2. apply Rabs_le. split; lra.
  - assert (Q := sin_second de d). apply Rabs_le_inv in Q. apply Rabs_le. assert (0 <= a * a) by nra. split; lra.
Qed.

Lemma dir_reduced raw dec ra :
  ra = (if Rltb raw 0 then raw + 2 * PI else if Rleb (2 * PI) raw then raw - 2 * PI else raw) -> dir ra dec = dir raw dec.
Proof.
  intros ->. unfold dir. destruct (Rltb raw 0); [rewrite cos_plus_2pi, sin_plus_2pi; reflexivity|].
  destruct (Rleb (2 * PI) raw); [rewrite cos_minus_2pi, sin_minus_2pi|]; reflexivity.
Qed.

(** What epoch_of_date_to_j2000 subtracts from the right ascension and from the declination. *)
Definition ra_shift (jd ra dec : R) : R := 100 * centuries jd * (precession_m jd + precession_n jd * sin ra * tan dec).
Definition dec_shift (jd ra : R) : R := 100 * centuries jd * (precession_n jd * cos ra).
Lemma j2000_shift (jd ra dec ra' dec' : R) : epoch_of_date_to_j2000 ideal jd ra dec = (ra', dec') ->
  dir ra' dec' = dir (ra - ra_shift jd ra dec) (dec - dec_shift jd ra) /\ dec' = dec - dec_shift jd ra.
Proof.
  rewrite j2000_eq. intros E. assert (E1 := f_equal fst E). assert (E2 := f_equal snd E). cbn [fst snd] in E1, E2.
  assert (M : prec_m (centuries jd) = precession_m jd) by (unfold prec_m, precession_m, radians; lra).
  assert (N : prec_n (centuries jd) = precession_n jd) by (unfold prec_n, precession_n, radians; lra).
  assert (D : dec' = dec - dec_shift jd ra) by (transitivity (dec - centuries jd * (prec_n (centuries jd) * cos ra) * 100); [symmetry; exact E2|]; rewrite N; unfold dec_shift; ring).
  split; [|exact D]. rewrite D. rewrite (dir_reduced _ _ _ (eq_sym E1)). rewrite M, N. unfold ra_shift. f_equal. ring.
Qed.
Lemma turned_back_eq jd ra dec : cos dec <> 0 ->
  turned_back jd (dir ra dec) =
  (cos dec * cos ra + ra_shift jd ra dec * (cos dec * sin ra) + dec_shift jd ra * (sin dec * cos ra),
   cos dec * sin ra - ra_shift jd ra dec * (cos dec * cos ra) + dec_shift jd ra * (sin dec * sin ra),
   sin dec - dec_shift jd ra * cos dec).
Proof.
  intros C. unfold turned_back, dir, cross, scale, minus, ra_shift, dec_shift. set (y := 100 * centuries jd). set (m := precession_m jd). set (n := precession_n jd).
  assert (S := sc2 ra). f_equal; [f_equal|].
  - replace (y * (m + n * sin ra * tan dec) * (cos dec * sin ra)) with (y * (m * cos dec * sin ra + n * (sin ra * sin ra) * sin dec)) by (unfold tan; field; exact C).
    replace (sin ra * sin ra) with (1 - cos ra * cos ra) by lra. ring.
  - replace (y * (m + n * sin ra * tan dec) * (cos dec * cos ra)) with (y * (m * cos dec * cos ra + n * (sin ra * cos ra) * sin dec)) by (unfold tan; field; exact C). ring.
  - ring.
Qed.
Lemma j2000_first_order (jd ra dec ra' dec' : R) : Rabs (centuries jd) <= 10 -> cos dec <> 0 -> epoch_of_date_to_j2000 ideal jd ra dec = (ra', dec') ->
  near ((100 * centuries jd) ^ 2 * ((precession_m jd + precession_n jd * Rabs (tan dec)) ^ 2 + precession_n jd ^ 2) / 2) (dir ra' dec') (turned_back jd (dir ra dec)).
Proof.
  intros J C E. destruct (j2000_shift _ _ _ _ _ E) as [-> _]. rewrite (turned_back_eq _ _ _ C).
  apply Rabs_le_inv in J. assert (P := PI_RGT_0).
  assert (M : 0 <= precession_m jd) by (unfold precession_m, radians; apply Rmult_le_pos; lra).
  assert (N : 0 <= precession_n jd) by (unfold precession_n, radians; apply Rmult_le_pos; lra).
  assert (Q := dir_second ra dec (ra_shift jd ra dec) (dec_shift jd ra)).
  set (e := (ra_shift jd ra dec * ra_shift jd ra dec + dec_shift jd ra * dec_shift jd ra) / 2) in Q.
  match goal with |- near ?b _ _ => assert (B : e <= b) end.
  { unfold e, ra_shift, dec_shift. set (y := 100 * centuries jd). set (m := precession_m jd) in *. set (n := precession_n jd) in *.
    assert (A1 : Rabs (m + n * sin ra * tan dec) <= m + n * Rabs (tan dec)).
    { eapply Rle_trans; [apply Rabs_triang|]. rewrite (Rabs_pos_eq m) by lra. rewrite !Rabs_mult, (Rabs_pos_eq n) by lra.
      assert (Rabs (sin ra) <= 1) by (apply Rabs_le, SIN_bound). assert (P1 := Rabs_pos (tan dec)). assert (P2 := Rabs_pos (sin ra)). assert (n * Rabs (sin ra) <= n * 1) by (apply Rmult_le_compat_l; lra). nra. }
    assert (A2 : (m + n * sin ra * tan dec) * (m + n * sin ra * tan dec) <= (m + n * Rabs (tan dec)) ^ 2).
    { assert (P1 := Rabs_pos (m + n * sin ra * tan dec)). rewrite <- (Rabs_pos_eq ((m + n * sin ra * tan dec) * (m + n * sin ra * tan dec))) by (apply Rle_0_sqr). rewrite Rabs_mult. cbn [pow]. rewrite Rmult_1_r. apply Rmult_le_compat; assumption. }
    assert (A3 : n * cos ra * (n * cos ra) <= n ^ 2). { assert (CB := COS_bound ra). assert (cos ra * cos ra <= 1) by nra. assert (0 <= n * n) by nra. nra. }
    assert (Y : 0 <= y * y) by nra.
    assert (0 <= y * y * ((m + n * Rabs (tan dec)) ^ 2 - (m + n * sin ra * tan dec) * (m + n * sin ra * tan dec))) by (apply Rmult_le_pos; lra).
    assert (0 <= y * y * (n ^ 2 - n * cos ra * (n * cos ra))) by (apply Rmult_le_pos; lra). cbn [pow] in *. lra. }
  unfold near, dir in *. destruct Q as (Q1 & Q2 & Q3). split; [|split]; lra.
Qed.
