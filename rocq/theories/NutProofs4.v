(** What earthtilt keeps from call to call. *)
From Coq Require Import ZArith List Bool Reals Lra Lia.
From Flocq Require Import Core BinarySingleNaN.
From Verif Require Import CLib FloatModel FloatLemmas ArithModel GeoLemmas TrigBounds NutModel NutSpec NutProofs1 NutProofs2 NutProofs3.
Import ListNotations.
Open Scope R_scope.

Section Any.
Context (A : arith).
(** The condition of earthtilt.c:307. *)
Definition apart (a b : num A) : bool := ltn A (cst A 1 100) (c_fabs A (sub A a b)).
Definition results (st : tilt A) : num A * num A * num A * num A * num A := (mean_obliq A st, true_obliq A st, eq_eq A st, d_psi A st, d_eps A st).
Lemma earthtilt_cases st jd : exists st', earthtilt A st jd = Ok (st', results st') /\
  (apart jd (tjd_last A st) = false /\ st' = st \/
   apart jd (tjd_last A st) = true /\ tjd_last A st' = jd /\ forall s, apart jd (tjd_last A s) = true -> earthtilt A s jd = Ok (st', results st')).
Proof.
  unfold earthtilt, apart. destruct (ltn A (cst A 1 100) (c_fabs A (sub A jd (tjd_last A st)))) eqn:E.
  - destruct (defined A (div A (sub A jd (int A 2451545)) (int A 36525))) as [[psi eps] N]. cbv zeta.
    assert (G : exists st', tjd_last A st' = jd /\ forall s, apart jd (tjd_last A s) = true -> earthtilt A s jd = Ok (st', results st')).
    { eexists. split; [|intros s Hs; unfold earthtilt, apart in *; rewrite Hs; cbv zeta; rewrite N; cbn [bind]; unfold results; reflexivity]. reflexivity. }
    destruct G as (st' & G1 & G2). exists st'. specialize (G2 st E) as G3. unfold earthtilt in G3. rewrite E in G3. split; [exact G3|]. right. auto.
  - exists st. split; [reflexivity|]. left. auto.
Qed.
(** The state: nothing computed yet, or what a call for one of the dates computes. *)
Definition computed_for (j : num A) (st : tilt A) : Prop :=
  tjd_last A st = j /\ forall s, apart j (tjd_last A s) = true -> earthtilt A s j = Ok (st, results st).
Lemma after_inv dates : exists st, tilt_after A dates = Ok st /\
  (st = tilt0 A /\ (forall j, In j dates -> apart j (int A 0) = false) \/ (exists j, In j dates /\ computed_for j st)).
Proof.
  induction dates as [|d before (st & E & H)].
  - exists (tilt0 A). split; [reflexivity|]. left. split; [reflexivity | intros j []].
  - cbn [tilt_after]. rewrite E. cbn [bind]. destruct (earthtilt_cases st d) as (st' & F & C). rewrite F. cbn [bind fst]. exists st'. split; [reflexivity|].
    destruct C as [[C ->]|(C & L & K)].
    + destruct H as [[-> H]|(j & I & H)].
      * left. split; [reflexivity|]. intros j [<-|I]; [exact C | apply H; exact I].
      * right. exists j. split; [right; exact I | exact H].
    + right. exists d. split; [left; reflexivity|]. split; [exact L | exact K].
Qed.
Lemma cache dates jd : exists st st' out, tilt_after A dates = Ok st /\ earthtilt A st jd = Ok (st', out) /\
  ((out = results (tilt0 A) /\ forall j, In j (jd :: dates) -> apart j (int A 0) = false) \/
   exists j, In j (jd :: dates) /\ (j = jd \/ apart jd j = false) /\ forall s, apart j (tjd_last A s) = true -> exists s', earthtilt A s j = Ok (s', out)).
Proof.
  destruct (after_inv dates) as (st & E & H). destruct (earthtilt_cases st jd) as (st' & F & C). exists st, st', (results st'). split; [exact E|]. split; [exact F|].
  destruct C as [[C ->]|(C & L & K)].
  - destruct H as [[-> H]|(j & I & H1 & H2)].
    + left. split; [reflexivity|]. intros j [<-|I]; [exact C | apply H; exact I].
    + right. exists j. split; [right; exact I|]. rewrite H1 in C. split; [right; exact C|]. intros s Hs. exists st. apply H2. exact Hs.
  - right. exists jd. split; [left; reflexivity|]. split; [left; reflexivity|]. intros s Hs. exists st'. apply K. exact Hs.
Qed.
End Any.

(** ** In the reals *)
Lemma apart_R a b : apart ideal a b = true <-> 0.01 < Rabs (a - b).
Proof. unfold apart. cbn [ideal ltn cst c_fabs sub]. rewrite Rltb_t. replace (1 / 100) with 0.01 by lra. reflexivity. Qed.
Lemma apart_R_f a b : apart ideal a b = false <-> Rabs (a - b) <= 0.01.
Proof. unfold apart. cbn [ideal ltn cst c_fabs sub]. rewrite Rltb_f. replace (1 / 100) with 0.01 by lra. reflexivity. Qed.
(** A recomputation. *)
Lemma fresh s jd : 0.01 < Rabs (jd - tjd_last ideal s) -> exists s' mobl tobl eq dpsi deps, earthtilt ideal s jd = Ok (s', (mobl, tobl, eq, dpsi, deps)) /\
  let T := centuries jd in
  mobl = mean_obliquity T /\ dpsi = nutation_lon (code_args T) T /\ deps = nutation_obl (code_args T) T /\ tobl = mean_obliquity T + deps / 3600 /\
  eq = dpsi / 15 * cos (tobl * 3600 * (4848136811095359936 / 1000000000000000000000000)).
Proof.
  intros H. apply apart_R in H. unfold apart in H. unfold earthtilt. rewrite H. cbv zeta.
  cbn [ideal sub div int cst mul add c_cos c_pow]. unfold int. cbn [ideal cst].
  replace ((jd - 2451545 / 1) / (36525 / 1)) with (centuries jd) by (unfold centuries; lra). rewrite series. cbn [bind].
  do 6 eexists. split; [reflexivity|]. set (T := centuries jd). cbv zeta.
  replace (2 / 1) with (INR 2) by (cbn; lra). replace (3 / 1) with (INR 3) by (cbn; lra). rewrite !Rcpow_nat by lia.
  assert (M : 843814480 / 10000 - 468150 / 10000 * T - 59 / 100000 * T ^ 2 + 1813 / 1000000 * T ^ 3 = 3600 * mean_obliquity T) by (unfold mean_obliquity; lra).
  rewrite M. cbn [mean_obliq true_obliq eq_eq d_psi d_eps]. repeat split; try lra.
  match goal with |- _ * cos ?x = _ * cos ?y => replace x with y by lra; lra end.
Qed.

(** ** Against the published theory *)
Definition size (g g' : Z * Z * Z * Z -> Z) : Z := fold_right (fun r s => Z.abs (g (snd r)) + 10 * Z.abs (g' (snd r)) + s)%Z 0%Z iau1980.
Lemma sum_bound f g g' T a : (forall x, Rabs (f x) <= 1) -> Rabs T <= 100 ->
  Rabs (total_of (fun r => (IZR (g (snd r)) + IZR (g' (snd r)) / 10 * T) * f (phase (fst r) a)) iau1980) <= IZR (size g g').
Proof.
  intros F HT. unfold size. induction iau1980 as [|[k r] l IH]; cbn [total_of fold_right fst snd].
  - rewrite Rabs_R0. lra.
  - unfold total_of in IH. rewrite plus_IZR. match type of IH with Rabs ?x <= _ => set (S1 := x) in * end.
    set (c := IZR (g r) + IZR (g' r) / 10 * T).
    assert (B := Rabs_triang (c * f (phase k a)) S1).
    assert (C : Rabs c <= IZR (Z.abs (g r) + 10 * Z.abs (g' r))).
    { unfold c. eapply Rle_trans; [apply Rabs_triang|]. rewrite plus_IZR, mult_IZR, !abs_IZR, Rabs_mult. unfold Rdiv. rewrite Rabs_mult, (Rabs_right (/ 10)) by lra.
      assert (Q := Rabs_pos (IZR (g' r))). assert (Q' := Rabs_pos T). nra. }
    assert (M : Rabs (c * f (phase k a)) <= IZR (Z.abs (g r) + 10 * Z.abs (g' r))).
    { rewrite Rabs_mult. assert (P := Rabs_pos c). assert (P' := Rabs_pos (f (phase k a))). assert (P2 := F (phase k a)). nra. }
    lra.
Qed.
Lemma sin_1 x : Rabs (sin x) <= 1. Proof. apply Rabs_le. apply SIN_bound. Qed.
Lemma cos_1 x : Rabs (cos x) <= 1. Proof. apply Rabs_le. apply COS_bound. Qed.
Lemma nutation_size a T : Rabs T <= 100 -> Rabs (nutation_lon a T) <= 25 /\ Rabs (nutation_obl a T) <= 25.
Proof.
  intros HT. assert (S1 := sum_bound sin g1 g2 T a sin_1 HT). assert (S2 := sum_bound cos g3 g4 T a cos_1 HT).
  assert (B : (size g1 g2 <= 250000 /\ size g3 g4 <= 250000)%Z) by (split; vm_compute; discriminate). destruct B as [B1 B2]. apply IZR_le in B1, B2.
  unfold nutation_lon, nutation_obl.
  rewrite (total_same (fun r => let '(k, (p, p', _, _)) := r in (IZR p + IZR p' / 10 * T) * sin (phase k a)) (fun r => (IZR (g1 (snd r)) + IZR (g2 (snd r)) / 10 * T) * sin (phase (fst r) a)))
    by (intros [k [[[p p'] e] e']]; reflexivity).
  rewrite (total_same (fun r => let '(k, (_, _, e, e')) := r in (IZR e + IZR e' / 10 * T) * cos (phase k a)) (fun r => (IZR (g3 (snd r)) + IZR (g4 (snd r)) / 10 * T) * cos (phase (fst r) a)))
    by (intros [k [[[p p'] e] e']]; reflexivity).
  match type of S1 with Rabs ?x <= _ => set (A1 := x) in * end. match type of S2 with Rabs ?x <= _ => set (A2 := x) in * end.
  unfold Rdiv. rewrite !Rabs_mult, (Rabs_right (/ 10000)) by lra. split; nra.
Qed.
Lemma oblique T : Rabs T <= 100 -> Rabs (mean_obliquity T) <= 30.
Proof.
  intros H. assert (P := poly_close T (23 + 26 / 60 + 21.448 / 3600) (-46.8150 / 3600) (-0.00059 / 3600) (0.001813 / 3600) 23.5 0.0131 0.000001 0.0000006
    ltac:(apply Rabs_le; lra) ltac:(apply Rabs_le; lra) ltac:(apply Rabs_le; lra) ltac:(apply Rabs_le; lra) H).
  unfold mean_obliquity. replace (23 + _ + _) with (23 + 26 / 60 + 21.448 / 3600 + -46.8150 / 3600 * T + -0.00059 / 3600 * T ^ 2 + 0.001813 / 3600 * T ^ 3) by lra. lra.
Qed.
Lemma fresh_close s jd : 0.01 < Rabs (jd - tjd_last ideal s) -> Rabs (centuries jd) <= 100 -> exists s' out, earthtilt ideal s jd = Ok (s', out) /\
  near5 (1 / 10 ^ 8) out (theory jd).
Proof.
  intros H HT. destruct (fresh s jd H) as (s' & mobl & tobl & eq & dpsi & deps & E & V). exists s', (mobl, tobl, eq, dpsi, deps). split; [exact E|]. unfold theory.
  set (T := centuries jd) in *. cbv zeta in V |- *. destruct V as (V1 & V2 & V3 & V4 & V5). destruct (nutation_close T HT) as [N1 N2].
  destruct (nutation_size (fundamental T) T HT) as [B1 B2]. destruct (nutation_size (code_args T) T HT) as [B3 B4]. assert (B5 := oblique T HT).
  set (p := nutation_lon (fundamental T) T) in *. set (q := nutation_obl (fundamental T) T) in *. rewrite <- V2 in *. rewrite <- V3 in *. clear V2 V3.
  unfold near5, orientation. cbv zeta. subst mobl. split; [rewrite Rminus_diag_eq, Rabs_R0 by reflexivity; lra|].
  assert (D4 : Rabs (tobl - (mean_obliquity T + q / 3600)) <= 1 / 10 ^ 11).
  { rewrite V4. replace (_ - _) with ((deps - q) * / 3600) by lra. rewrite Rabs_mult, (Rabs_right (/ 3600)) by lra. lra. }
  split; [lra|]. split; [|split; assumption].
  set (al := tobl * 3600 * (4848136811095359936 / 1000000000000000000000000)) in *. set (be := (mean_obliquity T + q / 3600) * (PI / 180)).
  assert (AB : Rabs (al - be) <= 2 / 10 ^ 11).
  { unfold al, be. assert (P := pi_in). set (u := mean_obliquity T + q / 3600) in *.
    assert (W : Rabs (3600 * (4848136811095359936 / 1000000000000000000000000)) <= 1) by (apply Rabs_le; lra).
    assert (K : Rabs ((3600 * (4848136811095359936 / 1000000000000000000000000)) - PI / 180) <= 1 / 10 ^ 17) by (apply Rabs_le; lra).
    replace (_ - _) with ((tobl - u) * (3600 * (4848136811095359936 / 1000000000000000000000000)) + u * ((3600 * (4848136811095359936 / 1000000000000000000000000)) - PI / 180)) by lra.
    set (w := (3600 * (4848136811095359936 / 1000000000000000000000000))) in *.
    assert (U : Rabs u <= 40). { unfold u. eapply Rle_trans; [apply Rabs_triang|]. unfold Rdiv. rewrite Rabs_mult, (Rabs_right (/ 3600)) by lra. lra. }
    eapply Rle_trans; [apply Rabs_triang|]. rewrite !Rabs_mult.
    assert (Q1 := Rabs_pos u). assert (Q2 := Rabs_pos (tobl - u)). assert (Q3 := Rabs_pos w). set (k := Rabs (w - _)) in *. assert (Q4 : 0 <= k) by apply Rabs_pos. assert (Rabs (tobl - u) * Rabs w <= 1 / 10 ^ 11 * 1) by (apply Rmult_le_compat; lra).
    assert (Rabs u * k <= 40 * (1 / 10 ^ 17)) by (apply Rmult_le_compat; lra). lra. }
  assert (CC := cos_near al be). rewrite V5. replace (dpsi / 15 * cos al - p * cos be / 15) with ((dpsi - p) / 15 * cos al + p / 15 * (cos al - cos be)) by lra.
  eapply Rle_trans; [apply Rabs_triang|]. unfold Rdiv. rewrite !Rabs_mult, (Rabs_right (/ 15)) by lra.
  assert (C1 := cos_1 al). assert (Q0 := Rabs_pos (cos al)). assert (Q1 := Rabs_pos (dpsi - p)). assert (Q2 := Rabs_pos p). assert (Q3 := Rabs_pos (cos al - cos be)).
  assert (M1 : Rabs (dpsi - p) * / 15 * Rabs (cos al) <= 1 / 10 ^ 8 * / 15 * 1) by (apply Rmult_le_compat; lra).
  assert (M2 : Rabs p * / 15 * Rabs (cos al - cos be) <= 25 * / 15 * (2 / 10 ^ 11)) by (apply Rmult_le_compat; lra). lra.
Qed.
Lemma theory_size jd : Rabs (centuries jd) <= 100 -> Rabs (equinoxes jd) <= 2.
Proof.
  intros H. unfold equinoxes, theory, orientation. cbv zeta. set (T := centuries jd) in *. destruct (nutation_size (fundamental T) T H) as [B _]. set (p := nutation_lon _ T) in *.
  unfold Rdiv. rewrite !Rabs_mult, (Rabs_right (/ 15)) by lra. match goal with |- _ * Rabs (cos ?x) * _ <= _ => assert (C := cos_1 x); assert (P := Rabs_pos (cos x)) end. assert (P' := Rabs_pos p). nra.
Qed.
(** A history of calls for dates within 100 centuries of J2000. *)
Lemma recent dates jd : (forall j, In j (jd :: dates) -> Rabs (centuries j) <= 100) ->
  exists st st' out, tilt_after ideal dates = Ok st /\ earthtilt ideal st jd = Ok (st', out) /\
  (out = (0, 0, 0, 0, 0) /\ (forall j, In j (jd :: dates) -> Rabs j <= 0.01) \/
   exists j, In j (jd :: dates) /\ Rabs (jd - j) <= 0.01 /\ near5 (1 / 10 ^ 8) out (theory j)).
Proof.
  intros H. destruct (cache ideal dates jd) as (st & st' & out & E & F & C). exists st, st', out. split; [exact E|]. split; [exact F|].
  destruct C as [[-> C]|(j & I & C & K)].
  - left. split; [unfold results; cbn; unfold int; cbn; replace (0 / 1) with 0 by lra; reflexivity|]. intros j I. specialize (C j I). apply apart_R_f in C. unfold int in C. cbn in C. replace (j - 0 / 1) with j in C by lra. exact C.
  - right. exists j. split; [exact I|]. split.
    + destruct C as [->|C]; [rewrite Rminus_diag_eq, Rabs_R0 by reflexivity; lra | apply apart_R_f; exact C].
    + set (s := mk_tilt ideal (j + 1) 0 0 0 0 0). assert (A1 : 0.01 < Rabs (j - tjd_last ideal s)) by (cbn; replace (j - (j + 1)) with (-1) by ring; rewrite Rabs_left; lra).
      destruct (fresh_close s j A1 (H j I)) as (s1 & o1 & E1 & N). destruct (K s (proj2 (apart_R _ _) A1)) as (s2 & E2). rewrite E1 in E2. inversion E2; subst. exact N.
Qed.
