(** The sunlit flag is that of the second instant. *)
From Coq Require Import ZArith Reals Lra Lia Bool Psatz List Classical.
From Verif Require Import CLib ArithModel GeoLemmas GeoModel GeoSpec OrbModel OrbTerms DeepModel DeepProofs1 DeepProofs7 TimeSpec.
From Verif Require OrbSpec.
From Verif Require Import GeoProofs1 GeoProofs6 PipeModel PipeSpec PipeTerms PipeProofs1 PipeProofs3 PipeProofs4 PipeProofs5.
Open Scope R_scope.

(** The Sun at noon of 20 March 2000. *)
Lemma sun_march : exists sx sy sz, sun_at 2451624 = (149597870.700 * sx, 149597870.700 * sy, 149597870.700 * sz) /\
  sx * sx + sy * sy + sz * sz = 1 /\ 99 / 100 <= sx /\ Rabs sy <= 7 / 100 /\ Rabs sz <= 7 / 100.
Proof.
  unfold sun_at, ecliptic_dir. set (l := almanac_longitude (2451624 - 2451545)). set (eps := almanac_obliquity (2451624 - 2451545)).
  exists (cos l), (cos eps * sin l), (sin eps * sin l). split; [reflexivity|].
  assert (S1 := sc2 l). assert (S2 := sc2 eps).
  split. { transitivity (sin l * sin l * (sin eps * sin eps + cos eps * cos eps) + cos l * cos l); [ring|]. rewrite S2. lra. }
  assert (P := pi_bounds). assert (P0 := PI_RGT_0).
  assert (B : Rabs (l - 2 * PI) <= 64 / 1000).
  { unfold l, almanac_longitude, radians. match goal with |- context [sin (2 * ?x)] => set (g := x) end. generalize (SIN_bound g) (SIN_bound (2 * g)). generalize (sin g) (sin (2 * g)). intros s1 s2 B1 B2.
    replace ((280.460 + 0.9856474 * (2451624 - 2451545) + 1.915 * s1 + 0.020 * s2) * (PI / 180) - 2 * PI)
      with ((-1.6738554 + 1.915 * s1 + 0.020 * s2) * (PI / 180)) by lra.
    rewrite Rabs_mult, (Rabs_pos_eq (PI / 180)) by lra. apply Rle_trans with (3.61 * (PI / 180)); [|lra]. apply Rmult_le_compat_r; [lra|]. apply Rabs_le. lra. }
  assert (SL : Rabs (sin l) <= 64 / 1000). { eapply Rle_trans; [|exact B]. assert (Q := sin_lip l (2 * PI)). rewrite sin_2PI, Rminus_0_r in Q. exact Q. }
  assert (CL : Rabs (cos l - 1) <= 64 / 1000). { eapply Rle_trans; [|exact B]. assert (Q := cos_diff l (2 * PI)). rewrite cos_2PI in Q. exact Q. }
  destruct (unit_bounds eps) as [CE SE]. assert (P1 := Rabs_pos (sin l)).
  split; [|rewrite !Rabs_mult; split; [apply Rle_trans with (1 * Rabs (sin l)) | apply Rle_trans with (1 * Rabs (sin l))]; try lra; apply Rmult_le_compat_r; lra].
  apply OrbProofs3.Rabs_inv in SL, CL. nra.
Qed.
Lemma dot_bound uy uz sy sz : uy * uy + uz * uz <= 1 -> Rabs sy <= 7 / 100 -> Rabs sz <= 7 / 100 -> Rabs (uy * sy + uz * sz) <= 14 / 100.
Proof.
  intros U Y Z. assert (Rabs uy <= 1) by (apply Rabs_le; nra). assert (Rabs uz <= 1) by (apply Rabs_le; nra).
  eapply Rle_trans; [apply Rabs_triang|]. rewrite !Rabs_mult.
  assert (Rabs uy * Rabs sy <= 1 * (7 / 100)) by (apply Rmult_le_compat; try apply Rabs_pos; lra).
  assert (Rabs uz * Rabs sz <= 1 * (7 / 100)) by (apply Rmult_le_compat; try apply Rabs_pos; lra). lra.
Qed.

Section Geometry.
Context (rho ux uy uz sx sy sz au : R).
Context (U1 : ux * ux + uy * uy + uz * uz = 1) (S1 : sx * sx + sy * sy + sz * sz = 1) (AU : 100000 <= au) (RH : 9000 <= rho <= 9300).
Let c := ux * sx + uy * sy + uz * sz.
Lemma lit_side : 1 / 2 <= c -> ~ blocked erad (rho * ux, rho * uy, rho * uz) (au * sx, au * sy, au * sz).
Proof.
  intros C (d & D & N). unfold norm, plus, scale, minus, dot in N.
  match type of N with sqrt ?x <= _ => assert (E : x = rho * rho + d * (2 * rho * (au * c - rho)) + d * d * (au * au + rho * rho - 2 * au * rho * c)) end.
  { transitivity ((rho * rho) * ((1 - d) * (1 - d)) * (ux * ux + uy * uy + uz * uz) + d * d * au * au * (sx * sx + sy * sy + sz * sz) + 2 * (1 - d) * d * rho * au * c); [unfold c; ring|].
    rewrite U1, S1. ring. }
  rewrite E in N. clear E. unfold erad in N.
  assert (C1 : c <= 1). { assert (Q := Rle_0_sqr (ux - sx)). assert (Q2 := Rle_0_sqr (uy - sy)). assert (Q3 := Rle_0_sqr (uz - sz)). unfold Rsqr in *. unfold c. lra. }
  assert (A1 : 0 <= au * c - rho) by nra. assert (A2 : 0 <= d * (2 * rho * (au * c - rho))) by (apply Rmult_le_pos; [lra|]; apply Rmult_le_pos; lra).
  assert (A3 : 0 <= au * au + rho * rho - 2 * au * rho * c). { assert (0 <= (au - rho) * (au - rho)) by apply Rle_0_sqr. assert (0 <= au * rho) by (apply Rmult_le_pos; lra). nra. }
  assert (A4 : 0 <= d * d * (au * au + rho * rho - 2 * au * rho * c)) by (apply Rmult_le_pos; [apply Rle_0_sqr | exact A3]).
  assert (B : sqrt (9000 * 9000) <= 63781366 / 10000). { eapply Rle_trans; [|exact N]. apply sqrt_le_1; nra. }
  rewrite sqrt_square in B by lra. lra.
Qed.
Lemma dark_side : c <= - (80 / 100) -> blocked erad (rho * ux, rho * uy, rho * uz) (au * sx, au * sy, au * sz).
Proof.
  intros C. exists (rho / (au + rho)). split; [apply Rmult_le_pos; [lra | apply Rlt_le, Rinv_0_lt_compat; lra]|].
  unfold norm, plus, scale, minus, dot. set (m := au * rho / (au + rho)).
  match goal with |- sqrt ?x <= _ => assert (E : x = m * m * (2 + 2 * c)) end.
  { transitivity (m * m * ((ux * ux + uy * uy + uz * uz) + (sx * sx + sy * sy + sz * sz) + 2 * c)); [unfold c, m; field; lra|]. rewrite U1, S1. ring. }
  rewrite E. assert (M : 0 <= m <= rho).
  { unfold m. split; [apply Rmult_le_pos; [nra | apply Rlt_le, Rinv_0_lt_compat; lra]|]. apply (Rmult_le_reg_r (au + rho)); [lra|]. unfold Rdiv. rewrite Rmult_assoc, Rinv_l by lra. nra. }
  assert (C1 : -1 <= c). { assert (Q := Rle_0_sqr (ux + sx)). assert (Q2 := Rle_0_sqr (uy + sy)). assert (Q3 := Rle_0_sqr (uz + sz)). unfold Rsqr in *. unfold c. lra. }
  apply Rle_trans with (sqrt (5900 * 5900)).
  - apply sqrt_le_1; try lra; [apply Rmult_le_pos; nra|]. assert (m * m <= 9300 * 9300) by (apply Rmult_le_compat; lra). assert (0 <= m * m) by nra. nra.
  - rewrite sqrt_square by lra. unfold erad. lra.
Qed.
End Geometry.

(** Somewhere on the way from the lit side it is lit, and one second later dark. *)
Definition low_at (j : nat) (p : OrbModel.place ideal) : Prop := propagate (INR j / 60) o_low = Ok p /\ pl_code ideal p = 0%Z.
Definition dark (j : nat) : Prop := exists p, low_at j p /\ blocked erad (pl_pos ideal p) (sun_at 2451624).
Lemma low_defined j : (j <= 4380)%nat -> exists p, low_at j p.
Proof.
  intros J. apply le_INR in J. replace (INR 4380) with 4380 in J by (rewrite INR_IZR_INZ; reflexivity). assert (P := pos_INR j).
  destruct (low_where (INR j / 60)) as (p & _ & _ & _ & _ & P1 & P2 & _); [apply Rabs_le; lra|]. exists p. split; assumption.
Qed.
Lemma not_dark_0 : ~ dark 0.
Proof.
  intros (p & [P1 _] & B). destruct (low_where (INR 0 / 60)) as (p' & rho & ux & uy & uz & Q1 & _ & Q3 & Q4 & Q5 & Q6). { cbn [INR]. rewrite Rabs_pos_eq; lra. }
  rewrite P1 in Q1. injection Q1 as <-. rewrite Q3 in B. destruct sun_march as (sx & sy & sz & S0 & S1 & S2 & S3 & S4). rewrite S0 in B.
  replace (INR 0 / 60) with 0 in Q6 by (cbn [INR]; lra). rewrite Rmult_0_r, cos_0 in Q6. apply OrbProofs3.Rabs_inv in Q6.
  revert B. apply lit_side; try assumption; try (unfold OrbSpec.XKMPER in *; lra).
  assert (D := dot_bound uy uz sy sz ltac:(nra) S3 S4). apply OrbProofs3.Rabs_inv in D. nra.
Qed.
Lemma dark_end : dark 4380.
Proof.
  destruct (low_where (INR 4380 / 60)) as (p & rho & ux & uy & uz & Q1 & Q2 & Q3 & Q4 & Q5 & Q6).
  { rewrite INR_IZR_INZ. change (Z.of_nat 4380) with 4380%Z. rewrite Rabs_pos_eq; lra. }
  exists p. split; [split; assumption|]. rewrite Q3. destruct sun_march as (sx & sy & sz & -> & S1 & S2 & S3 & S4).
  replace (INR 4380 / 60) with 73 in Q6 by (rewrite INR_IZR_INZ; change (Z.of_nat 4380) with 4380%Z; lra).
  destruct low_rates as (_ & R2 & R3). assert (NR := n_low_range). assert (P := pi_bounds).
  assert (A : Rabs ((low_M + low_w) * n_low * 73 - PI) <= 1 / 100).
  { assert (1 * (4303 / 100000) <= (low_M + low_w) * n_low <= (1 + 2 / 1000) * (4304 / 100000)) by (split; apply Rmult_le_compat; lra). apply Rabs_le. lra. }
  assert (CD := Rle_trans _ _ _ (cos_diff ((low_M + low_w) * n_low * 73) PI) A). rewrite cos_PI in CD. apply OrbProofs3.Rabs_inv in Q6, CD.
  apply dark_side; try assumption; try (unfold OrbSpec.XKMPER in *; lra).
  assert (D := dot_bound uy uz sy sz ltac:(nra) S3 S4). apply OrbProofs3.Rabs_inv in D. assert (sx <= 1) by nra. nra.
Qed.
Lemma dusk : exists j, (j < 4380)%nat /\ ~ dark j /\ dark (S j).
Proof.
  assert (G : forall m, dark m -> exists j, (j < m)%nat /\ ~ dark j /\ dark (S j)).
  { induction m as [|m IH]; intros D; [destruct (not_dark_0 D)|]. destruct (classic (dark m)) as [E|E].
    - destruct (IH E) as (j & J1 & J2). exists j. split; [lia | exact J2].
    - exists m. split; [lia | split; assumption]. }
  exact (G 4380%nat dark_end).
Qed.

(** Near-Earth satellites of a plain request always get their numbers. *)
Lemma near_seen n k (q : request ideal) f t h p p2 : rq_geoloc ideal q = false -> rq_single ideal q = false -> rq_georef ideal q = false ->
  select_ephemeris ideal (d_orb ideal t) = 0%Z -> let jd := jd_of ideal q in
  propagate (minutes_at t jd) (d_orb ideal t) = Ok p -> propagate (minutes_at t (jd + IZR (rq_delta ideal q) / 86400)) (d_orb ideal t) = Ok p2 ->
  exists s, satellite ideal n k q f t h = Ok (h, Seen ideal s).
Proof.
  intros G1 G2 G3 S jd E1 E2. unfold satellite, SxP4_init. rewrite S. cbn [Z.eqb]. unfold propagate in *.
  set (t1 := mul ideal (sub ideal (jd_of ideal q) (d_epoch ideal t)) (int ideal 1440)).
  assert (T1 : t1 = minutes_at t jd). { unfold t1, minutes_at. rewrite int_ideal. reflexivity. }
  rewrite T1. cbn [SxP4]. rewrite E1. cbn [bind].
  destruct (get_satellite_ra_dec_delta ideal (fr_obs ideal f) _) as [[ra0 dec0] dist]. rewrite !isnan_ideal. cbn [Datatypes.orb]. rewrite G1, G2. cbn [Datatypes.orb bind].
  destruct (epoch_of_date_to_j2000 ideal (jd_of ideal q) ra0 dec0) as [ra dec].
  cbn [SxP4]. match goal with |- context [SGP4 ideal ?x _ _] => set (t2 := x) end.
  assert (T2 : t2 = minutes_at t (jd + IZR (rq_delta ideal q) / 86400)).
  { unfold t2, minutes_at, jd. change (c_real ideal (rq_delta ideal q)) with (IZR (rq_delta ideal q)). rewrite !int_ideal.
    change ((jd_of ideal q - d_epoch ideal t) * 1440 + IZR (rq_delta ideal q) * 1440 / 86400 = (jd_of ideal q + IZR (rq_delta ideal q) / 86400 - d_epoch ideal t) * 1440). change (num ideal) with R. field. }
  rewrite T2, E2. cbn [bind].
  destruct (get_satellite_ra_dec_delta ideal (fr_obs2 ideal f) _) as [[ra2 dec2] dist2]. destruct (epoch_of_date_to_j2000 ideal (jd_of ideal q) ra2 dec2) as [ra1 dec1].
  unfold separations. rewrite G3. destruct (rq_haversine ideal q); cbn [bind]; eexists; reflexivity.
Qed.

Definition march_request : request ideal := mk_request ideal 0 0 0 51623.5 1 0 0 false false false false true.
Lemma march_jd : jd_of ideal march_request = 2451624 :> R.
Proof. rewrite jd_eq. cbn [march_request rq_mjd]. lra. Qed.
Lemma lit_wrong : exists (q : request ideal) f t n k s p, rq_delta ideal q = 1%Z /\ prepare ideal q = Ok f /\
  select_ephemeris ideal (d_orb ideal t) = 0%Z /\ satellite ideal n k q f t (cache0 ideal) = Ok (cache0 ideal, Seen ideal s) /\
  propagate (minutes_at t (jd_of ideal q)) (d_orb ideal t) = Ok p /\ sg_code1 ideal s = 0%Z /\ sg_code2 ideal s = 0%Z /\
  ~ blocked erad (pl_pos ideal p) (sun_at (jd_of ideal q)) /\ sg_lit ideal s = false.
Proof.
  destruct dusk as (j & J & N & D). destruct (low_defined j ltac:(lia)) as [p [P1 P2]]. destruct D as (p2 & [Q1 Q2] & B).
  assert (JO : jd_ok march_request). { unfold jd_ok. rewrite march_jd. split; [lra|]. cbn [march_request rq_lon]. rewrite Rabs_R0. lra. }
  destruct (prepare_ok march_request JO) as [f F].
  set (t := mk_dorb ideal o_low (2451624 - INR j / 86400)).
  assert (M1 : minutes_at t (jd_of ideal march_request) = INR j / 60).
  { unfold minutes_at. rewrite march_jd. cbn [t d_epoch]. field. }
  assert (M2 : minutes_at t (jd_of ideal march_request + IZR (rq_delta ideal march_request) / 86400) = INR (S j) / 60).
  { unfold minutes_at. rewrite march_jd, S_INR. cbn [t d_epoch march_request rq_delta]. field. }
  destruct (near_seen 0 0 march_request f t (cache0 ideal) p p2 eq_refl eq_refl eq_refl low_near) as [s S]; [rewrite M1; exact P1 | rewrite M2; exact Q1 |].
  exists march_request, f, t, 0%nat, 0%nat, s, p.
  destruct (place_seen 0 0 march_request f t _ _ s JO F S) as (pos & pos2 & PO & _ & _ & L).
  { cbn [march_request rq_lat]. replace (radians 0) with 0 by (unfold radians; ring). rewrite cos_0. lra. }
  { rewrite march_jd. cbn [march_request rq_delta]. lra. }
  apply near_positions in PO; [|exact low_near]. destruct PO as (p' & p2' & E1 & E2 & -> & -> & E3 & E4).
  rewrite M1 in E1. cbn [t d_orb] in E1. rewrite P1 in E1. injection E1 as <-. rewrite M2 in E2. cbn [t d_orb] in E2. rewrite Q1 in E2. injection E2 as <-.
  split; [reflexivity|]. split; [exact F|]. split; [exact low_near|]. split; [exact S|]. rewrite M1. split; [exact P1|].
  split; [rewrite E3; exact P2|]. split; [rewrite E4; exact Q2|]. split.
  - rewrite march_jd. intros BB. apply N. exists p. split; [split; assumption | exact BB].
  - destruct (sg_lit ideal s) eqn:LL; [|reflexivity]. exfalso. apply L; [|reflexivity|rewrite march_jd; exact B].
    destruct (low_where (INR (Datatypes.S j) / 60)) as (pp & rho & ux & uy & uz & W1 & _ & W3 & W4 & W5 & _).
    { assert (Z := pos_INR (Datatypes.S j)). assert (Y : (Datatypes.S j <= 4380)%nat) by lia. apply le_INR in Y. rewrite (INR_IZR_INZ 4380) in Y. change (Z.of_nat 4380) with 4380%Z in Y. rewrite Rabs_pos_eq; lra. }
    rewrite Q1 in W1. injection W1 as <-. rewrite W3, march_jd. destruct sun_march as (sx & sy & sz & -> & S1 & S2 & _). unfold minus. intros Z.
    assert (X := f_equal (fun v => fst (fst v)) Z). cbn [fst] in X. assert (ux <= 1) by nra. unfold OrbSpec.XKMPER in W5. nra.
Qed.
