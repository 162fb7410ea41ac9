(** The observer stands still while the satellite moves. *)
From Coq Require Import ZArith Reals Lra Lia Bool Psatz.
From Verif Require Import CLib ArithModel GeoLemmas GeoModel GeoSpec TimeModel TimeSpec TimeProofs OrbModel OrbTerms DeepModel DeepProofs1 DeepProofs7.
From Verif Require Import PipeModel PipeSpec PipeTerms WatchModel WatchTerms.
From Verif Require Import GeoProofs1 GeoProofs2 GeoProofs3 GeoProofs4 GeoProofs5 GeoProofs6 GeoExamples PipeProofs1 PipeProofs2 PipeProofs3 PipeProofs4 PipeProofs5 PipeProofs8 PipeProofs9 PipeProofs10.
From Verif Require Import WatchProofs1 WatchProofs2 WatchProofs3 WatchProofs4.
Open Scope R_scope.

Lemma sin_low a : 0 <= a <= 1 -> a - a ^ 3 / 6 <= sin a <= a.
Proof.
  intros A. split; [|destruct (Req_dec a 0) as [->|N]; [rewrite sin_0; lra | apply Rlt_le, sin_lt_x; lra]].
  destruct (pre_sin_bound a 0) as [L _]; [lra | lra|]. unfold sin_approx, sin_term in L. simpl in L. lra.
Qed.
Lemma cos_low a : 0 <= a <= 1 -> 1 - a ^ 2 / 2 <= cos a.
Proof.
  intros A. destruct (pre_cos_bound a 0) as [L _]; [lra | lra|]. unfold cos_approx, cos_term in L. simpl in L. lra.
Qed.

(** The angle between an axis and a direction with components x along it and y across. *)
Lemma angle_parts c s ra dec d x y a : c * c + s * s = 1 -> 0 < d -> scale d (dir ra dec) = (x * c - y * s, x * s + y * c, 0) ->
  angle_between (c, s, 0) (dir ra dec) a -> 0 <= y -> d * cos a = x /\ d * sin a = y /\ d * d = x * x + y * y.
Proof.
  intros CS D E [A1 A2] Y. assert (DC : d * cos a = x).
  { rewrite A2. transitivity (dot (c, s, 0) (scale d (dir ra dec))); [unfold dot, scale, dir; ring|]. rewrite E. unfold dot.
    transitivity (x * (c * c + s * s)); [ring | rewrite CS; ring]. }
  assert (DD : d * d = x * x + y * y).
  { assert (U : dot (dir ra dec) (dir ra dec) = 1).
    { unfold dot, dir. assert (S1 := sin2_cos2 ra). assert (S2 := sin2_cos2 dec). unfold Rsqr in S1, S2.
      transitivity (cos dec * cos dec * (sin ra * sin ra + cos ra * cos ra) + sin dec * sin dec); [ring | rewrite S1; lra]. }
    transitivity (dot (scale d (dir ra dec)) (scale d (dir ra dec))); [rewrite <- (Rmult_1_r (d * d)), <- U; unfold dot, scale, dir; ring|]. rewrite E. unfold dot.
    transitivity ((x * x + y * y) * (c * c + s * s)); [ring | rewrite CS; ring]. }
  split; [exact DC|]. split; [|exact DD]. assert (SA : 0 <= sin a) by (apply sin_ge_0; lra). assert (S := sin2_cos2 a). unfold Rsqr in S.
  assert (Q : (d * sin a) * (d * sin a) = y * y).
  { transitivity (d * d * (sin a * sin a + cos a * cos a) - (d * cos a) * (d * cos a)); [ring|]. rewrite S, DC, DD. ring. }
  assert (0 <= d * sin a) by nra. nra.
Qed.

(** Two angles, from the lines of sight. *)
Lemma angles_apart d1 d2 x1 y1 x2 y2 a1 a2 : 0 < d1 -> 0 < d2 -> d1 * cos a1 = x1 -> d1 * sin a1 = y1 -> d1 * d1 = x1 * x1 + y1 * y1 ->
  d2 * cos a2 = x2 -> d2 * sin a2 = y2 -> d2 * d2 = x2 * x2 + y2 * y2 -> 0 <= a1 <= PI -> 0 <= a2 <= PI ->
  0 < y2 -> 0 < x1 <= x2 -> y1 <= 1 / 5 * x1 -> 107 / 100 * y2 <= y1 -> 105 / 100 * a2 < a1.
Proof.
  intros D1 D2 C1 S1 N1 C2 S2 N2 A1 A2 Y2 X1 Y1 YY. assert (P := pi_bounds).
  assert (L1 : sin a1 <= a1) by (destruct (Req_dec a1 0) as [->|N]; [rewrite sin_0; lra | apply Rlt_le, sin_lt_x; lra]).
  (* the second angle is small *)
  assert (B2 : a2 <= 1 / 5).
  { destruct (Rle_dec a2 (1 / 5)) as [L|L]; [exact L|]. exfalso.
    assert (X5 : cos a2 <= cos (1 / 5)) by (apply cos_decr_1; lra).
    assert (S5 : sin (1 / 5) <= sin a2 \/ cos a2 <= 0).
    { destruct (Rle_dec a2 (PI / 2)); [left; apply sin_incr_1; lra | right; apply cos_le_0; lra]. }
    destruct S5 as [S5|S5]; [|nra]. assert (Q := sin_low (1 / 5) ltac:(lra)). simpl in Q.
    assert (T : 19 / 100 <= sin a2) by lra. assert (y2 <= 187 / 1000 * x2) by nra. assert (CB := COS_bound a2). nra. }
  assert (L2 : a2 * (1 - 1 / 150) <= sin a2). { destruct (sin_low a2) as [Q _]; [lra|]. assert (a2 * a2 <= 1 / 25) by nra. assert (a2 ^ 3 = a2 * a2 * a2) by ring. nra. }
  (* the ratio of the sines *)
  assert (R : 106 / 100 * sin a2 <= sin a1).
  { assert (SP1 : 0 <= sin a1) by (apply sin_ge_0; lra). assert (SP2 : 0 <= sin a2) by (apply sin_ge_0; lra).
    assert (Q1 : 0 <= y2 * y2) by nra. assert (Q2 : (107 / 100) * (107 / 100) * (y2 * y2) <= y1 * y1) by nra.
    assert (Q3 : y1 * y1 <= 1 / 25 * (x1 * x1)) by nra. assert (Q4 : x1 * x1 <= x2 * x2) by nra.
    assert (E1 : sin a1 * sin a1 * (d1 * d1) = y1 * y1) by (rewrite <- S1; ring). assert (E2 : sin a2 * sin a2 * (d2 * d2) = y2 * y2) by (rewrite <- S2; ring).
    (* y1^2 d2^2 >= 1.06^2 y2^2 d1^2 *)
    assert (K : (106 / 100) * (106 / 100) * (y2 * y2 * (d1 * d1)) <= y1 * y1 * (d2 * d2)).
    { rewrite N1, N2. set (u := y1 * y1) in *. set (v := y2 * y2) in *. set (s := x1 * x1) in *. set (t := x2 * x2) in *. clearbody u v s t. assert (0 <= s) by nra. nra. }
    assert (KK : (106 / 100) * (106 / 100) * (sin a2 * sin a2) <= sin a1 * sin a1).
    { apply (Rmult_le_reg_r (d1 * d1 * (d2 * d2))); [apply Rmult_lt_0_compat; nra|].
      replace (sin a1 * sin a1 * (d1 * d1 * (d2 * d2))) with (sin a1 * sin a1 * (d1 * d1) * (d2 * d2)) by ring. rewrite E1.
      replace (106 / 100 * (106 / 100) * (sin a2 * sin a2) * (d1 * d1 * (d2 * d2))) with (106 / 100 * (106 / 100) * (sin a2 * sin a2 * (d2 * d2) * (d1 * d1))) by ring. rewrite E2. exact K. }
    nra. }
  assert (0 < a2). { destruct A2 as [[A2|A2] _]; [exact A2|]. rewrite <- A2, sin_0 in S2. lra. }
  lra.
Qed.
Lemma dir_along c s ra dec d k : c * c + s * s = 1 -> 0 < d -> 0 < k -> scale d (dir ra dec) = scale k (c, s, 0) -> dir ra dec = (c, s, 0).
Proof.
  intros CS D K E. assert (U : dot (dir ra dec) (dir ra dec) = 1).
  { unfold dot, dir. assert (S1 := sin2_cos2 ra). assert (S2 := sin2_cos2 dec). unfold Rsqr in S1, S2.
    transitivity (cos dec * cos dec * (sin ra * sin ra + cos ra * cos ra) + sin dec * sin dec); [ring | rewrite S1; lra]. }
  assert (DK : d * d = k * k).
  { transitivity (dot (scale d (dir ra dec)) (scale d (dir ra dec))); [rewrite <- (Rmult_1_r (d * d)), <- U; unfold dot, scale, dir; ring|]. rewrite E. unfold dot, scale.
    transitivity (k * k * (c * c + s * s)); [ring | rewrite CS; ring]. }
  assert (d = k) by nra. subst k. unfold scale, dir in *. injection E as E1 E2 E3. f_equal; [f_equal|]; apply (Rmult_eq_reg_l d); lra.
Qed.

Lemma nonzero_turn x y c s : c * c + s * s = 1 -> x * c - y * s = 0 -> x * s + y * c = 0 -> x = 0.
Proof.
  intros CS X Y. transitivity (c * (x * c - y * s) + s * (x * s + y * c)); [|rewrite X, Y; ring].
  transitivity (x * (c * c + s * s)); [rewrite CS; ring | ring].
Qed.

Lemma close_angles c1 s1 c2 s2 c s : - (2 / 100000) <= c1 - 1 <= 2 / 100000 -> - (2 / 100000) <= s1 - 0 <= 2 / 100000 ->
  - (2 / 100000) <= c2 - c <= 2 / 100000 -> - (2 / 100000) <= s2 - s <= 2 / 100000 -> 999 / 1000 <= c <= 1 -> 4286 / 100000 <= s <= 434 / 10000 ->
  998 / 1000 <= c2 * c1 + s2 * s1 /\ 427 / 10000 <= s2 * c1 - c2 * s1 <= 436 / 10000.
Proof.
  intros A B C D E F. assert (998 / 1000 <= c2 <= 1001 / 1000) by lra. assert (42 / 1000 <= s2 <= 44 / 1000) by lra.
  assert (P : forall u v : R, 0 <= u <= 2 -> - (2 / 100000) <= v <= 2 / 100000 -> - (4 / 100000) <= u * v <= 4 / 100000) by (intros u v U V; split; nra).
  assert (Q1 := P c2 (c1 - 1) ltac:(lra) ltac:(lra)). assert (Q2 := P s2 s1 ltac:(lra) ltac:(lra)). assert (Q3 := P s2 (c1 - 1) ltac:(lra) ltac:(lra)). assert (Q4 := P c2 s1 ltac:(lra) ltac:(lra)).
  split; [|split]; lra.
Qed.

(** The sidereal time of one minute. *)
Definition midnight : R := 2461041.5.
Lemma midnight_start x : 0 <= x < 1 -> day_start (midnight + x) = midnight.
Proof.
  intros X. unfold day_start. assert (E : Int_part (midnight + x - 1 / 2) = 2461041%Z).
  { symmetry. unfold Int_part. assert (up (midnight + x - 1 / 2) = 2461042%Z); [|lia]. symmetry. apply tech_up; unfold midnight; lra. }
  rewrite E. unfold midnight. lra.
Qed.
Lemma minute_turn : sidereal (midnight + IZR 60 / 86400) - sidereal midnight = 2 * PI * (1.00273790934 * (60 / 86400)).
Proof.
  assert (S0 : day_start midnight = midnight) by (rewrite <- (Rplus_0_r midnight) at 1; apply midnight_start; lra).
  unfold sidereal, gmst_hours. rewrite (midnight_start (60 / 86400)), S0 by lra. unfold radians. field.
Qed.

Definition under_flat (lon : R) : watch ideal := mk_watch ideal 0 lon 0 60.
Definition flat_set : dorb ideal := mk_dorb ideal o_flat midnight.

Lemma speed_wrong : exists (w : watch ideal) t n jd h h' i h1 pa speed pos1 ra1 dec1 dist1 a,
  let jd1 := jd + IZR (w_delta ideal w) / 86400 in let lat := w_lat ideal w in let lon := w_lon ideal w in let ht := w_ht ideal w in
  select_ephemeris ideal (d_orb ideal t) = 0%Z /\ w_delta ideal w = 60%Z /\ date_ok w jd /\
  instant_at ideal n w t None h jd = Ok (h', i) /\ in_code ideal i = 0%Z /\ in_sep ideal i = 0 :> R /\ get_sat_PA_and_speed ideal n w t h' jd i = Ok (h1, pa, speed) /\
  position n t None h' jd1 pos1 0%Z /\ seen_at (site lat lon ht jd) (in_pos ideal i) (in_ra ideal i) (in_dec ideal i) (in_dist ideal i) /\
  seen_at (site lat lon ht jd1) pos1 ra1 dec1 dist1 /\ angle_between (dir (in_ra ideal i) (in_dec ideal i)) (dir ra1 dec1) a /\
  105 / 100 * (degrees a * 60 / IZR (w_delta ideal w)) < speed.
Proof.
  assert (P := pi_bounds). assert (FR := flat_rate_range).
  destruct (flat_moves 0) as (p & rho & phi & P1 & P2 & P3 & P4 & P5 & P6).
  destruct (flat_moves 1) as (p2 & rho2 & phi2 & Q1 & Q2 & Q3 & Q4 & Q5 & Q6). rewrite Rmult_0_r in P5, P6. rewrite cos_0 in P5. rewrite sin_0 in P6. rewrite Rmult_1_r in Q5, Q6.
  destruct (principal (phi - sidereal midnight)) as (th & T1 & T2 & T3).
  set (lon := degrees th). assert (RL : radians lon = th) by (unfold lon, radians, degrees; field; lra).
  assert (LB : Rabs lon <= 180). { unfold lon, degrees. apply Rabs_le. assert (0 < 180 / PI) by (apply Rdiv_lt_0_compat; lra).
    assert (PI * (180 / PI) = 180) by (field; lra). split; nra. }
  set (w := under_flat lon). assert (DO : date_ok w midnight). { split; [unfold midnight; lra|]. cbn [w under_flat w_lon]. lra. }
  set (jd1 := midnight + IZR 60 / 86400). set (W := 2 * PI * (1.00273790934 * (60 / 86400))).
  assert (WB : 43752 / 10000000 <= W <= 43754 / 10000000) by (unfold W; lra).
  assert (C0 : radians 0 = 0) by (unfold radians; ring).
  assert (TC : cos (radians lon + sidereal midnight) = cos phi) by (rewrite RL, cos_plus, T2, T3, <- cos_plus; f_equal; ring).
  assert (TS : sin (radians lon + sidereal midnight) = sin phi) by (rewrite RL, sin_plus, T2, T3, <- sin_plus; f_equal; ring).
  assert (S1E : sidereal jd1 = sidereal midnight + W) by (assert (M := minute_turn); fold jd1 W in M; lra).
  assert (TC1 : cos (radians lon + sidereal jd1) = cos phi * cos W - sin phi * sin W) by (rewrite S1E, <- Rplus_assoc, cos_plus, TC, TS; reflexivity).
  assert (TS1 : sin (radians lon + sidereal jd1) = sin phi * cos W + cos phi * sin W) by (rewrite S1E, <- Rplus_assoc, sin_plus, TC, TS; reflexivity).
  assert (V : vertical 0 lon midnight = (cos phi, sin phi, 0)) by (unfold vertical, dir; rewrite C0, cos_0, sin_0, TC, TS; f_equal; f_equal; ring).
  assert (SI : site 0 lon 0 midnight = (6378.140 * cos phi, 6378.140 * sin phi, 0)).
  { unfold site, geodetic, prime_vertical. rewrite C0, sin_0, cos_0, TC, TS. rewrite !Rmult_0_r, Rminus_0_r, sqrt_1. f_equal; f_equal; field. }
  assert (SI1 : site 0 lon 0 jd1 = (6378.140 * (cos phi * cos W - sin phi * sin W), 6378.140 * (sin phi * cos W + cos phi * sin W), 0)).
  { unfold site, geodetic, prime_vertical. rewrite C0, sin_0, cos_0, TC1, TS1. rewrite !Rmult_0_r, Rminus_0_r, sqrt_1. f_equal; f_equal; field. }
  assert (SC := sin2_cos2 phi). unfold Rsqr in SC. assert (SC' : cos phi * cos phi + sin phi * sin phi = 1) by lra.
  (* the two positions *)
  assert (M0 : minutes_at flat_set midnight = 0) by (unfold minutes_at; cbn [flat_set d_epoch]; ring).
  assert (M1 : minutes_at flat_set jd1 = 1) by (unfold minutes_at, jd1; cbn [flat_set d_epoch]; field).
  assert (PO : position 0 flat_set None (cache0 ideal) midnight (pl_pos ideal p) 0%Z).
  { apply near_position; [exact flat_near|]. rewrite M0. exists p. split; [exact P1|]. split; [reflexivity | symmetry; exact P2]. }
  assert (PO1 : forall h, position 0 flat_set None h jd1 (pl_pos ideal p2) 0%Z).
  { intros h. apply near_position; [exact flat_near|]. rewrite M1. exists p2. split; [exact Q1|]. split; [reflexivity | symmetry; exact Q2]. }
  destruct (instant_defined _ w _ _ _ _ _ _ DO PO) as (h' & i & ST & IP & IC).
  assert (CL : 0 < cos (radians (w_lat ideal w))) by (cbn [w under_flat w_lat]; rewrite C0, cos_0; lra).
  destruct (placed_at _ _ _ _ _ _ _ _ DO ST CL) as (_ & O & SN & (a0 & A01 & A02)). cbn [w under_flat w_lat w_lon w_ht] in O, SN, A01. fold w in O, SN, A01.
  assert (MM : minus (pl_pos ideal p) (site 0 lon 0 midnight) = scale (rho - 6378.140) (cos phi, sin phi, 0)).
  { etransitivity; [apply (f_equal (fun v => minus v (site 0 lon 0 midnight)) P4)|]. rewrite SI. unfold minus, scale. f_equal; [f_equal|]; ring. }
  unfold OrbSpec.XKMPER in P3, Q3. set (D := phi2 - phi).
  assert (DX : cos phi2 = cos D * cos phi - sin D * sin phi) by (replace phi2 with (D + phi) by (unfold D; ring); apply cos_plus).
  assert (DY : sin phi2 = cos D * sin phi + sin D * cos phi) by (replace phi2 with (D + phi) by (unfold D; ring); rewrite sin_plus; ring).
  assert (MM1 : minus (pl_pos ideal p2) (site 0 lon 0 midnight) = ((rho2 * cos D - 6378.140) * cos phi - rho2 * sin D * sin phi, (rho2 * cos D - 6378.140) * sin phi + rho2 * sin D * cos phi, 0)).
  { etransitivity; [apply (f_equal (fun v => minus v (site 0 lon 0 midnight)) Q4)|]. rewrite SI, DX, DY. unfold minus. f_equal; [f_equal|]; ring. }
  assert (MM2 : minus (pl_pos ideal p2) (site 0 lon 0 jd1) = ((rho2 * cos D - 6378.140 * cos W) * cos phi - (rho2 * sin D - 6378.140 * sin W) * sin phi, (rho2 * cos D - 6378.140 * cos W) * sin phi + (rho2 * sin D - 6378.140 * sin W) * cos phi, 0)).
  { etransitivity; [apply (f_equal (fun v => minus v (site 0 lon 0 jd1)) Q4)|]. rewrite SI1, DX, DY. unfold minus. f_equal; [f_equal|]; ring. }
  (* their angular distance *)
  assert (CM : 999 / 1000 <= cos flat_rate <= 1) by (split; [assert (Q := cos_low flat_rate ltac:(lra)); simpl in Q; nra | apply COS_bound]).
  assert (SM : 4286 / 100000 <= sin flat_rate <= 434 / 10000).
  { destruct (sin_low flat_rate) as [L U]; [lra|]. simpl in L. assert (flat_rate * flat_rate <= 2 / 1000) by nra. split; nra. }
  apply OrbProofs3.Rabs_inv in P5, P6, Q5, Q6.
  assert (DC : cos D = cos phi2 * cos phi + sin phi2 * sin phi) by (unfold D; rewrite cos_minus; ring).
  assert (DS : sin D = sin phi2 * cos phi - cos phi2 * sin phi) by (unfold D; rewrite sin_minus; ring).
  assert (CD : 998 / 1000 <= cos D) by (rewrite DC; apply (close_angles _ _ _ _ (cos flat_rate) (sin flat_rate)); lra).
  assert (SD : 427 / 10000 <= sin D <= 436 / 10000) by (rewrite DS; apply (close_angles _ _ _ _ (cos flat_rate) (sin flat_rate)); lra).
  assert (CW : 99 / 100 <= cos W <= 1) by (split; [assert (Q := cos_low W ltac:(lra)); simpl in Q; nra | apply COS_bound]).
  assert (SW : 4375 / 1000000 <= sin W <= 4376 / 1000000).
  { destruct (sin_low W) as [L U]; [lra|]. simpl in L. assert (W * W <= 2 / 100000) by nra. split; nra. }
  assert (CD1 := COS_bound D). set (x1 := rho2 * cos D - 6378.140) in *. set (y1 := rho2 * sin D) in *. set (x2 := rho2 * cos D - 6378.140 * cos W) in *. set (y2 := rho2 * sin D - 6378.140 * sin W) in *.
  assert (X1 : 2600 <= x1) by (unfold x1; nra). assert (X2 : x1 <= x2) by (unfold x1, x2; nra).
  assert (Y1 : 380 <= y1 <= 410) by (unfold y1; nra). assert (Y2 : y2 = y1 - 6378.140 * sin W) by reflexivity.
  assert (N0 : minus (pl_pos ideal p) (site 0 lon 0 midnight) <> (0, 0, 0)).
  { rewrite MM. unfold scale. intros E. assert (X := f_equal (fun v => fst (fst v)) E). cbn [fst snd] in X. apply Rmult_integral in X. destruct X as [X|X]; lra. }
  assert (N1 : minus (pl_pos ideal p2) (site 0 lon 0 midnight) <> (0, 0, 0)).
  { rewrite MM1. intros E. assert (X := f_equal (fun v : rvec => fst (fst v)) E). assert (Y := f_equal (fun v : rvec => snd (fst v)) E). cbn [fst snd] in X, Y. assert (Z := nonzero_turn _ _ _ _ SC' X Y). lra. }
  assert (N2 : minus (pl_pos ideal p2) (site 0 lon 0 jd1) <> (0, 0, 0)).
  { rewrite MM2. intros E. assert (X := f_equal (fun v : rvec => fst (fst v)) E). assert (Y := f_equal (fun v : rvec => snd (fst v)) E). cbn [fst snd] in X, Y. assert (Z := nonzero_turn _ _ _ _ SC' X Y). lra. }
  rewrite IP in SN. assert (SN1 := SN N0). assert (DI : dir (in_ra ideal i) (in_dec ideal i) = (cos phi, sin phi, 0)).
  { destruct SN1 as (_ & _ & B3 & B4). apply (dir_along _ _ _ _ (in_dist ideal i) (rho - 6378.140)); [exact SC' | exact B3 | lra|]. rewrite <- MM. exact B4. }
  (* the motion as computed *)
  assert (MO : exists h1 pa speed, get_sat_PA_and_speed ideal 0 w flat_set h' midnight i = Ok (h1, pa, speed)).
  { unfold get_sat_PA_and_speed, SxP4_init. change (d_orb ideal flat_set) with o_flat. rewrite flat_near. cbn [Z.eqb SxP4].
    match goal with |- context [SGP4 ideal ?x _ _] => set (m := x); assert (M : m = 1) end.
    { unfold m. rewrite !int_ideal. cbn [add sub mul div c_real ideal w under_flat w_delta flat_set d_epoch]. change (num ideal) with R. field. }
    rewrite M. unfold propagate in Q1. cbn [flat_set d_orb]. rewrite Q1. cbn [bind].
    destruct (get_satellite_ra_dec_delta ideal (in_obs ideal i) _) as [[ra dec] dist]. do 3 eexists. reflexivity. }
  destruct MO as (h1 & pa & speed & MO).
  destruct (motion_seen _ _ _ _ _ _ _ _ _ _ _ DO ST MO CL) as (pos & code & ra1 & dec1 & dist1 & PM & SE & (a1 & A1 & SP) & _).
  cbn [w under_flat w_lat w_lon w_ht w_delta] in PM, SE, SP. fold w jd1 in PM, SE, SP.
  apply near_position in PM; [|exact flat_near]. rewrite M1 in PM. destruct PM as (p2' & E1 & -> & _). cbn [flat_set d_orb] in E1. rewrite Q1 in E1. injection E1 as <-.
  destruct (SE N1) as (_ & _ & B3 & B4). rewrite DI in A1. assert (B4' := eq_trans B4 MM1).
  destruct (angle_parts _ _ _ _ _ _ _ _ SC' B3 B4' A1) as (E1 & E2 & E3); [lra|].
  (* the motion as it is *)
  destruct (get_satellite_ra_dec_delta ideal (site 0 lon 0 jd1) (pl_pos ideal p2)) as [[ra2 dec2] dist2] eqn:G2.
  assert (SE2 := topocentric _ _ _ _ _ N2 G2). destruct (skysep_angle (in_ra ideal i) (in_dec ideal i) ra2 dec2) as (a2 & A2 & _).
  exists w, flat_set, 0%nat, midnight, (cache0 ideal), h', i, h1, pa, speed, (pl_pos ideal p2), ra2, dec2, dist2, a2. cbv zeta.
  cbn [w under_flat w_lat w_lon w_ht w_delta]. fold w jd1.
  split; [exact flat_near|]. split; [reflexivity|]. split; [exact DO|]. split; [exact ST|]. split; [exact IC|].
  split. { rewrite DI, V in A01. destruct A01 as [B C]. assert (cos a0 = 1) by (rewrite C; unfold dot; lra).
    assert (a0 = 0) by (apply cos_inj; [lra | lra | rewrite cos_0; lra]). subst a0. rewrite A02. unfold degrees. ring. }
  split; [exact MO|]. split; [apply PO1|]. split. { rewrite IP. exact SN1. } split; [exact SE2|]. split; [exact A2|].
  destruct SE2 as (_ & _ & B5 & B6). rewrite DI in A2. assert (B6' := eq_trans B6 MM2).
  destruct (angle_parts _ _ _ _ _ _ _ _ SC' B5 B6' A2) as (F1 & F2 & F3); [lra|].
  assert (AA : 105 / 100 * a2 < a1).
  { apply (angles_apart dist1 dist2 x1 y1 x2 y2); try assumption; [apply A1 | apply A2 | lra | lra | lra | lra]. }
  rewrite SP. unfold degrees. assert (0 < 180 / PI) by (apply Rdiv_lt_0_compat; lra). nra.
Qed.
