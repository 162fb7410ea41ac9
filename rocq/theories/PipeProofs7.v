(** What is reported of a satellite does not depend on the satellites before it. *)
From Coq Require Import ZArith Reals Lra Lia Bool Psatz List.
From Verif Require Import CLib ArithModel GeoLemmas GeoModel GeoSpec OrbModel OrbTerms DeepModel DeepProofs1 DeepProofs7.
From Verif Require Import PipeModel PipeSpec PipeTerms PipeProofs1 PipeProofs3.
Import ListNotations.
Open Scope R_scope.

(** The kept positions are right for every date after the start of the day count. *)
Definition trusty (h : cache ideal) : Prop :=
  forall jd : R, 0 < jd -> h_jd ideal h = jd -> (h_lunar ideal h, h_solar ideal h) = lunar_solar_position ideal jd.
Lemma trusty0 : trusty (cache0 ideal).
Proof. intros jd J E. cbn [cache0 h_jd] in E. rewrite int_ideal in E. lra. Qed.
Lemma cached_same h jd : trusty h -> 0 < jd -> exists h', cached_lunar_solar_position ideal h jd = (h', lunar_solar_position ideal jd) /\ trusty h'.
Proof.
  intros T J. unfold cached_lunar_solar_position. cbn [eqn ideal]. destruct (Reqb (h_jd ideal h) jd) eqn:E; cbn [negb].
  - exists h. apply Reqb_t in E. rewrite (T jd J E). auto.
  - destruct (lunar_solar_position ideal jd) as [l s] eqn:L. exists (mk_cache ideal jd l s). cbn [h_lunar h_solar]. split; [reflexivity|].
    intros j _ <-. cbn [h_jd h_lunar h_solar]. symmetry. exact L.
Qed.
(** A computation that uses the kept positions and gives the same whatever they are. *)
Definition steady {X : Type} (c : cache ideal -> cache ideal * X) : Prop := exists x, forall h, trusty h -> exists h', c h = (h', x) /\ trusty h'.
Lemma steady_accel jd pos : 0 < jd -> steady (fun h => calc_accel ideal h jd pos).
Proof.
  intros J. unfold steady, calc_accel. destruct pos as [[x y] z]. destruct (lunar_solar_position ideal jd) as [l s] eqn:L. eexists. intros h T.
  destruct (cached_same h jd T J) as (h' & -> & T'). rewrite L. exists h'. split; [reflexivity | exact T'].
Qed.
Lemma steady_deriv jd s : 0 < jd -> steady (fun h => calc_state_vector_deriv ideal h jd s).
Proof.
  intros J. destruct (steady_accel jd (fst s) J) as [x X]. eexists. intros h T. unfold calc_state_vector_deriv. destruct (X h T) as (h' & -> & T'). exists h'. split; [reflexivity | exact T'].
Qed.
Lemma steady_step jd dt s : 0 < jd -> 0 < jd + dt -> steady (fun h => high_step ideal h jd dt s).
Proof.
  intros J0 J1. assert (JH : 0 < add ideal jd (div ideal dt (int ideal 2))) by (rewrite int_ideal; cbn [add div ideal]; lra).
  destruct (steady_deriv jd s J0) as [k0 K0].
  destruct (steady_deriv _ (along6 ideal (mul ideal (mul ideal dt (mul ideal (int ideal 60) (minutes_per_day ideal))) (cst ideal 5 10)) s k0) JH) as [k1 K1].
  destruct (steady_deriv _ (along6 ideal (mul ideal (mul ideal dt (mul ideal (int ideal 60) (minutes_per_day ideal))) (cst ideal 5 10)) s k1) JH) as [k2 K2].
  destruct (steady_deriv _ (along6 ideal (mul ideal dt (mul ideal (int ideal 60) (minutes_per_day ideal))) s k2) J1) as [k3 K3].
  eexists. intros h T. unfold high_step.
  destruct (K0 h T) as (h0 & -> & T0). destruct (K1 h0 T0) as (h1 & -> & T1). destruct (K2 h1 T1) as (h2 & -> & T2).
  change (add ideal jd dt) with (jd + dt). destruct (K3 h2 T2) as (h3 & -> & T3). exists h3. split; [reflexivity | exact T3].
Qed.
Lemma steady_loop : forall n jd tsince s, 0 < jd -> 0 < jd + tsince ->
  (forall h, trusty h -> high_loop ideal n h jd tsince s = None) \/
  exists x, forall h, trusty h -> exists h', high_loop ideal n h jd tsince s = Some (h', x) /\ trusty h'.
Proof.
  induction n as [|n IH]; intros jd ts s J0 J1; cbn [high_loop]; destruct (eqn ideal ts (int ideal 0)); try (right; exists s; intros h T; exists h; auto; fail); [left; reflexivity|].
  set (dt := if ltn ideal (int ideal 1) ts then _ else _).
  assert (JD : 0 < jd + dt).
  { unfold dt. rewrite int_ideal. cbn [ltn opp ideal]. destruct (Rltb 1 ts) eqn:A; [lra|]. destruct (Rltb ts (- (1))) eqn:B; [apply Rltb_t in B; lra | exact J1]. }
  destruct (steady_step jd dt s J0 JD) as [s' S].
  destruct (IH (jd + dt) (ts - dt) s' JD ltac:(lra)) as [N|[x X]].
  - left. intros h T. destruct (S h T) as (h' & -> & T'). exact (N h' T').
  - right. exists x. intros h T. destruct (S h T) as (h' & -> & T'). exact (X h' T').
Qed.

(** The propagator. *)
Lemma steady_SxP4 n minutes t pr : 0 < d_epoch ideal t -> 0 < d_epoch ideal t + minutes / 1440 ->
  (exists r, forall h, trusty h -> SxP4 ideal n minutes t pr h = UB r) \/
  exists pr' code p, forall h, trusty h -> exists h', SxP4 ideal n minutes t pr h = Ok (pr', h', code, p) /\ trusty h'.
Proof.
  intros E0 E1. destruct pr as [p|p v]; cbn [SxP4].
  - destruct (SGP4 ideal minutes (d_orb ideal t) p) as [r|r]; cbn [bind].
    + right. do 3 eexists. intros h T. exists h. split; [reflexivity | exact T].
    + left. exists r. reflexivity.
  - destruct p as [s|g]; cbn [SDP4].
    + unfold high_ephemeris. destruct (steady_loop n (d_epoch ideal t) (minutes / 1440) s E0 E1) as [N|[x X]].
      * left. exists Stuck. intros h T. replace (div ideal minutes (minutes_per_day ideal)) with (minutes / 1440) by (unfold minutes_per_day; rewrite int_ideal; reflexivity).
        rewrite (N h T). reflexivity.
      * right. do 3 eexists. intros h T. replace (div ideal minutes (minutes_per_day ideal)) with (minutes / 1440) by (unfold minutes_per_day; rewrite int_ideal; reflexivity).
        destruct (X h T) as (h' & -> & T'). cbn [bind]. exists h'. split; [reflexivity | exact T'].
    + destruct (SDP4_deep ideal n minutes t g v) as [[[v' [|r]]|]|r]; cbn [bind].
      * right. do 3 eexists. intros h T. exists h. split; [reflexivity | exact T].
      * right. do 3 eexists. intros h T. exists h. split; [reflexivity | exact T].
      * left. exists Stuck. reflexivity.
      * left. exists r. reflexivity.
Qed.

Lemma steady_satellite n k (q : request ideal) f t : let jd := jd_of ideal q in
  0 < d_epoch ideal t -> 0 < jd -> 0 < jd + IZR (rq_delta ideal q) / 86400 ->
  (exists r, forall h, trusty h -> satellite ideal n k q f t h = UB r) \/
  exists l, forall h, trusty h -> exists h', satellite ideal n k q f t h = Ok (h', l) /\ trusty h'.
Proof.
  intros jd E J J2. unfold satellite.
  set (t1 := mul ideal (sub ideal (jd_of ideal q) (d_epoch ideal t)) (int ideal 1440)).
  assert (T1 : t1 = minutes_at t jd). { unfold t1, minutes_at. rewrite int_ideal. reflexivity. }
  set (t2 := add ideal t1 (div ideal (mul ideal (c_real ideal (rq_delta ideal q)) (int ideal 1440)) (int ideal 86400))).
  assert (T2 : t2 = minutes_at t (jd + IZR (rq_delta ideal q) / 86400)).
  { unfold t2. rewrite T1. unfold minutes_at, jd. change (c_real ideal (rq_delta ideal q)) with (IZR (rq_delta ideal q)). rewrite !int_ideal.
    change ((jd_of ideal q - d_epoch ideal t) * 1440 + IZR (rq_delta ideal q) * 1440 / 86400 = (jd_of ideal q + IZR (rq_delta ideal q) / 86400 - d_epoch ideal t) * 1440). change (num ideal) with R. field. }
  assert (M1 : d_epoch ideal t + t1 / 1440 = jd). { rewrite T1. unfold minutes_at. change (num ideal) with R. field. }
  assert (M2 : d_epoch ideal t + t2 / 1440 = jd + IZR (rq_delta ideal q) / 86400). { rewrite T2. unfold minutes_at. change (num ideal) with R. field. }
  destruct (steady_SxP4 n t1 t (SxP4_init ideal t) E ltac:(rewrite M1; exact J)) as [[r R]|(pr & code1 & p & P)].
  { left. exists r. intros h T. rewrite (R h T). reflexivity. }
  destruct p as [pos|].
  2: { left. exists Uninit. intros h T. destruct (P h T) as (h' & -> & _). reflexivity. }
  destruct (get_satellite_ra_dec_delta ideal (fr_obs ideal f) pos) as [[ra0 dec0] dist] eqn:G1.
  destruct (if rq_geoloc ideal q || rq_single ideal q then g <- sat_geoLocation ideal k (fr_gmst ideal f) pos;; Ok (Some g) else Ok None) as [geo|r] eqn:G.
  2: { left. exists r. intros h T. destruct (P h T) as (h' & -> & _). cbn [bind]. rewrite G1, !isnan_ideal. cbn [Datatypes.orb]. rewrite G. reflexivity. }
  destruct (epoch_of_date_to_j2000 ideal (jd_of ideal q) ra0 dec0) as [ra dec] eqn:E1.
  destruct (steady_SxP4 n t2 t pr E ltac:(rewrite M2; exact J2)) as [[r R]|(pr2 & code2 & p2 & P2)].
  { left. exists r. intros h T. destruct (P h T) as (h' & -> & T'). cbn [bind]. rewrite G1, !isnan_ideal. cbn [Datatypes.orb]. rewrite G. cbn [bind]. rewrite E1. fold t2. rewrite (R h' T'). reflexivity. }
  set (pos2 := match p2 with None => pos | Some p => p end).
  destruct (get_satellite_ra_dec_delta ideal (fr_obs2 ideal f) pos2) as [[ra2 dec2] dist2] eqn:G2.
  destruct (epoch_of_date_to_j2000 ideal (jd_of ideal q) ra2 dec2) as [ra1 dec1] eqn:E2.
  destruct (separations ideal q f geo ra dec ra1 dec1) as [[sep sep1]|r] eqn:S.
  - right. eexists. intros h T. destruct (P h T) as (h1 & -> & T1'). cbn [bind]. rewrite G1, !isnan_ideal. cbn [Datatypes.orb]. rewrite G. cbn [bind]. rewrite E1. fold t2.
    destruct (P2 h1 T1') as (h2 & -> & T2'). cbn [bind]. fold pos2. rewrite G2, E2, S. cbn [bind]. exists h2. split; [reflexivity | exact T2'].
  - left. exists r. intros h T. destruct (P h T) as (h1 & -> & T1'). cbn [bind]. rewrite G1, !isnan_ideal. cbn [Datatypes.orb]. rewrite G. cbn [bind]. rewrite E1. fold t2.
    destruct (P2 h1 T1') as (h2 & -> & T2'). cbn [bind]. fold pos2. rewrite G2, E2, S. reflexivity.
Qed.

Lemma each_alone n k (q : request ideal) f ts ls : let jd := jd_of ideal q in
  0 < jd -> 0 < jd + IZR (rq_delta ideal q) / 86400 -> Forall (fun t => 0 < d_epoch ideal t) ts ->
  (satellites ideal n k q f ts (cache0 ideal) = Ok ls <->
   Forall2 (fun t l => exists h, satellite ideal n k q f t (cache0 ideal) = Ok (h, l)) ts ls).
Proof.
  intros jd J J2 F. assert (G : forall h, trusty h -> (satellites ideal n k q f ts h = Ok ls <-> Forall2 (fun t l => exists h, satellite ideal n k q f t (cache0 ideal) = Ok (h, l)) ts ls)).
  { revert ls. induction ts as [|t ts IH]; intros ls h T; cbn [satellites].
    - split; [intros E; injection E as <-; constructor | intros E; inversion E; reflexivity].
    - inversion F as [|? ? F1 F2]; subst. destruct (steady_satellite n k q f t F1 J J2) as [[r R]|[l L]].
      + rewrite (R h T). cbn [bind]. split; [discriminate|]. intros E. inversion E as [|? ? ? ? [h0 E1] E2]; subst. rewrite (R _ trusty0) in E1. discriminate.
      + destruct (L h T) as (h' & E & T'). rewrite E. cbn [bind]. destruct (always_seen _ _ _ _ _ _ _ _ E) as [s ->].
        destruct (L _ trusty0) as (h0 & E0 & _). split.
        * intros H. destruct (satellites ideal n k q f ts h') as [ls'|] eqn:S; [|discriminate]. cbn [bind] in H. injection H as <-.
          constructor; [exists h0; exact E0|]. apply (IH F2 ls' h' T'). exact S.
        * intros H. inversion H as [|? ? ? ? [h1 E1] E2]; subst. rewrite E0 in E1. injection E1 as _ <-.
          apply (IH F2 _ h' T') in E2. rewrite E2. reflexivity. }
  apply G, trusty0.
Qed.
