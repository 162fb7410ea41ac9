(** Events are always defined for positions outside the Earth; a sunlit satellite. *)
From Coq Require Import ZArith Reals Lra Lia Bool Psatz.
From Verif Require Import CLib ArithModel GeoLemmas GeoModel GeoSpec TimeModel TimeSpec OrbModel OrbTerms DeepModel DeepProofs1 DeepProofs7.
From Verif Require Import PipeModel PipeSpec PipeTerms WatchModel WatchTerms.
From Verif Require Import GeoProofs1 GeoProofs2 GeoProofs3 GeoProofs4 GeoProofs5 GeoProofs6 GeoExamples OrbExamples OrbProofs8.
From Verif Require Import PipeProofs1 PipeProofs2 PipeProofs3 PipeProofs4 PipeProofs5 PipeProofs6 PipeProofs7 PipeProofs8 PipeExamples WatchProofs1 WatchProofs2 WatchProofs5.
Open Scope R_scope.

Lemma event_defined n (w : watch ideal) t old h h' jd i k jdp : date_ok w jd -> instant_at ideal n w t old h jd = Ok (h', i) -> (5 <= k)%nat -> 2451545 <= jd ->
  (let '(x, y, z) := in_pos ideal i in 0 < x * x + y * y /\ 81 / 100 * (erad * erad) <= x * x + y * y + z * z) -> exists e, event_at ideal k w jd jdp i = Ok e.
Proof.
  intros J ST K D P. unfold event_at. destruct (in_pos ideal i) as [[x y] z] eqn:IP. destruct P as (P1 & P2).
  destruct (times n w t old h h' jd i J ST) as (_ & _ & G & _ & G0).
  destruct (place_right k (in_gmst ideal i) x y z K) as (g & GE & _); try assumption; [specialize (G0 D); lra|].
  match goal with |- context [sat_geoLocation ideal k ?a ?b] => replace (sat_geoLocation ideal k a b) with (Ok g : res (GeoModel.place ideal)) by (symmetry; exact GE) end. cbn [bind]. destruct (sun_defined w jd (in_lmst ideal i) (in_gmst ideal i) (in_zra ideal i)) as (u & ->). cbn [bind].
  match goal with |- context [dechalat2alt ideal ?a ?b ?c] => destruct (horizon_defined a b c) as [hz ->] end. cbn [bind]. destruct (epoch_of_date_to_j2000 ideal jdp _ _) as [ra dec]. eexists. reflexivity.
Qed.

Definition equator : watch ideal := mk_watch ideal 0 0 0 60.
(** The satellite of PipeProofs5 over the equator on 2000 March 20, 12h: sunlit, far away; its event is defined. *)
Lemma ex_watch : exists h' i u e, instant_at ideal 0 equator low_now None (cache0 ideal) 2451624 = Ok (h', i) /\ in_code ideal i = 0%Z /\ date_ok equator 2451624 /\
  get_sun_data ideal equator 2451624 (in_lmst ideal i) (in_gmst ideal i) (in_zra ideal i) = Ok u /\ sunlit ideal i u = true /\
  event_at ideal 5 equator 2451624 2451624 i = Ok e /\ 2500 < norm (minus (in_pos ideal i) (site 0 0 0 2451624)).
Proof.
  assert (DO : date_ok equator 2451624) by (split; [lra|]; cbn [equator w_lon]; rewrite Rabs_R0; lra).
  assert (M1 : minutes_at low_now 2451624 = 0) by (unfold minutes_at; cbn [low_now d_epoch]; ring).
  destruct (low_where 0 ltac:(rewrite Rabs_R0; lra)) as (p & rho & ux & uy & uz & P1 & P2 & P3 & P4 & P5 & P6).
  assert (PO : position 0 low_now None (cache0 ideal) 2451624 (pl_pos ideal p) 0%Z).
  { apply near_position; [exact low_near|]. rewrite M1. exists p. split; [exact P1|]. split; [reflexivity | symmetry; exact P2]. }
  destruct (instant_defined _ equator _ _ _ _ _ _ DO PO) as (h' & i & ST & IP & IC).
  destruct (sun_defined equator 2451624 (in_lmst ideal i) (in_gmst ideal i) (in_zra ideal i)) as (u & U).
  rewrite Rmult_0_r, cos_0 in P6. apply OrbProofs3.Rabs_inv in P6. unfold OrbSpec.XKMPER in *.
  assert (EP : in_pos ideal i = (rho * ux, rho * uy, rho * uz)) by exact (eq_trans IP P3).
  destruct (event_defined 0 equator low_now None (cache0 ideal) h' 2451624 i 5 2451624 DO ST) as (e & EV); [lia|lra| |].
  { rewrite EP. split; [assert (U2 := Rle_0_sqr (rho * uy)); unfold Rsqr in U2; assert (0 < rho * ux) by nra; nra|].
    replace (rho * ux * (rho * ux) + rho * uy * (rho * uy) + rho * uz * (rho * uz)) with (rho * rho * (ux * ux + uy * uy + uz * uz)) by ring. rewrite P4. unfold erad. nra. }
  exists h', i, u, e. split; [exact ST|]. split; [exact IC|]. split; [exact DO|]. split; [exact U|]. split; [|split; [exact EV|]].
  - apply (lit_then 0 equator low_now None (cache0 ideal) h' 2451624 i DO ST u U).
    + rewrite EP. destruct sun_march as (sx & sy & sz & -> & S1 & S2 & _). unfold minus. intros Z. assert (X := f_equal (fun v => fst (fst v)) Z). cbn [fst] in X. assert (ux <= 1) by nra. nra.
    + rewrite EP. destruct sun_march as (sx & sy & sz & -> & S1 & S2 & S3 & S4).
      apply lit_side; try assumption; try lra. assert (DB := dot_bound uy uz sy sz ltac:(nra) S3 S4). apply OrbProofs3.Rabs_inv in DB. nra.
  - rewrite EP. assert (SN : exists c z, site 0 0 0 2451624 = (6378.140 * c, 6378.140 * z, 0) /\ c * c + z * z = 1).
    { exists (cos (radians 0 + sidereal 2451624)), (sin (radians 0 + sidereal 2451624)). split.
      - unfold site, geodetic, prime_vertical. replace (radians 0) with 0 by (unfold radians; ring). rewrite sin_0, cos_0, !Rmult_0_r, Rminus_0_r, sqrt_1. f_equal; f_equal; field.
      - assert (E := sin2_cos2 (radians 0 + sidereal 2451624)). unfold Rsqr in E. lra. }
    destruct SN as (c & z & SN & CZ). rewrite SN. unfold norm. rewrite <- (sqrt_square 2500) by lra. apply sqrt_lt_1_alt. split; [lra|]. unfold minus, dot.
    assert (CS : ux * c + uy * z <= 1). { assert (Q1' := Rle_0_sqr (ux - c)). assert (Q2' := Rle_0_sqr (uy - z)). assert (Q3' := Rle_0_sqr uz). unfold Rsqr in *. lra. }
    match goal with |- _ < ?x => replace x with (rho * rho * (ux * ux + uy * uy + uz * uz) + 6378.140 * 6378.140 * (c * c + z * z) - 2 * rho * 6378.140 * (ux * c + uy * z)) by ring end.
    rewrite P4, CZ. assert (rho * (ux * c + uy * z) <= rho * 1) by (apply Rmult_le_compat_l; lra). nra.
Qed.
