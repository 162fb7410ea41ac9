(** The deep-space propagator (deep.c, sdp4.c).  Nothing here but the statements. *)
From Coq Require Import ZArith List Reals.
From Flocq Require Import Core IEEE754.BinarySingleNaN.
From Verif Require Import CLib FloatModel ArithModel FloatLemmas GeoLemmas OrbModel OrbSpec TimeSpec DeepModel DeepSpec DeepTerms.
From Verif Require Import DeepProofs1 DeepProofs2 DeepProofs3 DeepProofs4 DeepProofs5 DeepProofs6 DeepProofs7 DeepProofs8 DeepProofs9 DeepProofs10 DeepProofs12 DeepProofs13 DeepProofs14 HighSpec DeepExamples.
Import ListNotations.
Open Scope R_scope.

(** C41: the positions of the Moon and the Sun that are kept from one call to the next. *)
Theorem C41_cache : forall js jd, (exists j, In j (jd :: js) /\ j <> 0) ->
  snd (cached_lunar_solar_position ideal (after_dates ideal js) jd) = lunar_solar_position ideal jd.
Proof. exact cache_ideal. Qed.
Print Assumptions C41_cache.
Theorem C41_cache_rounded : forall m js jd, (exists j, In j (jd :: js) /\ feq (round_ratio 0 1) j = false) ->
  snd (cached_lunar_solar_position (machine m) (after_dates (machine m) js) jd) = lunar_solar_position (machine m) jd.
Proof. exact cache64. Qed.
Print Assumptions C41_cache_rounded.
Theorem C41_first_request_refuted : exists js jd,
  snd (cached_lunar_solar_position ideal (after_dates ideal js) jd) = ((0, 0, 0, 0), (0, 0, 0, 0)) /\ lunar_solar_position ideal jd <> ((0, 0, 0, 0), (0, 0, 0, 0)).
Proof. exact (ex_intro _ [] (ex_intro _ 0 cache_first)). Qed.
Print Assumptions C41_first_request_refuted.
Example C41_example : snd (cached_lunar_solar_position ideal (after_dates ideal [2460000; 2460001]) 2460000) = lunar_solar_position ideal 2460000.
Proof. exact (cache_ideal [2460000; 2460001] 2460000 (ex_intro _ 2460000 (conj (or_introl eq_refl) (IZR_neq 2460000 0 ltac:(discriminate))))). Qed.

(** C42: the steps of the state-vector integrator. *)
Theorem C42_steps : forall t, exists dts, Forall (signed t) dts /\ sum dts = t /\ INR (length dts) < Rabs t + 1
  /\ forall n h jd s, ((length dts <= n)%nat -> high_loop ideal n h jd t s = Some (walk ideal dts h jd s)) /\ ((n < length dts)%nat -> high_loop ideal n h jd t s = None).
Proof. exact high_ideal. Qed.
Print Assumptions C42_steps.
Theorem C42_steps_rounded : forall m t, fin t -> Rabs (toR t) <= IZR (2 ^ 53) ->
  exists dts, Forall (signed64 (toR t)) dts /\ sum64 dts = toR t /\ INR (length dts) < Rabs (toR t) + 1
  /\ forall n h jd s, ((length dts <= n)%nat -> high_loop (machine m) n h jd t s = Some (walk (machine m) dts h jd s))
                      /\ ((n < length dts)%nat -> high_loop (machine m) n h jd t s = None).
Proof. exact high64. Qed.
Print Assumptions C42_steps_rounded.
Theorem C42_large_refuted : exists t, fin t /\ forall m n h jd s, high_loop (machine m) n h jd t s = None.
Proof. exact (ex_intro _ big (conj eq_refl stuck_big)). Qed.
Print Assumptions C42_large_refuted.
Theorem C42_nan_refuted : exists t, forall m n h jd s, high_loop (machine m) n h jd t s = None.
Proof. exact (ex_intro _ B754_nan stuck_nan). Qed.
Print Assumptions C42_nan_refuted.
Example C42_example : forall h jd s, high_loop ideal 3 h jd 2.5 s = Some (walk ideal [1; 1; 0.5] h jd s).
Proof. exact ex_days. Qed.

(** C43: to the ecliptic and back. *)
Theorem C43_round_trip : forall x y z, exists k, Rabs (k - 1) <= / 10 ^ 38 /\ ecliptic_to_equatorial ideal (equatorial_to_ecliptic ideal (x, y, z)) = (x, k * y, k * z).
Proof. exact round_trip_ideal. Qed.
Print Assumptions C43_round_trip.
Theorem C43_round_trip_rounded : forall m x y z r, fin y -> fin z -> toR y * toR y + toR z * toR z = r * r -> bpow radix2 (-900) <= r <= bpow radix2 900 ->
  exists y' z', ecliptic_to_equatorial (machine m) (equatorial_to_ecliptic (machine m) (x, y, z)) = (x, y', z')
    /\ fin y' /\ fin z' /\ Rabs (toR y' - toR y) <= 6 * / 2 ^ 53 * r /\ Rabs (toR z' - toR z) <= 6 * / 2 ^ 53 * r.
Proof. exact round_trip64'. Qed.
Print Assumptions C43_round_trip_rounded.
Example C43_example : ecliptic_to_equatorial ideal (equatorial_to_ecliptic ideal (5, 1, 0)) =
  (5, 917482062069181825744000384639406458043 / 1000000000000000000000000000000000000000 * (917482062069181825744000384639406458043 / 1000000000000000000000000000000000000000)
      + 397777155931913701597179975942380896684 / 1000000000000000000000000000000000000000 * (397777155931913701597179975942380896684 / 1000000000000000000000000000000000000000), 0) :> R * R * R.
Proof. exact ex_round. Qed.

(** C45: the steps of the resonance integrator. *)
Theorem C45_steps : forall t g r ts v s, g_res ideal g = Some r -> called ideal t g ts v ->
  let from := if Rlt_dec (Rabs s) (Rabs (s - hd 0 ts)) then 0 else hd 0 ts in
  exists a x l dts, dpsec_start ideal g r s v = (a, x, l) /\ a = from
    /\ Forall (fun d => Rabs d <= 720) dts /\ sum dts = s - from /\ INR (length dts) <= Rmin (Rabs s) (Rabs (s - hd 0 ts)) / 720 + 1
    /\ let derivs := compute_dpsec_derivs ideal (g_omegaq ideal g) (k_omgdot ideal (g_com ideal g)) (r_coefs ideal r) in
       (exists xni' xli', resonance_walk ideal dts derivs (r_xfact ideal r) a x l = (s, xni', xli'))
       /\ forall n, ((length dts <= n)%nat -> dpsec_loop ideal n derivs (r_xfact ideal r) s a x l = Some (resonance_walk ideal dts derivs (r_xfact ideal r) a x l))
                    /\ ((n < length dts)%nat -> dpsec_loop ideal n derivs (r_xfact ideal r) s a x l = None).
Proof. exact resonance_steps. Qed.
Print Assumptions C45_steps.
Theorem C45_steps_rounded : forall m t g r ts v s, g_res (machine m) g = Some r -> called (machine m) t g ts v -> Forall sane (s :: ts) ->
  exists a x l n a' x' l', dpsec_start (machine m) g r s v = (a, x, l)
    /\ INR n <= Rmin (Rabs (toR s)) (Rabs (toR s - toR (hd F0 ts))) / 719 + 3
    /\ (forall n', (n <= n')%nat -> dpsec_loop (machine m) n' (compute_dpsec_derivs (machine m) (g_omegaq (machine m) g) (k_omgdot (machine m) (g_com (machine m) g)) (r_coefs (machine m) r))
          (r_xfact (machine m) r) s a x l = Some (a', x', l'))
    /\ fin a' /\ Rabs (toR a' - toR s) <= bpow radix2 (-42) /\ (1500 <= Rabs (toR s) -> toR a' = toR s).
Proof. exact resonance64. Qed.
Print Assumptions C45_steps_rounded.
Theorem C45_large_refuted : exists s, fin s /\ forall m n o g r, g_res (machine m) g = Some r -> SDP4_deep (machine m) n s o g (fresh (machine m) g) = Ok None.
Proof. exact (ex_intro _ F64 (conj eq_refl never_64)). Qed.
Print Assumptions C45_large_refuted.
Theorem C45_infinite_refuted : exists s, forall m n o g r, g_res (machine m) g = Some r -> SDP4_deep (machine m) n s o g (fresh (machine m) g) = Ok None.
Proof. exact (ex_intro _ (B754_infinity false) never_inf). Qed.
Print Assumptions C45_infinite_refuted.
Example C45_example : (exists r, g_res ideal (Deep_dpinit ideal geo_set (sxpx_common_init ideal (d_orb ideal geo_set))) = Some r)
  /\ forall derivs c n l, exists n' l', dpsec_loop ideal 2 derivs c 1000 0 n l = Some (1000, n', l').
Proof. exact (conj geo_resonant ex_minutes). Qed.

(** C81: the lunar and solar terms used are those of a time less than 30 minutes away. *)
Theorem C81_kept : forall t g ts v s y, called ideal t g ts v -> s <= 10 ^ 20 - 30 ->
  exists tau v', Deep_dpper ideal t g s y v = Ok (apply_perts ideal (o_xincl ideal (d_orb ideal t)) (perts_at ideal g tau) y, v')
    /\ In tau (s :: ts) /\ Rabs (tau - s) < 30.
Proof. exact kept_ideal. Qed.
Print Assumptions C81_kept.
Theorem C81_kept_rounded : forall m t g ts v s y, called (machine m) t g ts v -> Forall (fun s => Rabs (toR s) <= bpow radix2 66) (s :: ts) -> fin s ->
  exists tau v', Deep_dpper (machine m) t g s y v = Ok (apply_perts (machine m) (o_xincl (machine m) (d_orb (machine m) t)) (perts_at (machine m) g tau) y, v')
    /\ In tau (s :: ts) /\ fin tau /\ Rabs (toR tau - toR s) < 30.
Proof. exact kept64. Qed.
Print Assumptions C81_kept_rounded.
Theorem C81_written_first_refuted : exists s, forall m n t g, g_res (machine m) g = None -> flt (i_xnodp (machine m) (k_start (machine m) (g_com (machine m) g))) F0 = false ->
  SDP4_deep (machine m) n s t g (fresh (machine m) g) = UB Uninit.
Proof. exact (ex_intro _ B754_nan sdp_nan). Qed.
Print Assumptions C81_written_first_refuted.
Theorem C81_sentinel_refuted : exists s, forall t g y, Deep_dpper ideal t g s y (fresh ideal g) = UB Uninit.
Proof. exact (ex_intro _ (10 ^ 20) unread_ideal). Qed.
Print Assumptions C81_sentinel_refuted.
Example C81_example : forall t g y a x l p, let v := mk_dstate ideal a x l 0 (Some p) in
  Deep_dpper ideal t g 29 y v = Ok (apply_perts ideal (o_xincl ideal (d_orb ideal t)) p y, v)
  /\ exists v', Deep_dpper ideal t g 30 y v = Ok (apply_perts ideal (o_xincl ideal (d_orb ideal t)) (perts_at ideal g 30) y, v').
Proof. exact ex_kept. Qed.

(** C82: the acceleration of the mean motion in a resonance, and the step of the integration. *)
Theorem C82_acceleration : forall om od c l a, let '(r0, r1) := compute_dpsec_derivs ideal om od c l a in
  let ts := terms_of c in let w := om + od * a in
  Rabs (r0 - slow_rate ts w l) <= 8 / 10 ^ 16 * slow_size ts
  /\ exists s, derivable_pt_lim (slow_rate ts w) l s /\ Rabs (r1 - s) <= 8 / 10 ^ 16 * slow_size ts.
Proof. exact derivs_ok. Qed.
Print Assumptions C82_acceleration.
Theorem C82_step : forall f xfact h at_ n l,
  let '(d0, d1) := f l at_ in
  let '(l', n') := dpsec_step ideal f xfact h at_ n l in (n', l') = taylor2 xfact h n l d0 d1 :> R * R.
Proof. exact step_taylor. Qed.
Print Assumptions C82_step.
Example C82_example : slow_rate (day_terms 1 0 0) 0 (lambda31 + PI / 2) = 1.
Proof. exact ex_terms. Qed.

(** C83: how the lunar and solar terms change the elements. *)
Theorem C83_inclined : forall incl p y, 2 / 10 <= incl ->
  let i := y_xinc ideal y + e_pinc ideal p in
  let d := e_ph ideal p / sin i in
  apply_perts ideal incl p y =
    mk_elems ideal (y_xll ideal y + e_pl ideal p) (y_omgadf ideal y + e_pgh ideal p - cos i * d) (y_xnode ideal y + d) (y_em ideal y + e_pe ideal p) i (y_xn ideal y).
Proof. exact direct. Qed.
Print Assumptions C83_inclined.
Theorem C83_low_inclination : forall incl p y, incl < 2 / 10 -> Rabs (y_xnode ideal y) <= 2 * PI ->
  let i := y_xinc ideal y + e_pinc ideal p in
  let s := sin i + e_pinc ideal p * cos i in
  0 < s ->
  let d := Ratan2 (e_ph ideal p) s in
  apply_perts ideal incl p y =
    mk_elems ideal (y_xll ideal y + e_pl ideal p)
      (y_omgadf ideal y + e_pgh ideal p - cos i * d - y_xnode ideal y * sin i * e_pinc ideal p) (y_xnode ideal y + d) (y_em ideal y + e_pe ideal p) i (y_xn ideal y).
Proof. exact lyddane. Qed.
Print Assumptions C83_low_inclination.
Theorem C83_whole_turns_refuted : exists incl p y y',
  y' = mk_elems ideal (y_xll ideal y) (y_omgadf ideal y) (y_xnode ideal y + 2 * PI) (y_em ideal y) (y_xinc ideal y) (y_xn ideal y) /\
  forall k : Z, y_omgadf ideal (apply_perts ideal incl p y') <> y_omgadf ideal (apply_perts ideal incl p y) + 2 * PI * IZR k.
Proof. exact lyddane_branch. Qed.
Print Assumptions C83_whole_turns_refuted.
Example C83_example : forall p y, e_pinc ideal p = 0.01 -> y_xinc ideal y = 0.1 -> 0 < sin (y_xinc ideal y + e_pinc ideal p) + e_pinc ideal p * cos (y_xinc ideal y + e_pinc ideal p).
Proof. exact ex_lyddane. Qed.

(** C84: the coefficients of the resonances. *)
Theorem C84_half_day : forall t,
  let o := d_orb ideal t in let e := o_eo ideal o in let i := o_xincl ideal o in
  let n := n0'' i e (o_xno ideal o) in let a := a0'' i e (o_xno ideal o) in
  0 <= e < 1 -> 0 < o_xno ideal o -> 0 < a -> 0.00826 <= n <= 0.00924 /\ 0.5 <= e ->
  exists r, g_res ideal (Deep_dpinit ideal t (sxpx_common_init ideal o)) = Some r /\
  r_coefs ideal r =
    Half ideal (harmonic n a root22 2 2 2 (kaula 2 2 0 i) (E201 e)) (harmonic n a root22 2 2 2 (kaula 2 2 1 i) (E211 e))
      (harmonic n a root32 3 2 2 (kaula 3 2 1 i) (E310 e)) (harmonic n a root32 3 2 2 (kaula 3 2 2 i) (E322 e))
      (harmonic n a root44 4 4 2 (kaula 4 4 1 i) (E410 e)) (harmonic n a root44 4 4 2 (kaula 4 4 2 i) (E422 e))
      (harmonic n a root52 5 2 2 (F522 i) (E520 e)) (harmonic n a root52 5 2 2 (F523 i) (E532 e))
      (harmonic n a root54 5 4 2 (kaula 5 4 2 i) (E521 e)) (harmonic n a root54 5 4 2 (kaula 5 4 3 i) (E533 e)) /\
  r_xlamo ideal r = o_xmo ideal o + 2 * o_xnodeo ideal o - 2 * ThetaG ideal (d_epoch ideal t) :> R.
Proof. exact resonance_half. Qed.
Print Assumptions C84_half_day.
Theorem C84_rounded_functions : forall i, Rabs (F522 i - kaula 5 2 2 i) <= 3 / 10000000 /\ Rabs (F523 i - kaula 5 2 3 i) <= 2 / 1000000.
Proof. exact (fun i => conj (F522_close i) (F523_close i)). Qed.
Print Assumptions C84_rounded_functions.
Theorem C84_one_day : forall t,
  let o := d_orb ideal t in let e := o_eo ideal o in let i := o_xincl ideal o in
  let n := n0'' i e (o_xno ideal o) in let a := a0'' i e (o_xno ideal o) in
  0 <= e < 1 -> 0 < o_xno ideal o -> 0 < a -> 0.8 * (2 * PI / 1440) < n < 1.2 * (2 * PI / 1440) ->
  exists r, g_res ideal (Deep_dpinit ideal t (sxpx_common_init ideal o)) = Some r /\
  r_coefs ideal r =
    Synchronous ideal (harmonic n a Q31 3 1 1 (kaula 3 1 1 i) (E310' e)) (harmonic n a Q22 2 2 1 (kaula 2 2 0 i) (E200 e))
      (harmonic n a Q33 3 3 1 (kaula 3 3 0 i) (E300 e)) /\
  r_xlamo ideal r = o_xmo ideal o + o_xnodeo ideal o + o_omegao ideal o - ThetaG ideal (d_epoch ideal t) :> R.
Proof. exact resonance_day. Qed.
Print Assumptions C84_one_day.
Theorem C84_otherwise_none : forall t,
  let o := d_orb ideal t in let e := o_eo ideal o in let i := o_xincl ideal o in
  let n := n0'' i e (o_xno ideal o) in let a := a0'' i e (o_xno ideal o) in
  0 <= e < 1 -> 0 < o_xno ideal o -> 0 < a -> ~ (0.00826 <= n <= 0.00924 /\ 0.5 <= e) -> ~ (0.8 * (2 * PI / 1440) < n < 1.2 * (2 * PI / 1440)) ->
  g_res ideal (Deep_dpinit ideal t (sxpx_common_init ideal o)) = None.
Proof. exact resonance_none. Qed.
Print Assumptions C84_otherwise_none.
Example C84_example :
  (let o := d_orb ideal half_set in 0.00826 <= n0'' (o_xincl ideal o) (o_eo ideal o) (o_xno ideal o) <= 0.00924 /\ 0.5 <= o_eo ideal o) /\
  (let o := d_orb ideal geo_set in 0.8 * (2 * PI / 1440) < n0'' (o_xincl ideal o) (o_eo ideal o) (o_xno ideal o) < 1.2 * (2 * PI / 1440)) /\
  kaula 2 2 0 0 = 3 /\ kaula 2 2 1 (PI / 2) = 3 / 2 /\ kaula 3 1 1 0 = - 3 / 2.
Proof. exact (conj half_case_ex (conj geo_case ex_kaula)). Qed.

(** C85: the sidereal time of the deep-space propagator. *)
Theorem C85_sidereal : forall jd, -1/2 <= jd -> exists k : Z, ThetaG ideal jd = 2 * PI * (gmst_hours jd / 24) - 2 * PI * IZR k :> R /\ 0 <= ThetaG ideal jd < 2 * PI.
Proof. exact thetag_ideal. Qed.
Print Assumptions C85_sidereal.
Example C85_example : Rabs (gmst_hours 2451545 - 18.697374) <= 1 / 100000.
Proof. exact ex_gmst. Qed.

(** C86: the state vector is integrated with the equations of motion, by Runge and Kutta's method. *)
Theorem C86_start : forall o, exists c s, of_obliquity c s /\
  to6 (init_high_ephemeris ideal o) = (to_ecliptic c s (v3 (o_xincl ideal o) (o_xnodeo ideal o) (o_eo ideal o)), to_ecliptic c s (v3 (o_omegao ideal o) (o_xmo ideal o) (o_xno ideal o))).
Proof. exact start_frame. Qed.
Print Assumptions C86_start.
Theorem C86_integration : forall js t epoch s, epoch <> 0 -> exists dts, Forall (signed t) dts /\ sum dts = t / 1440 /\ INR (length dts) < Rabs t / 1440 + 1
  /\ forall n, ((length dts <= n)%nat -> exists h p v c w, high_ephemeris ideal n (after_dates ideal js) t epoch s = Some (h, (p, v))
       /\ of_obliquity c w
       /\ let st := integrate moon_at sun_at dts epoch (to6 s) in
          to3 p = scale (1 / 1000) (to_equator c w (fst st)) /\ to3 v = scale (60 / 1000) (to_equator c w (snd st)))
     /\ ((n < length dts)%nat -> high_ephemeris ideal n (after_dates ideal js) t epoch s = None).
Proof. exact high_frame. Qed.
Print Assumptions C86_integration.
Example C86_example : forall h epoch, exists r, high_ephemeris ideal 0 h 0 epoch ((7000000, 0, 0), (7500, 0, 0)) = Some (h, r) /\ to3 (fst r) = v3 7000 0 0 /\ to3 (snd r) = v3 450 0 0.
Proof. exact ex_frame. Qed.

(** C87: the positions of the Moon and the Sun. *)
Theorem C87_positions : forall jd, let T := (jd - 2451545) / 36525 in
  exists lon d, moon_at jd = polar lon (moon_lat T) d /\ sun_at jd = polar (sun_lon T) 0 (sun_dist T)
    /\ Rabs (lon - moon_lon T) <= deg (/ 20000) /\ Rabs (d - moon_dist T) <= 1139850.
Proof. exact close. Qed.
Print Assumptions C87_positions.
Theorem C87_distance_refuted : exists jd, 1100000 < Rabs (norm (moon_at jd) - moon_dist ((jd - 2451545) / 36525)).
Proof. exact far_dist. Qed.
Print Assumptions C87_distance_refuted.
Example C87_example : forall jd, 300000000 < norm (moon_at jd).
Proof. exact ex_moon. Qed.

(** C88: the elements of date of SDP4. *)
Theorem C88_without_resonance : forall t,
  let o := d_orb ideal t in let i0 := o_xincl ideal o in let e0 := o_eo ideal o in let n0 := o_xno ideal o in let g := Deep_dpinit ideal t (sxpx_common_init ideal o) in
  0 <= e0 < 1 -> 0 < n0 -> 0 < a0'' i0 e0 n0 -> a0'' i0 e0 n0 <> s_star i0 e0 n0 -> eta0 i0 e0 n0 ^ 2 <> 1 ->
  forall ts v, called ideal t g ts v -> forall s, s <= 10 ^ 20 - 30 -> forall n, g_res ideal g = None -> 0 < n0'' i0 e0 n0 ->
  exists q4 tau v', Rabs (q4 - q_star i0 e0 n0) <= 1 / 10 ^ 30 /\ In tau (s :: ts) /\ Rabs (tau - s) < 30 /\
  SDP4_deep ideal n s t g v = Ok (Some (v', Placed ideal (finish t q4 (n0'' i0 e0 n0) s
    (apply_perts ideal i0 (perts_at ideal g tau) (elements t g q4 (n0'' i0 e0 n0) (base_free t g s) s))))).
Proof. exact place_free. Qed.
Print Assumptions C88_without_resonance.
Theorem C88_in_resonance : forall t,
  let o := d_orb ideal t in let i0 := o_xincl ideal o in let e0 := o_eo ideal o in let n0 := o_xno ideal o in let g := Deep_dpinit ideal t (sxpx_common_init ideal o) in
  0 <= e0 < 1 -> 0 < n0 -> 0 < a0'' i0 e0 n0 -> a0'' i0 e0 n0 <> s_star i0 e0 n0 -> eta0 i0 e0 n0 ^ 2 <> 1 ->
  forall ts v, called ideal t g ts v -> forall s, s <= 10 ^ 20 - 30 -> forall n r a x l a' x' l', g_res ideal g = Some r -> dpsec_start ideal g r s v = (a, x, l) ->
  dpsec_loop ideal n (compute_dpsec_derivs ideal (g_omegaq ideal g) (k_omgdot ideal (g_com ideal g)) (r_coefs ideal r)) (r_xfact ideal r) s a x l = Some (a', x', l') -> 0 < x' ->
  exists q4 tau v', Rabs (q4 - q_star i0 e0 n0) <= 1 / 10 ^ 30 /\ In tau (s :: ts) /\ Rabs (tau - s) < 30 /\
  SDP4_deep ideal n s t g v = Ok (Some (v', Placed ideal (finish t q4 x' s
    (apply_perts ideal i0 (perts_at ideal g tau) (elements t g q4 x' (base_resonant t g q4 (r_coefs ideal r) l' s) s))))).
Proof. exact place_resonant. Qed.
Print Assumptions C88_in_resonance.
(** The hypotheses for an orbit with perigee at 4.5 and apogee at 13.5 Earth radii. *)
Example C88_example : g_res ideal (Deep_dpinit ideal high_set (sxpx_common_init ideal (d_orb ideal high_set))) = None /\
  let o := d_orb ideal high_set in let i := o_xincl ideal o in let e := o_eo ideal o in let n := o_xno ideal o in
  0 <= e < 1 /\ 0 < n /\ 0 < a0'' i e n /\ a0'' i e n <> s_star i e n /\ eta0 i e n ^ 2 <> 1 /\ 0 < n0'' i e n.
Proof. exact (conj high_free high_hyps). Qed.
