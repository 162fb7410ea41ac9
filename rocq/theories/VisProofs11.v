(** What the reported events contain. *)
From Coq Require Import String Ascii ZArith List Bool Lia.
From Verif Require Import CLib FloatModel CalendarModel TleModel IoModel SkymapModel VisCliModel VisModel VisSpec VisDataSpec VisProofs1 VisProofs2 VisProofs3.
Import ListNotations.
Open Scope Z_scope.

Section Data.
Context (L : lib) (p : vparams) (tle : tle_t).

Record fresh (n : nat) (t : b64) (k : sky) : Prop := mk_fresh {
  fr_l : k_lmst k = fst (l_lmst L t); fr_g : k_gmst k = snd (l_lmst L t); fr_t : k_tra k = fdiv (fst (l_lmst L t)) RAD2HRS;
  fr_p : k_pos k = position L tle n t; fr_o : k_obs k = l_observer L t;
  fr_s : sa_sep (k_sat k) = zenith_distance L p tle n t; fr_d : sa_dkm (k_sat k) = snd (place_at L tle n t) }.
Definition rd (k : sky) : b64 * b64 := (sa_ra (k_sat k), sa_dec (k_sat k)).
Definition pm (k : sky) : b64 * b64 := (sa_parang (k_sat k), sa_speed (k_sat k)).

Lemma look_fresh : forall t k, fresh (k_calls k) t (look L p tle t k) /\ rd (look L p tle t k) = fst (place_at L tle (k_calls k) t) /\
  pm (look L p tle t k) = pm k /\ k_sun (look L p tle t k) = k_sun k.
Proof.
  intros t k. destruct (look_facts L p tle t k) as (A & B). unfold place_at, position.
  assert (C: fresh (k_calls k) t (look L p tle t k) <-> fresh (k_calls k) t (look L p tle t k)) by tauto.
  unfold look, rd, pm in *. unfold minutes in *. destruct (l_lmst L t) as (lm & gm) eqn:E1.
  destruct (l_radec L (l_observer L t) (l_propagate L (k_calls k) (l_deep L tle) tle (fmul (fsub t (l_epoch L tle)) (of_int 1440)))) as ((ra & dec) & d) eqn:E2.
  cbn [k_sat sa_sep k_pos sa_ra sa_dec sa_parang sa_speed k_sun fst] in *. repeat split; cbn [k_lmst k_gmst k_tra k_pos k_obs k_sat sa_sep sa_dkm]; rewrite ?E1; cbn [fst snd]; try reflexivity; try assumption.
  unfold place_at, position. rewrite E2. reflexivity.
Qed.
Lemma fresh_sat : forall n t k s, fresh n t k -> sa_sep s = sa_sep (k_sat k) -> sa_dkm s = sa_dkm (k_sat k) -> fresh n t (put_sat s k).
Proof. intros n t k s [A B C D E F G] H I. constructor; cbn [put_sat k_lmst k_gmst k_tra k_pos k_obs k_sat]; congruence. Qed.
Lemma fresh_sun : forall n t k u, fresh n t k -> fresh n t (put_sun u k).
Proof. intros n t k u [A B C D E F G]. now constructor. Qed.
Lemma fresh_geo : forall n t k u, fresh n t k -> fresh n t (put_geo u k).
Proof. intros n t k u [A B C D E F G]. now constructor. Qed.
Lemma pa_keeps : forall m k, rd (pa_and_speed L p tle m k) = rd k /\ k_sun (pa_and_speed L p tle m k) = k_sun k /\ k_pos (pa_and_speed L p tle m k) = k_pos k /\
  k_gmst (pa_and_speed L p tle m k) = k_gmst k /\ forall n t, fresh n t k -> fresh n t (pa_and_speed L p tle m k).
Proof.
  intros m k. unfold pa_and_speed, rd. destruct (l_radec _ _ _) as ((ra & dec) & d). repeat (split; [reflexivity|]). intros n t [A B C D E F G]. now constructor.
Qed.
Lemma pa_motion : forall n t k, fresh n t k -> rd k = fst (place_at L tle n t) ->
  motion_at L p tle n (k_calls k) t (pm (pa_and_speed L p tle (fadd (minutes L tle t) (fdiv (fmul (of_int (v_delta_time p)) (of_int 1440)) SEC_IN_DAY)) k)).
Proof.
  intros n t k F R. unfold motion_at, pm, pa_and_speed, minutes. rewrite (fr_o _ _ _ F). unfold rd in R. destruct (place_at L tle n t) as ((ra & dec) & d). cbn [fst] in R. injection R as -> ->.
  destruct (l_radec _ _ _) as ((ra1 & dec1) & d1). reflexivity.
Qed.
Lemma looked_fresh : forall t k h, fresh (k_calls k) t (looked L p tle t k h) /\ rd (looked L p tle t k h) = fst (place_at L tle (k_calls k) t) /\
  (h_first h = false -> pm (looked L p tle t k h) = pm k) /\ (k_sun (looked L p tle t k h) = k_sun k).
Proof.
  intros t k h. destruct (look_fresh t k) as (A & B & C & D). unfold looked. cbv zeta.
  assert (E: forall k0, fresh (k_calls k) t k0 -> rd k0 = fst (place_at L tle (k_calls k) t) -> pm k0 = pm k -> k_sun k0 = k_sun k ->
    let k1 := if h_first h then pa_and_speed L p tle (minutes L tle t) k0 else k0 in
    fresh (k_calls k) t k1 /\ rd k1 = fst (place_at L tle (k_calls k) t) /\ (h_first h = false -> pm k1 = pm k) /\ k_sun k1 = k_sun k).
  { intros k0 F1 F2 F3 F4. cbv zeta. destruct (h_first h); [|tauto]. destruct (pa_keeps (minutes L tle t) k0) as (G1 & G2 & _ & _ & G3).
    split; [apply G3, F1|]. split; [congruence|]. split; [discriminate|congruence]. }
  destruct (v_altrng p); apply E; try assumption. unfold geolocated. now apply fresh_geo.
Qed.
Lemma sun_now : forall n t k, fresh n t k -> l_sun L t (k_lmst k) (k_gmst k) (k_tra k) = sun_of L t.
Proof. intros n t k [A B C D E F G]. unfold sun_of. now rewrite A, B, C. Qed.
Lemma sunned_fresh : forall t k h, fresh (k_calls k) t (sunned L p tle t k h) /\ rd (sunned L p tle t k h) = fst (place_at L tle (k_calls k) t) /\
  (h_first h = false -> pm (sunned L p tle t k h) = pm k) /\ k_sun (sunned L p tle t k h) = sun_of L t.
Proof.
  intros t k h. destruct (looked_fresh t k h) as (A & B & C & D). unfold sunned. cbv zeta. split; [now apply fresh_sun|]. split; [exact B|]. split; [exact C|].
  cbn [put_sun k_sun]. now apply (sun_now (k_calls k)).
Qed.

Lemma event_data : forall nm mjd cur jdp k h k' h' n t ts, event_out L nm mjd cur jdp (geolocated L k) h = Ok (k', h') -> fresh n t k -> k_sun k = sun_of L ts ->
  exists x sa o, x = (nm, k_geo (geolocated L k), k_sun k, sa) /\ data_of L p tle n t (rd k) ts jdp x /\ date_of mjd = Ok (sa_date sa) /\
    rd k' = (sa_ra sa, sa_dec sa) /\ pm k' = pm k /\ motion_of x = pm k /\ k_sun k' = k_sun k /\ fresh n t k' /\ h' = with_out o [Data nm (k_geo (geolocated L k)) (k_sun k) sa] h.
Proof.
  intros nm mjd cur jdp k h k' h' n t ts H F S. unfold event_out in H. cbv zeta in H. step H. step H. unfold dated in E. step E. cbv zeta in E.
  destruct (l_dechalat _ _ _) as ((alt & az) & q_) eqn:E2. destruct (l_precess _ _ _ _) as (ra & dec) eqn:E3. injection E as <-.
  assert (Hk: forall (A B : Type) (a a' : A) (b b' : B), Ok (a, b) = Ok (a', b') -> a' = a /\ b' = b) by (intros; split; congruence).
  apply Hk in H. destruct H as (-> & ->). cbn [geolocated put_geo put_sat k_sat k_geo k_sun k_lmst] in *.
  match type of E0 with vis_sat_json _ ?s = _ => set (sa := s) in * end.
  exists (nm, k_geo (geolocated L k), k_sun k, sa), sa, (vis_geo_json (bytes "geoloc_" ++ nm) (k_geo (geolocated L k)) ++ vis_sun_json (bytes "sun_" ++ nm) (k_sun k) ++ a0).
  split; [reflexivity|]. pose proof F as [A B C D G I J]. split.
  { constructor; cbn [fst snd].
    - cbn [geolocated put_geo k_geo]. now rewrite D, B.
    - exact S.
    - exact J.
    - exact I.
    - rewrite <- A. unfold rd. cbn [fst snd]. rewrite E2. reflexivity.
    - unfold rd. cbn [fst snd]. rewrite E3. reflexivity. }
  split; [exact E1|]. split; [reflexivity|]. split; [reflexivity|]. split; [reflexivity|]. split; [reflexivity|]. split; [apply (fresh_sat n t (geolocated L k)); [now apply fresh_geo|reflexivity|reflexivity]|].
  unfold mark, say, with_out. cbn [h_first h_started h_ended h_mjd_start h_mjd_end h_tmin h_minsep h_found h_out h_log]. rewrite <- !app_assoc. reflexivity.
Qed.

(** [x1] is the start at [m]. *)
Definition start_data (m : smp) (n n' : nat) (x1 : list Z * geo * sun * sat) (PM : b64 * b64) : Prop :=
  fst (fst (fst x1)) = bytes "start" /\ data_at L p tle n (m_t m) (m_t m) (fadd (m_t m) (vstep p)) x1 /\ motion_at L p tle n n' (m_t m) PM /\ motion_of x1 = PM.
(** The coordinates of date from which the end is computed. *)
Definition end_radec (x1 : list Z * geo * sun * sat) (lit : list smp) (n : nat) (t : b64) : b64 * b64 :=
  match lit with [] => (sa_ra (snd x1), sa_dec (snd x1)) | _ => fst (place_at L tle n t) end.

Context (argv : list (list Z)) (il : bool) (name desig : list Z) (last : b64).

Definition after_lit (idle : list smp) (m : smp) (x1 : list Z * geo * sun * sat) (PM : b64 * b64) (w : went) : Prop :=
  (exists h', w = Out 1 h') \/
  exists t' k' h' lit en n2, w = Brk t' k' h' /\ samples (h_log h') = idle ++ (m :: lit) ++ last_ones en /\ Forall (fun m => visible m = true) lit /\ ends_so en /\
    h_started h' = true /\ 0 < h_found h' /\ best (samples (h_log h')) h' /\ pm k' = PM /\
    match en with
    | Shadow z => h_ended h' = true /\ exists x2, events (h_log h') = [x1; x2] /\ fst (fst (fst x2)) = bytes "end" /\ motion_of x2 = PM /\ data_at L p tle n2 (m_t z) (m_t z) (fadd (m_t z) (vstep p)) x2
    | Left z => h_ended h' = false /\ events (h_log h') = [x1] /\ fresh n2 (m_t z) k' /\ t' = fadd (m_t z) (vstep p) /\ rd k' = fst (place_at L tle n2 (m_t z)) /\ k_sun k' = sun_of L (m_t (List.last (m :: lit) m))
    | Range => let z := List.last (m :: lit) m in h_ended h' = false /\ events (h_log h') = [x1] /\ fresh n2 (m_t z) k' /\ t' = fadd (m_t z) (vstep p) /\ rd k' = end_radec x1 lit n2 (m_t z) /\ k_sun k' = sun_of L (m_t z)
    end.

Lemma lit_phase : forall fuel t k h w idle m lit x1 n PM, vloop L p tle fuel argv il name desig last t k h = Ok w ->
  h_started h = true -> h_ended h = false -> h_first h = false -> 0 < h_found h -> samples (h_log h) = idle ++ (m :: lit) -> Forall (fun m => visible m = true) lit ->
  events (h_log h) = [x1] -> best (samples (h_log h)) h -> let z := List.last (m :: lit) m in
  fresh n (m_t z) k -> rd k = end_radec x1 lit n (m_t z) -> k_sun k = sun_of L (m_t z) -> t = fadd (m_t z) (vstep p) -> pm k = PM ->
  after_lit idle m x1 PM w.
Proof.
  induction fuel as [|f IH]; intros t k h w idle m lit x1 n PM H Es En Fi Fo Sm Lt Ev Be z Fr Rd Su Ti P; cbn [vloop] in H; destruct (fle t last) eqn:El; try discriminate H.
  1, 3: injection H as <-; right; exists t, k, h, lit, Range, n; cbn [last_ones ends_so]; rewrite app_nil_r; cbv zeta; fold z; tauto.
  step H. destruct (vturn_out _ _ _ _ _ _ _ _ _ _ _ E En) as [(out & -> & Q & A)|[(_ & S1 & _)|[(Tf & _ & ->)|[(_ & S1 & _)|[(Sh & _ & AS)|[(Vi & _ & ->)|(_ & S1 & _)]]]]]]; try congruence.
  - injection H as <-. left. now eexists.
  - (* outside the radius *)
    injection H as <-. set (y := sampled L p tle t k h) in *. destruct (looked_fresh t k h) as (A & B & C & D).
    destruct (takes_keep [y] h) as (R1 & R2 & R3 & R4 & R5 & R6 & R7 & R8). change (takes h [y]) with (take h y) in *.
    right. exists (fadd t (vstep p)), (looked L p tle t k h), (take h y), lit, (Left y), (k_calls k). split; [reflexivity|]. cbn [last_ones ends_so].
    split; [rewrite R7, Sm, <- app_assoc; reflexivity|]. split; [exact Lt|]. split; [exact Tf|]. split; [congruence|]. split; [lia|]. split; [rewrite R7; now apply best_take|]. split; [rewrite C; assumption|].
    change (m_t y) with t. split; [congruence|]. split; [congruence|]. split; [exact A|]. split; [reflexivity|]. split; [exact B|]. fold z. congruence.
  - (* shadow *)
    set (y := sampled L p tle t k h) in *. destruct (sunned_fresh t k h) as (A & B & C & D).
    destruct (takes_keep [y] h) as (R1 & R2 & R3 & R4 & R5 & R6 & R7 & R8). change (takes h [y]) with (take h y) in *.
    unfold at_shadow in AS. cbv zeta in AS. step AS. destruct a0 as (k' & h'). injection AS as <-. injection H as <-.
    match type of E0 with event_out _ _ _ _ _ _ ?h0 = _ => set (hh := h0) in * end.
    destruct (event_data _ _ _ _ _ _ _ _ (k_calls k) t t E0 A D) as (x & sa & o & X & Dx & Dt & Rd' & Pm & Mo & Su' & Fr' & Hh).
    right. exists (fadd t (vstep p)), k', h', lit, (Shadow y), (k_calls k). split; [reflexivity|]. cbn [last_ones ends_so].
    assert (S': samples (h_log h') = samples (h_log h) ++ [y]) by (subst h'; cbn [with_out h_log]; rewrite samples_app; subst hh; cbn [h_log samples]; rewrite app_nil_r; exact R7).
    split; [rewrite S', Sm, <- app_assoc; reflexivity|]. split; [exact Lt|]. split; [exact Sh|]. split; [subst h' hh; cbn [with_out h_started]; congruence|]. split; [subst h' hh; cbn [with_out h_found]; lia|].
    split; [rewrite S'; apply (best_ext _ (take h y)); [subst h' hh; reflexivity|subst h' hh; reflexivity|now apply best_take]|]. split; [rewrite Pm, C; assumption|].
    split; [subst h' hh; reflexivity|]. exists x. split; [subst h'; cbn [with_out h_log]; rewrite events_app; subst hh; cbn [h_log events]; rewrite R8, Ev, X; reflexivity|].
    split; [rewrite X; reflexivity|]. split; [rewrite Mo, C; assumption|]. change (m_t y) with t. unfold data_at. rewrite <- B. exact Dx.
  - (* still visible *)
    set (y := sampled L p tle t k h) in *. destruct (sunned_fresh t k h) as (A & B & C & D).
    destruct (takes_keep [y] h) as (R1 & R2 & R3 & R4 & R5 & R6 & R7 & R8). change (takes h [y]) with (take h y) in *.
    assert (Lz: List.last (m :: lit ++ [y]) m = y). { change (m :: lit ++ [y]) with ((m :: lit) ++ [y]). apply last_last. }
    apply (IH _ _ _ _ idle m (lit ++ [y]) x1 (k_calls k) PM H); try congruence.
    + reflexivity.
    + rewrite R7, Sm, <- app_assoc. reflexivity.
    + apply Forall_app. split; [exact Lt|]. constructor; [exact Vi|constructor].
    + rewrite R7. now apply best_take.
    + rewrite Lz. exact A.
    + rewrite Lz. rewrite B. unfold end_radec. destruct lit; reflexivity.
    + rewrite Lz. exact D.
    + rewrite Lz. reflexivity.
    + rewrite C; assumption.
Qed.

Lemma idle_phase : forall fuel t k h w, vloop L p tle fuel argv il name desig last t k h = Ok w ->
  h_started h = false -> h_ended h = false -> h_found h = 0 -> Forall (fun m => visible m = false) (samples (h_log h)) -> events (h_log h) = [] -> best (samples (h_log h)) h ->
  (exists h', w = Out 1 h') \/ (exists t' k' h', w = Brk t' k' h' /\ events (h_log h') = [] /\ h_started h' = false) \/
  exists idle m n n' x1 PM, Forall (fun m => visible m = false) idle /\ visible m = true /\ start_data m n n' x1 PM /\ after_lit idle m x1 PM w.
Proof.
  induction fuel as [|f IH]; intros t k h w H Es En Fo Iv Ev Be; cbn [vloop] in H; destruct (fle t last) eqn:El; try discriminate H.
  1, 3: injection H as <-; right; left; do 3 eexists; split; [reflexivity|tauto].
  step H. destruct (takes_keep [sampled L p tle t k h] h) as (R1 & R2 & R3 & R4 & R5 & R6 & R7 & R8). cbn [takes fold_left] in *.
  destruct (vturn_out _ _ _ _ _ _ _ _ _ _ _ E En) as [(out & -> & Q & A)|[(Tf & _ & ->)|[(_ & S1 & _)|[(Sh & _ & ->)|[(_ & S1 & _)|[(_ & S1 & _)|(Vi & _ & AS)]]]]]]; try congruence.
  - injection H as <-. left. now eexists.
  - apply (IH _ _ _ _ H); try congruence; [|rewrite R7; now apply best_take]. rewrite R7. apply Forall_app. split; [exact Iv|]. constructor; [|constructor]. unfold too_far, visible in *. now destruct (m_lit _) as [[]|].
  - apply (IH _ _ _ _ H); try congruence; [|rewrite R7; now apply best_take]. rewrite R7. apply Forall_app. split; [exact Iv|]. constructor; [|constructor]. unfold shadowed, visible in *. now destruct (m_lit _) as [[]|].
  - set (y := sampled L p tle t k h) in *. destruct (sunned_fresh t k h) as (A & B & C & D). set (k0 := sunned L p tle t k h) in *.
    unfold at_start in AS. cbv zeta in AS. step AS. step AS. destruct a1 as (k' & h'). apply ok_eq in AS. subst a.
    match type of E1 with event_out _ _ _ _ _ (geolocated L ?k1) ?h0 = _ => set (k2 := k1) in *; set (hh := h0) in * end.
    destruct (pa_keeps (fadd (minutes L tle t) (fdiv (fmul (of_int (v_delta_time p)) (of_int 1440)) SEC_IN_DAY)) k0) as (G1 & G2 & G4 & G5 & G3). fold k2 in G1, G2, G4, G5, G3.
    pose proof (pa_motion _ _ _ A B) as M. fold k2 in M.
    destruct (event_data _ _ _ _ _ _ _ _ (k_calls k) t t E1 (G3 _ _ A) (eq_trans G2 D)) as (x & sa & o & X & Dx & Dt & Rd' & Pm & Mo & Su' & Fr' & Hh).
    right. right. exists (samples (h_log h)), y, (k_calls k), (k_calls k0), x, (pm k2). split; [exact Iv|]. split; [exact Vi|].
    split. { split; [rewrite X; reflexivity|]. split; [|split; [exact M|exact Mo]]. change (m_t y) with t. unfold data_at. rewrite <- B, <- G1. exact Dx. }
    match type of H with vloop _ _ _ _ _ _ _ _ _ _ _ ?h0 = _ => set (h2 := h0) in * end.
    assert (S': samples (h_log h2) = samples (h_log h) ++ [y]) by (subst h2 h'; cbn [with_out h_log]; rewrite samples_app; subst hh; cbn [say h_log samples]; rewrite app_nil_r; exact R7).
    apply (lit_phase _ _ _ _ _ (samples (h_log h)) y [] x (k_calls k) (pm k2) H).
    + subst h2 h' hh. reflexivity.
    + subst h2 h' hh. cbn [with_out say h_ended]. congruence.
    + subst h2 h' hh. reflexivity.
    + subst h2 h' hh. cbn [with_out say h_found]. lia.
    + exact S'.
    + constructor.
    + subst h2 h'. cbn [with_out h_log]. rewrite events_app. subst hh. cbn [say h_log events]. rewrite R8, Ev, X. reflexivity.
    + rewrite S'. apply (best_ext _ (take h y)); [subst h2 h' hh; reflexivity|subst h2 h' hh; reflexivity|now apply best_take].
    + exact Fr'.
    + rewrite Rd', X. reflexivity.
    + rewrite Su', G2. exact D.
    + reflexivity.
    + exact Pm.
Qed.

(** The data recomputed. *)
Lemma recomputed_data : forall nm mjd t k h k' h', recomputed L p tle nm mjd t k h = Ok (k', h') ->
  exists g u sa n o, let x := (nm, g, u, sa) in data_at L p tle n t t t x /\ date_of mjd = Ok (sa_date sa) /\ motion_of x = pm k /\ pm k' = pm k /\ h' = with_out o [Data nm g u sa] h.
Proof.
  intros nm mjd t k h k' h' H. unfold recomputed in H. cbv zeta in H. destruct (look_fresh t k) as (A & B & C & D). set (k0 := look L p tle t k) in *.
  set (u := l_sun L t (k_lmst (geolocated L k0)) (k_gmst (geolocated L k0)) (k_tra (geolocated L k0))) in *.
  assert (U: u = sun_of L t) by exact (sun_now _ _ _ A).
  change (put_sun u (geolocated L k0)) with (geolocated L (put_sun u k0)) in H.
  destruct (event_data _ _ _ _ _ _ _ _ (k_calls k) t t H (fresh_sun _ _ _ _ A) U) as (x & sa & o & X & Dx & Dt & Rd' & Pm & Mo & Su' & Fr' & Hh).
  exists (k_geo (geolocated L (put_sun u k0))), u, sa, (k_calls k), o. cbv zeta. change (k_sun (put_sun u k0)) with u in X. rewrite <- X.
  split; [unfold data_at; rewrite <- B; exact Dx|]. split; [exact Dt|]. change (pm (put_sun u k0)) with (pm k0) in *. split; [congruence|]. split; [congruence|exact Hh].
Qed.
End Data.

Lemma rest_data : forall L p tle argv il jd0 k h hf PM, h_started h = true -> 0 < h_found h -> pm k = PM -> best (samples (h_log h)) h -> vrest L p tle argv il jd0 k h = Ok hf ->
  exists x3 x4 n3 n4 mid, samples (h_log hf) = samples (h_log h) /\ events (h_log hf) = events (h_log h) ++ [x3; x4] /\ named "mid" x3 /\ named "max" x4 /\
    (date_of mid = Ok (sa_date (snd x3)) /\ let t := fadd mid JD_OFF in data_at L p tle n3 t t t x3) /\
    (top_time (samples (h_log h)) (h_tmin h) /\ date_of (fsub (h_tmin h) JD_OFF) = Ok (sa_date (snd x4)) /\ data_at L p tle n4 (h_tmin h) (h_tmin h) (h_tmin h) x4) /\
    motion_of x3 = PM /\ motion_of x4 = PM.
Proof.
  intros L p tle argv il jd0 k h hf PM Es Fo P Be H. unfold vrest in H. rewrite Es in H. cbv zeta in H.
  step H. destruct a as (k2 & h2). step E. destruct a as (k1 & h1).
  apply recomputed_data in E0. destruct E0 as (g3 & u3 & s3 & n3 & o3 & D3 & T3 & M3 & P3 & ->).
  apply recomputed_data in E. destruct E as (g4 & u4 & s4 & n4 & o4 & D4 & T4 & M4 & P4 & ->).
  cbn [with_out h_found h_mjd_end h_mjd_start h_tmin] in *. destruct (Z.ltb_spec 0 (h_found h)) as [_|K]; [|lia].
  step H. apply ok_eq in H. subst hf. cbn [say with_out h_found h_out h_log] in *.
  do 2 eexists. exists n3, n4. eexists. rewrite <- app_assoc, samples_app, events_app. cbn [app samples events]. rewrite app_nil_r. split; [reflexivity|]. split; [reflexivity|]. split; [reflexivity|]. split; [reflexivity|].
  split; [split; [exact T3|exact D3]|]. split; [split; [now apply best_top|split; [exact T4|exact D4]]|]. split; congruence.
Qed.

Lemma events_data : forall e fuel argv il p file f fin, vis_found e fuel argv il p file f = Ok fin -> vf_code fin = 0 -> events (vf_log fin) <> [] ->
  told (n_lib e) p (f_tle f) (samples (vf_log fin)) (events (vf_log fin)).
Proof.
  intros e fuel argv il p file f fin H C0 Ne. unfold vis_found in H. cbv zeta in H. set (L := n_lib e) in *. set (tle := f_tle f) in *.
  destruct (l_dechalat L _ _) as ((alt & az) & parang). fold (range_begin p) in H. fold (range_end p) in H.
  step H. step H. step H.
  match type of E1 with vloop _ _ _ _ _ _ _ _ _ _ _ (search0 ?hd) = _ => set (head := hd) in * end.
  destruct (idle_phase _ _ _ _ _ _ _ _ _ _ _ _ _ E1 eq_refl eq_refl eq_refl (Forall_nil _) eq_refl (best0 head)) as [(h' & ->)|[(t' & k' & h' & -> & Ev & Es)|(idle & m & n1 & n5 & x1 & PM & Id & Vm & (S1 & S2 & S3 & S4) & [(h' & ->)|(t' & k' & h' & lit & en & n2 & -> & Sm & Lt & Eo & Hs & Hf & Be & Pm & Me)])]].
  - (* left by the altitude exit: the code is 1 *)
    exfalso. apply ok_eq in H. subst fin. discriminate C0.
  - exfalso. step H. apply ok_eq in H. subst fin. cbn [vf_log] in Ne. rewrite vafter_eq, Es in E2. cbn [andb] in E2. cbn [bind] in E2. unfold vrest in E2. rewrite Es in E2. cbn [bind] in E2.
    destruct (l_lmst L _) as (lm & gm). cbv zeta in E2. step E2. apply ok_eq in E2. subst a1. apply Ne. destruct (0 <? h_found h'); exact Ev.
  - exfalso. apply ok_eq in H. subst fin. discriminate C0.
  - step H. apply ok_eq in H. subst fin. cbn [vf_code vf_log] in *. rename a1 into hf. constructor.
    assert (Vl: Forall (fun m => visible m = true) (m :: lit)) by (constructor; assumption).
    (* the state when the end is known *)
    assert (G: exists x2 k2 h2, vrest L p tle argv il (range_begin p) k2 h2 = Ok hf /\ h_started h2 = true /\ 0 < h_found h2 /\ pm k2 = PM /\ best (samples (h_log h2)) h2 /\
      samples (h_log h2) = samples (h_log h') /\ events (h_log h2) = [x1; x2] /\ named "end" x2 /\ motion_of x2 = PM /\ end_data L p tle n2 x1 m lit en x2).
    { rewrite vafter_eq, Hs in E2. destruct en as [z|z|].
      - destruct Me as (He & x2 & Ev & Nm & Mo & Da). rewrite He in E2. cbn [andb negb bind] in E2. exists x2, k', h'. tauto.
      - destruct Me as (He & Ev & Fr & Ti & Rd & Su). rewrite He in E2. cbn [andb negb] in E2. cbv zeta in E2. step E2. destruct a1 as (k2 & h2).
        destruct (event_data _ p tle _ _ _ _ _ _ _ _ _ _ _ E3 Fr Su) as (x & sa & o & X & Dx & Dt & Rd' & Pm' & Mo & Su' & Fr' & Hh).
        exists x, k2, h2. split; [exact E2|]. subst h2. cbn [with_out h_started h_found h_log]. rewrite samples_app, events_app. cbn [samples events h_log]. rewrite app_nil_r, Ev.
        split; [reflexivity|]. split; [exact Hf|]. split; [congruence|]. split; [eapply best_ext; [| |exact Be]; reflexivity|]. split; [reflexivity|]. split; [rewrite X; reflexivity|]. split; [rewrite X; reflexivity|]. split; [congruence|].
        unfold end_data, data_at. rewrite <- Rd, <- Ti. exact Dx.
      - destruct Me as (He & Ev & Fr & Ti & Rd & Su). rewrite He in E2. cbn [andb negb] in E2. cbv zeta in E2. step E2. destruct a1 as (k2 & h2).
        destruct (event_data _ p tle _ _ _ _ _ _ _ _ _ _ _ E3 Fr Su) as (x & sa & o & X & Dx & Dt & Rd' & Pm' & Mo & Su' & Fr' & Hh).
        exists x, k2, h2. split; [exact E2|]. subst h2. cbn [with_out h_started h_found h_log]. rewrite samples_app, events_app. cbn [samples events h_log]. rewrite app_nil_r, Ev.
        split; [reflexivity|]. split; [exact Hf|]. split; [congruence|]. split; [eapply best_ext; [| |exact Be]; reflexivity|]. split; [reflexivity|]. split; [rewrite X; reflexivity|]. split; [rewrite X; reflexivity|]. split; [congruence|].
        unfold end_data, data_at. cbv zeta. rewrite <- Ti. rewrite Rd in Dx. unfold end_radec in Dx. destruct lit; exact Dx. }
    destruct G as (x2 & k2 & h2 & V & Hs2 & Hf2 & Pm2 & Be2 & Sa2 & Ev2 & Nm2 & Mo2 & Da2).
    destruct (rest_data _ _ _ _ _ _ _ _ _ _ Hs2 Hf2 Pm2 Be2 V) as (x3 & x4 & n3 & n4 & mid & Sa & Ev & N3 & N4 & D3 & D4 & M3 & M4).
    exists idle, m, lit, en, x1, x2, x3, x4, n1, n2, n3, n4, n5, mid, (h_tmin h2). rewrite Sa, Ev, Ev2. split; [congruence|]. split; [exact Id|]. split; [exact Vl|]. split; [exact Eo|]. split; [reflexivity|].
    split; [exact S1|]. split; [exact Nm2|]. split; [exact N3|]. split; [exact N4|]. split; [exact S2|]. split; [exact Da2|]. split; [exact D3|]. split; [exact D4|].
    exists PM. split; [exact S3|]. repeat (constructor; [assumption|]). constructor.
Qed.
