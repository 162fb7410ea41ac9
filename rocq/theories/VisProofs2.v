(** What a run reports. *)
From Coq Require Import String Ascii ZArith List Bool Lia Reals Lra.
From Flocq Require Import IEEE754.BinarySingleNaN.
From Verif Require Import CLib FloatModel FloatLemmas CalendarModel TleModel IoModel SkymapModel VisCliModel VisModel VisSpec VisProofs1.
Import ListNotations.
Open Scope Z_scope.

Lemma ok_eq : forall (A : Type) (a b : A), Ok a = Ok b -> b = a.
Proof. intros A a b H. congruence. Qed.

(** ** Comparison *)
Lemma flt_fin : forall x y, flt x y = true -> (is_finite x = true \/ x = B754_infinity true) /\ (is_finite y = true \/ y = B754_infinity false).
Proof. intros [s|s| |s m e B] [s'|s'| |s' m' e' B'] H; cbn in H; try discriminate H; cbn [is_finite]; try destruct s; try destruct s'; try discriminate H; tauto. Qed.
Lemma flt_minus_inf : forall x, is_finite x = true -> flt (B754_infinity true) x = true.
Proof. intros [s|s| |s m e B] H; try discriminate H; reflexivity. Qed.
Lemma flt_plus_inf : forall x, is_finite x = true -> flt x (B754_infinity false) = true.
Proof. intros [s|s| |s m e B] H; try discriminate H; try reflexivity; destruct s; reflexivity. Qed.
Lemma flt_trans : forall x y z, flt x y = true -> flt y z = true -> flt x z = true.
Proof.
  intros x y z A B. destruct (flt_fin _ _ A) as (X & Y). destruct (flt_fin _ _ B) as (Y' & Z).
  assert (Fy: is_finite y = true). { destruct Y as [Y|Y]; [exact Y|]. destruct Y' as [Y'|Y']; [exact Y'|]. subst y. discriminate Y'. }
  destruct X as [X| ->], Z as [Z| ->]; try reflexivity; [|now apply flt_plus_inf|now apply flt_minus_inf].
  apply flt_R in A; try assumption. apply flt_R in B; try assumption. apply flt_R; try assumption. lra.
Qed.

(** ** The best sample *)
Definition best (l : list smp) (h : srch) : Prop :=
  (exists m, highest l m /\ m_t m = h_tmin h /\ m_sep m = h_minsep h /\ flt (m_sep m) (of_int 181) = true) \/
  (h_tmin h = of_int 0 /\ h_minsep h = of_int 181 /\ forall x, In x l -> visible x = true -> flt (m_sep x) (of_int 181) = false).
Lemma best_take : forall l h m, best l h -> best (l ++ [m]) (take h m).
Proof.
  intros l h m B. unfold take, best. cbn [h_tmin h_minsep]. destruct (flt (m_sep m) (h_minsep h) && visible m) eqn:E.
  - apply andb_prop in E. destruct E as (E & V). left. exists m. split.
    + split; [apply in_or_app; right; now left|]. split; [exact V|]. intros x Hx Vx. apply in_app_or in Hx. destruct Hx as [Hx|[<-|[]]].
      * destruct (flt (m_sep x) (m_sep m)) eqn:Ex; [|reflexivity]. exfalso. pose proof (flt_trans _ _ _ Ex E) as K.
        destruct B as [(y & (Iy & Vy & My) & _ & Sy & _)|(_ & Sy & My)]; [specialize (My x Hx Vx)|specialize (My x Hx Vx)]; congruence.
      * destruct (flt (m_sep m) (m_sep m)) eqn:K; [|reflexivity]. destruct (flt_fin _ _ K) as (X & Y).
        assert (F: is_finite (m_sep m) = true). { destruct X as [X|X]; [exact X|]. destruct Y as [Y|Y]; [exact Y|]. rewrite X in Y. discriminate Y. }
        apply flt_R in K; try assumption. lra.
    + split; [reflexivity|]. split; [reflexivity|]. destruct B as [(y & _ & _ & Sy & Ly)|(_ & Sy & _)]; [rewrite <- Sy in E; eapply flt_trans; eassumption|now rewrite <- Sy].
  - assert (K: visible m = true -> flt (m_sep m) (h_minsep h) = false). { intro V. rewrite V, andb_true_r in E. exact E. }
    destruct B as [(y & (Iy & Vy & My) & Ty & Sy & Ly)|(T & Sy & My)].
    + left. exists y. split; [|tauto]. split; [apply in_or_app; now left|]. split; [exact Vy|]. intros x Hx Vx. apply in_app_or in Hx. destruct Hx as [Hx|[<-|[]]]; [now apply My|]. rewrite Sy. now apply K.
    + right. split; [exact T|]. split; [exact Sy|]. intros x Hx Vx. apply in_app_or in Hx. destruct Hx as [Hx|[<-|[]]]; [now apply My|]. rewrite <- Sy. now apply K.
Qed.
Lemma best_takes : forall l2 l1 h, best l1 h -> best (l1 ++ l2) (takes h l2).
Proof.
  induction l2 as [|m l2 IH]; intros l1 h B; [rewrite app_nil_r; exact B|]. change (takes h (m :: l2)) with (takes (take h m) l2).
  replace (l1 ++ m :: l2) with ((l1 ++ [m]) ++ l2) by (rewrite <- app_assoc; reflexivity). apply IH. now apply best_take.
Qed.
Lemma best_top : forall l h, best l h -> top_time l (h_tmin h).
Proof. intros l h [(m & A & B & _ & C)|(A & _ & C)]; [left; exists m; tauto|right; tauto]. Qed.

(** ** Reported events *)
Section Run.
Context (L : lib) (p : vparams) (tle : tle_t).

Definition with_out (t : list Z) (ev : list vevent) (h : srch) : srch :=
  mk_srch (h_first h) (h_started h) (h_ended h) (h_mjd_start h) (h_mjd_end h) (h_tmin h) (h_minsep h) (h_found h) (h_out h ++ t) (h_log h ++ ev).
Lemma event_out_ok : forall nm mjd cur t k h k' h', event_out L nm mjd cur t k h = Ok (k', h') ->
  exists sa o, date_of mjd = Ok (sa_date sa) /\ sa_mjd sa = cur /\ sa_sep sa = sa_sep (k_sat k) /\ k' = put_sat sa k /\
    event_text (nm, k_geo k, k_sun k, sa) = Ok o /\ h' = with_out o [Data nm (k_geo k) (k_sun k) sa] h.
Proof.
  intros nm mjd cur t k h k' h' H. unfold event_out in H. cbv zeta in H. step H. step H. unfold dated in E. step E. cbv zeta in E.
  destruct (l_dechalat _ _ _) as ((alt & az) & q_). destruct (l_precess _ _ _ _) as (ra & dec). injection E as <-. cbn [put_sat k_sat k_geo k_sun] in *.
  assert (Hk: forall (A B : Type) (a a' : A) (b b' : B), Ok (a, b) = Ok (a', b') -> a = a' /\ b = b') by (intros; split; congruence).
  apply Hk in H. destruct H as (<- & <-).
  match type of E0 with vis_sat_json _ ?sa = _ => exists sa, (vis_geo_json (bytes "geoloc_" ++ nm) (k_geo k) ++ vis_sun_json (bytes "sun_" ++ nm) (k_sun k) ++ a0) end.
  split; [exact E1|]. split; [reflexivity|]. split; [reflexivity|]. split; [reflexivity|]. split.
  - unfold event_text. rewrite E0. reflexivity.
  - unfold mark, say, with_out. cbn [h_first h_started h_ended h_mjd_start h_mjd_end h_tmin h_minsep h_found h_out h_log]. rewrite <- !app_assoc. reflexivity.
Qed.

Lemma recomputed_ok : forall nm mjd t k h k' h', recomputed L p tle nm mjd t k h = Ok (k', h') ->
  exists g u sa o n, date_of mjd = Ok (sa_date sa) /\ sa_mjd sa = sa_mjd (k_sat k) /\ sa_sep sa = zenith_distance L p tle n t /\ sa_mjd (k_sat k') = sa_mjd (k_sat k) /\
    event_text (nm, g, u, sa) = Ok o /\ h' = with_out o [Data nm g u sa] h.
Proof.
  intros nm mjd t k h k' h' H. unfold recomputed in H. cbv zeta in H. apply event_out_ok in H. destruct H as (sa & o & D & M & S & K & T & Hh).
  assert (M': sa_mjd sa = sa_mjd (k_sat k)).
  { rewrite M. unfold geolocated, put_geo, put_sun, look. cbn [k_sat]. destruct (l_lmst _ _) as (a & b). destruct (l_radec _ _ _) as ((ra & dec) & d). reflexivity. }
  do 2 eexists. exists sa, o, (k_calls k). split; [exact D|]. split; [exact M'|].
  split. { rewrite S. unfold put_sun, geolocated, put_geo. cbn [k_sat]. apply look_facts. }
  split; [subst k'; exact M'|]. split; [exact T|exact Hh].
Qed.

Lemma at_start_ok : forall name desig t0 t k h w, at_start L p tle name desig t0 t k h = Ok w ->
  exists desig' g u sa o k', (if v_single_i p then Ok desig else vis_desig (tle_intl_desig tle) desig) = Ok desig' /\
    stamped (fsub (fsub t JD_OFF) (vstep p)) sa /\ sa_sep sa = sa_sep (k_sat k) /\ event_text (bytes "start", g, u, sa) = Ok o /\ sa = k_sat k' /\
    w = Turn t k' (mk_srch (h_first h) true (h_ended h) (fsub t JD_OFF) (h_mjd_end h) (h_tmin h) (h_minsep h) (h_found h + 1)
          (h_out h ++ (vis_fields_json ++ q " 'satellite': {'name': '" ++ name ++ q "', 'intl_desig': '" ++ desig' ++ q "', 'norad_n': " ++
                print_d 0 (norad_number tle) ++ q ", ") ++ o) (h_log h ++ [Data (bytes "start") g u sa])).
Proof.
  intros name desig t0 t k h w H. unfold at_start in H. cbv zeta in H. step H. step H. destruct a0 as (k' & h'). injection H as <-.
  apply event_out_ok in E0. destruct E0 as (sa & o & D & M & S & K & T & Hh).
  exists a. do 2 eexists. exists sa, o, k'. split; [exact E|]. split; [split; [exact M|exact D]|]. split.
  { rewrite S. unfold geolocated, put_geo. cbn [k_sat]. apply pa_facts. }
  split; [exact T|]. split; [subst k'; reflexivity|]. subst h'. unfold with_out, say.
  cbn [h_first h_started h_ended h_mjd_start h_mjd_end h_tmin h_minsep h_found h_out h_log]. rewrite <- !app_assoc. reflexivity.
Qed.

Lemma at_shadow_ok : forall t k h w, at_shadow L p t k h = Ok w ->
  exists g u sa o k', stamped (fsub (fsub t JD_OFF) (vstep p)) sa /\ sa_sep sa = sa_sep (k_sat k) /\ event_text (bytes "end", g, u, sa) = Ok o /\ sa = k_sat k' /\
    w = Brk t k' (mk_srch (h_first h) (h_started h) true (h_mjd_start h) (fsub t JD_OFF) (h_tmin h) (h_minsep h) (h_found h)
          (h_out h ++ o) (h_log h ++ [Data (bytes "end") g u sa])).
Proof.
  intros t k h w H. unfold at_shadow in H. cbv zeta in H. step H. destruct a as (k' & h'). injection H as <-.
  apply event_out_ok in E. destruct E as (sa & o & D & M & S & K & T & Hh).
  do 2 eexists. exists sa, o, k'. split; [split; [exact M|exact D]|]. split; [exact S|]. split; [exact T|]. split; [subst k'; reflexivity|]. subst h'. reflexivity.
Qed.

(** After the loop, once the end is known. *)
Definition vrest (argv : list (list Z)) (il : bool) (jd0 : b64) (k : sky) (h : srch) : res srch :=
  kh <- (if h_started h then
           let mid := fadd (h_mjd_start h) (fdiv (fsub (h_mjd_end h) (h_mjd_start h)) (of_int 2)) in
           kh <- recomputed L p tle (bytes "mid") mid (fadd mid JD_OFF) k h ;;
           let '(k, h) := kh in
           recomputed L p tle (bytes "max") (fsub (h_tmin h) JD_OFF) (h_tmin h) k h
         else Ok (k, h)) ;;
  let '(k, h) := kh in
  let h :=
    if 0 <? h_found h then
      say (q "}, 'sunlit_duration_minutes': " ++
           print_f 0 2 (fmul (widen (narrow (fsub (h_mjd_end h) (h_mjd_start h)))) (of_int 1440)) ++ q ", ") h
    else
      let '(lmst, gmst) := l_lmst L jd0 in
      say (vis_sun_json (bytes "sun") (l_sun L jd0 lmst gmst (fdiv lmst RAD2HRS))) h in
  t <- vis_close argv il 0 [] (h_found h) ;;
  Ok (say t h).
Lemma vafter_eq : forall argv il jd0 t k h, vafter L p tle argv il jd0 t k h =
  (kh <- (if h_started h && negb (h_ended h) then
           let m := fsub (fsub t (vstep p)) JD_OFF in
           let h := mk_srch (h_first h) (h_started h) (h_ended h) (h_mjd_start h) m (h_tmin h) (h_minsep h) (h_found h) (h_out h) (h_log h) in
           event_out L (bytes "end") m m (fsub t (vstep p)) (geolocated L k) h
         else Ok (k, h)) ;;
   let '(k, h) := kh in vrest argv il jd0 k h).
Proof. reflexivity. Qed.

Lemma rest_seen : forall argv il jd0 k h hf, h_started h = true -> 0 < h_found h ->
  vrest argv il jd0 k h = Ok hf ->
  exists g3 u3 s3 g4 u4 s4 o3 o4 c n, let b := h_mjd_start h in let z := h_mjd_end h in let mj := sa_mjd (k_sat k) in
    sa_mjd s3 = mj /\ date_of (fadd b (fdiv (fsub z b) (of_int 2))) = Ok (sa_date s3) /\
    sa_mjd s4 = mj /\ date_of (fsub (h_tmin h) JD_OFF) = Ok (sa_date s4) /\ sa_sep s4 = zenith_distance L p tle n (h_tmin h) /\
    event_text (bytes "mid", g3, u3, s3) = Ok o3 /\ event_text (bytes "max", g4, u4, s4) = Ok o4 /\ vis_close argv il 0 [] (h_found h) = Ok c /\
    h_out hf = h_out h ++ o3 ++ o4 ++ duration_text b z ++ c /\
    h_log hf = h_log h ++ [Data (bytes "mid") g3 u3 s3; Data (bytes "max") g4 u4 s4].
Proof.
  intros argv il jd0 k h hf Es Fo H. unfold vrest in H. rewrite Es in H. cbv zeta in H.
  step H. destruct a as (k2 & h2). step E. destruct a as (k1 & h1).
  apply recomputed_ok in E0. destruct E0 as (g3 & u3 & s3 & o3 & n3 & D3 & M3 & S3 & K3 & T3 & ->).
  apply recomputed_ok in E. destruct E as (g4 & u4 & s4 & o4 & n4 & D4 & M4 & S4 & K4 & T4 & ->).
  cbn [with_out h_found h_mjd_end h_mjd_start h_tmin] in *. destruct (Z.ltb_spec 0 (h_found h)) as [_|K]; [|lia].
  step H. apply ok_eq in H. subst hf. cbn [say with_out h_found h_out h_log] in *.
  exists g3, u3, s3, g4, u4, s4, o3, o4, a, n4. cbv zeta. split; [congruence|]. split; [exact D3|]. split; [congruence|]. split; [exact D4|]. split; [exact S4|].
  split; [exact T3|]. split; [exact T4|]. split; [exact E|]. split; [unfold duration_text, duration; rewrite <- !app_assoc; reflexivity|rewrite <- app_assoc; reflexivity].
Qed.

(** The end found after the loop. *)
Lemma after_open : forall argv il jd0 t k h hf, h_started h = true -> h_ended h = false -> 0 < h_found h ->
  vafter L p tle argv il jd0 t k h = Ok hf ->
  exists g2 u2 s2 o2 k' h', let m := fsub (fsub t (vstep p)) JD_OFF in
    stamped m s2 /\ sa_sep s2 = sa_sep (k_sat k) /\ event_text (bytes "end", g2, u2, s2) = Ok o2 /\ k_sat k' = s2 /\
    h_started h' = true /\ h_found h' = h_found h /\ h_mjd_start h' = h_mjd_start h /\ h_mjd_end h' = m /\ h_tmin h' = h_tmin h /\
    h_out h' = h_out h ++ o2 /\ h_log h' = h_log h ++ [Data (bytes "end") g2 u2 s2] /\ vrest argv il jd0 k' h' = Ok hf.
Proof.
  intros argv il jd0 t k h hf Es En Fo H. rewrite vafter_eq, Es, En in H. cbn [andb negb] in H. cbv zeta in H. step H. destruct a as (k' & h').
  apply event_out_ok in E. destruct E as (sa & o & D & M & S & K & T & Hh). do 2 eexists. exists sa, o, k', h'. cbv zeta.
  split; [split; [exact M|exact D]|]. split; [exact S|]. split; [exact T|]. split; [subst k'; reflexivity|]. subst h'. cbn [with_out h_started h_found h_mjd_start h_mjd_end h_tmin h_out h_log]. repeat split; try assumption; reflexivity.
Qed.
End Run.
