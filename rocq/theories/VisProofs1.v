(** Shape of the time loop. *)
From Coq Require Import String Ascii ZArith List Bool Lia.
From Flocq Require Import IEEE754.BinarySingleNaN.
From Verif Require Import CLib FloatModel CalendarModel TleModel IoModel SkymapModel VisCliModel VisModel VisSpec.
Import ListNotations.
Open Scope Z_scope.

Lemma bind_ok : forall (A B : Type) (m : res A) (k : A -> res B) b, bind m k = Ok b -> exists a, m = Ok a /\ k a = Ok b.
Proof. intros A B [a|u] k b H; cbn in H; [now exists a|discriminate]. Qed.
Ltac step H := let a := fresh "a" in let E := fresh "E" in apply bind_ok in H; destruct H as (a & E & H); cbv beta zeta in H.

Lemma samples_app : forall a b, samples (a ++ b) = samples a ++ samples b.
Proof. induction a as [|e a IH]; intro b; [reflexivity|]. destruct e; cbn; now rewrite IH. Qed.
Lemma events_app : forall a b, events (a ++ b) = events a ++ events b.
Proof. induction a as [|e a IH]; intro b; [reflexivity|]. destruct e; cbn; now rewrite IH. Qed.

Lemma ticks_shift : forall s n t, ticks s (fadd t s) n = ticks s t (S n).
Proof. intros s n t. induction n as [|n IH]; [reflexivity|]. cbn [ticks] in *. now rewrite IH. Qed.
Lemma timed_nil : forall s t, timed s t [].
Proof. intros s t [|i] m H; discriminate H. Qed.
Lemma timed_cons : forall s t m l, m_t m = t -> timed s (fadd t s) l -> timed s t (m :: l).
Proof. intros s t m l E H [|i] x K; cbn in K; [injection K as <-; exact E|]. rewrite (H i x K). apply ticks_shift. Qed.
Lemma timed_app : forall s t a b, timed s t a -> timed s (ticks s t (length a)) b -> timed s t (a ++ b).
Proof.
  intros s t a. revert t. induction a as [|m a IH]; intros t b A B; [exact B|]. cbn [app length] in *. apply timed_cons; [apply (A 0%nat); reflexivity|].
  apply IH.
  - intros i x K. rewrite (A (S i) x K). symmetry. apply ticks_shift.
  - rewrite ticks_shift. exact B.
Qed.

(** A sample enters the search variables. *)
Definition take (h : srch) (m : smp) : srch :=
  let better := flt (m_sep m) (h_minsep h) && visible m in
  mk_srch false (h_started h) (h_ended h) (h_mjd_start h) (h_mjd_end h)
    (if better then m_t m else h_tmin h) (if better then m_sep m else h_minsep h) (h_found h) (h_out h)
    (h_log h ++ [Sample (m_t m) (m_sep m) (m_lit m)]).
Definition takes (h : srch) (l : list smp) : srch := fold_left take l h.
Lemma takes_keep : forall l h, h_started (takes h l) = h_started h /\ h_ended (takes h l) = h_ended h /\ h_mjd_start (takes h l) = h_mjd_start h /\
  h_mjd_end (takes h l) = h_mjd_end h /\ h_found (takes h l) = h_found h /\ h_out (takes h l) = h_out h /\
  samples (h_log (takes h l)) = samples (h_log h) ++ l /\ events (h_log (takes h l)) = events (h_log h).
Proof.
  induction l as [|m l IH]; intro h; [cbn; rewrite app_nil_r; tauto|]. change (takes h (m :: l)) with (takes (take h m) l).
  destruct (IH (take h m)) as (A & B & C & D & E & F & G & I). rewrite A, B, C, D, E, F, G, I. cbn [take h_started h_ended h_mjd_start h_mjd_end h_found h_out h_log].
  rewrite samples_app, events_app. cbn [samples events]. rewrite <- app_assoc, app_nil_r. destruct m as [a b c]. cbn [m_t m_sep m_lit app]. tauto.
Qed.

Section Run.
Context (L : lib) (p : vparams) (tle : tle_t) (argv : list (list Z)) (il : bool) (name desig : list Z) (last : b64).
Let s : b64 := vstep p.

(** The state of the computations once a sample was taken at [t]. *)
Definition looked (t : b64) (k : sky) (h : srch) : sky :=
  let k := look L p tle t k in
  let k := if v_altrng p then geolocated L k else k in
  if h_first h then pa_and_speed L p tle (minutes L tle t) k else k.
Definition sunned (t : b64) (k : sky) (h : srch) : sky :=
  let k := looked t k h in put_sun (l_sun L t (k_lmst k) (k_gmst k) (k_tra k)) k.
Definition sampled (t : b64) (k : sky) (h : srch) : smp :=
  let k := looked t k h in
  let sep := sa_sep (k_sat k) in
  mk_smp t sep (if flt (v_radius p) sep then None else Some (negb (l_blocked L (k_pos k) (l_sun_vec L t)))).

Lemma look_facts : forall t k, sa_sep (k_sat (look L p tle t k)) = zenith_distance L p tle (k_calls k) t /\ k_pos (look L p tle t k) = position L tle (k_calls k) t.
Proof.
  intros t k. unfold look, zenith_distance, position, minutes. destruct (l_lmst L t) as (a & b). destruct (l_radec _ _ _) as ((ra & dec) & d). split; reflexivity.
Qed.
Lemma pa_facts : forall m k, sa_sep (k_sat (pa_and_speed L p tle m k)) = sa_sep (k_sat k) /\ k_pos (pa_and_speed L p tle m k) = k_pos k.
Proof. intros m k. unfold pa_and_speed. destruct (l_radec _ _ _) as ((ra & dec) & d). split; reflexivity. Qed.
Lemma looked_facts : forall t k h, sa_sep (k_sat (looked t k h)) = zenith_distance L p tle (k_calls k) t /\ k_pos (looked t k h) = position L tle (k_calls k) t.
Proof.
  intros t k h. destruct (look_facts t k) as (A & B). unfold looked. destruct (h_first h), (v_altrng p); cbv zeta; rewrite ?(proj1 (pa_facts _ _)), ?(proj2 (pa_facts _ _)); cbn [geolocated put_geo k_sat k_pos]; split; assumption.
Qed.
Lemma sampled_faithful : forall t k h, faithful L p tle (sampled t k h).
Proof.
  intros t k h. destruct (looked_facts t k h) as (A & B). exists (k_calls k). unfold sampled. cbv zeta. cbn [m_sep m_t m_lit]. rewrite A, B. split; reflexivity.
Qed.

(** Outcomes of one turn. *)
Lemma vturn_out : forall t k h w, vturn L p tle argv il name desig t k h = Ok w -> h_ended h = false ->
  let m := sampled t k h in
  (exists out, w = Out 1 (mk_srch (h_first h) (h_started h) (h_ended h) (h_mjd_start h) (h_mjd_end h) (h_tmin h) (h_minsep h) (h_found h) out (h_log h)) /\
     vis_quit argv il 1 2 (bytes "Satellite altitude out of requested range") (h_found h) (h_out h) = Ok (1, out) /\ v_altrng p = true) \/
  (too_far m = true /\ h_started h = false /\ w = Turn (fadd t s) (looked t k h) (take h m)) \/
  (too_far m = true /\ h_started h = true /\ w = Brk (fadd t s) (looked t k h) (take h m)) \/
  (shadowed m = true /\ h_started h = false /\ w = Turn (fadd t s) (sunned t k h) (take h m)) \/
  (shadowed m = true /\ h_started h = true /\ at_shadow L p (fadd t s) (sunned t k h) (take h m) = Ok w) \/
  (visible m = true /\ h_started h = true /\ w = Turn (fadd t s) (sunned t k h) (take h m)) \/
  (visible m = true /\ h_started h = false /\ at_start L p tle name desig t (fadd t s) (sunned t k h) (take h m) = Ok w).
Proof.
  intros t k h w H En. cbv zeta. unfold vturn in H. cbv zeta in H.
  destruct (v_altrng p && _) eqn:Ealt.
  { left. step H. destruct a as (code & out). injection H as <-. exists out. apply andb_prop in Ealt. destruct Ealt as (Ea & _).
    unfold vis_quit in E. pose proof E as E'. step E. step E. injection E as <- <-. split; [reflexivity|]. split; [exact E'|exact Ea]. }
  right. fold (looked t k h) in H. unfold sampled, too_far, shadowed, visible, take. cbv zeta. cbn [m_lit m_t m_sep].
  destruct (flt (v_radius p) (sa_sep (k_sat (looked t k h)))) eqn:Er.
  - unfold mark in H. cbn [h_started h_first h_ended h_mjd_start h_mjd_end h_tmin h_minsep h_found h_out h_log] in H. unfold visible. cbn [m_lit]. rewrite andb_false_r.
    destruct (h_started h) eqn:Es; injection H as <-; tauto.
  - fold (sunned t k h) in H. change (k_pos (sunned t k h)) with (k_pos (looked t k h)) in H. unfold mark in H. cbn [h_started h_first h_ended h_mjd_start h_mjd_end h_tmin h_minsep h_found h_out h_log] in H. unfold visible. cbn [m_lit].
    destruct (l_blocked L (k_pos (looked t k h)) (l_sun_vec L t)) eqn:Eb; cbn [negb andb] in H |- *.
    + rewrite andb_false_r in *. destruct (h_started h) eqn:Es; cbn [negb] in H; [|injection H as <-; tauto].
      rewrite En in H. cbn [negb] in H. rewrite En. tauto.
    + rewrite andb_true_r in *. destruct (h_started h) eqn:Es; [injection H as <-; tauto|tauto].
Qed.

(** Before the first visible sample. *)
Lemma loop_idle : forall fuel t k h w, vloop L p tle fuel argv il name desig last t k h = Ok w -> h_started h = false -> h_ended h = false ->
  exists l k', timed s t l /\ Forall (faithful L p tle) l /\ Forall (fun m => fle (m_t m) last = true /\ visible m = false) l /\
    (((w = Brk (ticks s t (length l)) k' (takes h l)) /\ fle (ticks s t (length l)) last = false) \/
     (exists out h', w = Out 1 h' /\ v_altrng p = true /\ h_out h' = out /\ h_log h' = h_log (takes h l) /\
        vis_quit argv il 1 2 (bytes "Satellite altitude out of requested range") (h_found h) (h_out h) = Ok (1, out)) \/
     (exists m k1 t2 k2 h2 f, sa_sep (k_sat k1) = m_sep m /\ m_t m = ticks s t (length l) /\ faithful L p tle m /\ fle (m_t m) last = true /\ visible m = true /\
        at_start L p tle name desig (m_t m) (fadd (m_t m) s) k1 (takes h (l ++ [m])) = Ok (Turn t2 k2 h2) /\
        vloop L p tle f argv il name desig last t2 k2 h2 = Ok w)).
Proof.
  induction fuel as [|f IH]; intros t k h w H Es En; cbn [vloop] in H; destruct (fle t last) eqn:El; try discriminate H.
  - injection H as <-. exists [], k. split; [apply timed_nil|]. split; [constructor|]. split; [constructor|]. left. split; [reflexivity|exact El].
  - step H. destruct (vturn_out _ _ _ _ E En) as [(out & -> & Q & A)|[(Tf & _ & ->)|[(_ & S1 & _)|[(Sh & _ & ->)|[(_ & S1 & _)|[(_ & S1 & _)|(Vi & _ & AS)]]]]]]; try congruence.
    + injection H as <-. exists [], k. split; [apply timed_nil|]. split; [constructor|]. split; [constructor|]. right. left. exists out. eexists. split; [reflexivity|]. split; [exact A|]. split; [reflexivity|]. split; [reflexivity|exact Q].
    + destruct (IH _ _ _ _ H Es En) as (l & k' & T & F & N & R). set (m := sampled t k h) in *.
      exists (m :: l), k'. split; [apply timed_cons; [reflexivity|exact T]|]. split; [constructor; [apply sampled_faithful|exact F]|].
      split; [constructor; [split; [exact El|]; unfold too_far, visible in *; now destruct (m_lit m) as [[]|]|exact N]|].
      rewrite ticks_shift in R. exact R.
    + destruct (IH _ _ _ _ H Es En) as (l & k' & T & F & N & R). set (m := sampled t k h) in *.
      exists (m :: l), k'. split; [apply timed_cons; [reflexivity|exact T]|]. split; [constructor; [apply sampled_faithful|exact F]|].
      split; [constructor; [split; [exact El|]; unfold shadowed, visible in *; now destruct (m_lit m) as [[]|]|exact N]|].
      rewrite ticks_shift in R. exact R.
    + exists [], k. split; [apply timed_nil|]. split; [constructor|]. split; [constructor|]. right. right.
      assert (K: exists t2 k2 h2, a = Turn t2 k2 h2).
      { unfold at_start in AS. cbv zeta in AS. step AS. step AS. destruct a1 as (k2 & h2). injection AS as <-. now do 3 eexists. }
      destruct K as (t2 & k2 & h2 & ->). exists (sampled t k h), (sunned t k h), t2, k2, h2, f. split; [reflexivity|]. split; [reflexivity|]. split; [apply sampled_faithful|]. split; [exact El|]. split; [exact Vi|]. split; [exact AS|exact H].
  - injection H as <-. exists [], k. split; [apply timed_nil|]. split; [constructor|]. split; [constructor|]. left. split; [reflexivity|exact El].
Qed.

(** From the start on. *)
Lemma loop_lit : forall fuel t k h w, vloop L p tle fuel argv il name desig last t k h = Ok w -> h_started h = true -> h_ended h = false ->
  exists l k', timed s t l /\ Forall (faithful L p tle) l /\ Forall (fun m => fle (m_t m) last = true /\ visible m = true) l /\
    ((w = Brk (ticks s t (length l)) k' (takes h l) /\ fle (ticks s t (length l)) last = false /\ forall d, sa_sep (k_sat k) = m_sep d -> sa_sep (k_sat k') = m_sep (List.last l d)) \/
     (exists out h', w = Out 1 h' /\ v_altrng p = true /\ h_out h' = out /\ h_log h' = h_log (takes h l) /\
        vis_quit argv il 1 2 (bytes "Satellite altitude out of requested range") (h_found h) (h_out h) = Ok (1, out)) \/
     (exists m, sa_sep (k_sat k') = m_sep m /\ m_t m = ticks s t (length l) /\ faithful L p tle m /\ fle (m_t m) last = true /\
        ((too_far m = true /\ w = Brk (fadd (m_t m) s) k' (takes h (l ++ [m]))) \/
         (shadowed m = true /\ at_shadow L p (fadd (m_t m) s) k' (takes h (l ++ [m])) = Ok w)))).
Proof.
  induction fuel as [|f IH]; intros t k h w H Es En; cbn [vloop] in H; destruct (fle t last) eqn:El; try discriminate H.
  - injection H as <-. exists [], k. split; [apply timed_nil|]. split; [constructor|]. split; [constructor|]. left. split; [reflexivity|]. split; [exact El|]. intros d K. exact K.
  - step H. destruct (vturn_out _ _ _ _ E En) as [(out & -> & Q & A)|[(_ & S1 & _)|[(Tf & _ & ->)|[(_ & S1 & _)|[(Sh & _ & AS)|[(Vi & _ & ->)|(_ & S1 & _)]]]]]]; try congruence.
    + injection H as <-. exists [], k. split; [apply timed_nil|]. split; [constructor|]. split; [constructor|]. right. left. exists out. eexists. split; [reflexivity|]. split; [exact A|]. split; [reflexivity|]. split; [reflexivity|exact Q].
    + injection H as <-. exists [], (looked t k h). split; [apply timed_nil|]. split; [constructor|]. split; [constructor|]. right. right. exists (sampled t k h). split; [reflexivity|]. split; [reflexivity|]. split; [apply sampled_faithful|]. split; [exact El|]. left. split; [exact Tf|reflexivity].
    + exists [], (sunned t k h). split; [apply timed_nil|]. split; [constructor|]. split; [constructor|]. right. right. exists (sampled t k h). split; [reflexivity|]. split; [reflexivity|]. split; [apply sampled_faithful|]. split; [exact El|]. right. split; [exact Sh|].
      assert (K: exists t2 k2 h2, a = Brk t2 k2 h2).
      { unfold at_shadow in AS. cbv zeta in AS. pose proof AS as AS'. step AS'. destruct a0 as (k2 & h2). injection AS' as <-. now do 3 eexists. }
      destruct K as (t2 & k2 & h2 & ->). injection H as <-. exact AS.
    + destruct (IH _ _ _ _ H Es En) as (l & k' & T & F & N & R). set (m := sampled t k h) in *.
      exists (m :: l), k'. split; [apply timed_cons; [reflexivity|exact T]|]. split; [constructor; [apply sampled_faithful|exact F]|].
      split; [constructor; [split; [exact El|exact Vi]|exact N]|].
      rewrite ticks_shift in R. destruct R as [(R1 & R2 & R3)|R]; [|right; exact R]. left. split; [exact R1|]. split; [exact R2|].
      intros d _. rewrite (R3 m eq_refl). clear. revert m. induction l as [|y l IHl]; intro m; [reflexivity|]. destruct l as [|z l]; [reflexivity|]. change (List.last (m :: y :: z :: l) d) with (List.last (y :: z :: l) d). change (List.last (y :: z :: l) m) with (List.last (z :: l) m). change (List.last (y :: z :: l) d) with (List.last (z :: l) d).
      clear. revert z. induction l as [|x l IHl]; intro z; [reflexivity|]. exact (IHl x).
  - injection H as <-. exists [], k. split; [apply timed_nil|]. split; [constructor|]. split; [constructor|]. left. split; [reflexivity|]. split; [exact El|]. intros d K. exact K.
Qed.
End Run.
