(** Whole runs. *)
From Coq Require Import String Ascii ZArith List Bool Lia Reals Lra.
From Flocq Require Import IEEE754.BinarySingleNaN.
From Verif Require Import CLib FloatModel FloatLemmas CalendarModel TleModel IoModel SkymapModel VisCliModel VisModel VisSpec VisProofs1 VisProofs2.
Import ListNotations.
Open Scope Z_scope.

Lemma best_ext : forall l h h', h_tmin h' = h_tmin h -> h_minsep h' = h_minsep h -> best l h -> best l h'.
Proof. unfold best. intros l h h' -> ->. tauto. Qed.
Lemma best0 : forall o, best [] (search0 o).
Proof. intro o. right. repeat split. intros x []. Qed.
Lemma ticks_plus : forall s t a b, ticks s (ticks s t a) b = ticks s t (a + b).
Proof. intros s t a. induction b as [|b IH]; [now rewrite Nat.add_0_r|]. rewrite Nat.add_succ_r. cbn [ticks]. now rewrite IH. Qed.
Lemma takes_app : forall a b h, takes h (a ++ b) = takes (takes h a) b.
Proof. intros a b h. apply fold_left_app. Qed.
Lemma timed_one : forall s t m, m_t m = t -> timed s t [m].
Proof. intros s t m E. apply timed_cons; [exact E|apply timed_nil]. Qed.

Section Run.
Context (e : venv) (fuel : nat) (argv : list (list Z)) (il : bool) (p : vparams) (file : list Z) (f : fst_).
Let L := n_lib e.
Let tle := f_tle f.

Definition first_sample (t0 : b64) : Prop :=
  if v_skip p then daytime L fuel (range_end p) (range_begin p) = Ok t0 else t0 = range_begin p.
Definition out_of_range (found : Z) (out o : list Z) : Prop :=
  vis_quit argv il 1 2 (bytes "Satellite altitude out of requested range") found out = Ok (1, o).

Lemma run_facts : forall fin, vis_found e fuel argv il p file f = Ok fin ->
  exists t0, first_sample t0 /\
  let l := samples (vf_log fin) in
  timed (vstep p) t0 l /\ Forall (faithful L p tle) l /\ Forall (fun m => fle (m_t m) (range_end p) = true) l /\
  ((vf_code fin = 0 /\ Forall (fun m => visible m = false) l /\ fle (ticks (vstep p) t0 (length l)) (range_end p) = false /\
    events (vf_log fin) = [] /\ exists c, vis_close argv il 0 [] 0 = Ok c /\
      vf_out fin = preamble L file p ++ vis_sun_json (bytes "sun") (let t := range_begin p in l_sun L t (fst (l_lmst L t)) (snd (l_lmst L t)) (fdiv (fst (l_lmst L t)) RAD2HRS)) ++ c) \/
   (vf_code fin = 1 /\ v_altrng p = true /\
    ((Forall (fun m => visible m = false) l /\ events (vf_log fin) = [] /\ out_of_range 0 (preamble L file p) (vf_out fin)) \/
     (exists g u s o name desig, events (vf_log fin) = [(bytes "start", g, u, s)] /\ event_text (bytes "start", g, u, s) = Ok o /\
        out_of_range 1 (preamble L file p ++ sat_head name desig tle ++ o) (vf_out fin) /\
        exists idle m rest, l = idle ++ m :: rest /\ Forall (fun m => visible m = false) idle /\ Forall (fun m => visible m = true) (m :: rest) /\
          stamped (fsub (begin_clock (vstep p) t0 (length idle)) (vstep p)) s /\ sa_sep s = m_sep m))) \/
   (vf_code fin = 0 /\ exists idle lit en, seen L p tle t0 (range_end p) l idle lit en (events (vf_log fin)) /\
      exists name desig o c, c_text (f_name f) = Ok name /\ (v_single_i p = true -> desig = f_desig f) /\
        event_texts (events (vf_log fin)) = Ok o /\ vis_close argv il 0 [] 1 = Ok c /\
        vf_out fin = preamble L file p ++ sat_head name desig tle ++ o ++
          duration_text (begin_clock (vstep p) t0 (length idle)) (end_clock (vstep p) t0 (length l) en) ++ c)).
Proof.
  intros fin H. unfold vis_found in H. cbv zeta in H. fold L in H. fold tle in H. unfold preamble.
  destruct (l_dechalat L _ _) as ((alt & az) & parang). fold (range_begin p) in H. fold (range_end p) in H.
  set (head := vis_open_json ++ geofieldsdesc_json ++ vis_params_json file p az alt parang) in *.
  step H. step H. exists a0. split. { unfold first_sample. destruct (v_skip p); [exact E0|congruence]. }
  step H. set (name := a) in *. set (t0 := a0) in *. cbv zeta. set (s := vstep p).
  destruct (loop_idle _ _ _ _ _ _ _ _ _ _ _ _ _ E1 eq_refl eq_refl) as (l1 & k1 & T1 & F1 & N1 & [(-> & El)|[(out & h' & -> & Al & Ho & Hl & Q)|(m & km & t2 & k2 & h2 & fu & Sm & Tm & Fm & Lm & Vm & AS & Lp)]]).
  - (* nothing seen *)
    step H. apply ok_eq in H. subst fin. cbn [vf_code vf_out vf_log].
    destruct (takes_keep l1 (search0 head)) as (S1 & S2 & S3 & S4 & S5 & S6 & S7 & S8). cbn [search0 h_started h_ended h_found h_out h_log samples events app] in S1, S2, S5, S6, S7, S8.
    unfold vafter in E2. cbv zeta in E2. rewrite S1 in E2. cbn [andb] in E2. cbv beta iota zeta delta [bind] in E2. rewrite S1 in E2. cbv beta iota zeta in E2. rewrite S5 in E2.
    change (0 <? 0) with false in E2. cbv beta iota zeta in E2. destruct (l_lmst L (range_begin p)) as (lm & gm). cbn [say h_found] in E2. rewrite S5 in E2.
    destruct (vis_close argv il 0 [] 0) as [c|] eqn:E3; [|discriminate E2]. apply ok_eq in E2. subst a1. cbn [say h_log h_out].
    rewrite S6, S7, S8. split; [exact T1|]. split; [exact F1|]. split; [eapply Forall_impl; [|exact N1]; cbv beta; tauto|]. left.
    split; [reflexivity|]. split; [eapply Forall_impl; [|exact N1]; cbv beta; tauto|]. split; [exact El|]. split; [reflexivity|]. exists c. split; [reflexivity|]. cbv zeta. cbn [fst snd]. rewrite <- !app_assoc. reflexivity.
  - (* altitude exit before the start *)
    apply ok_eq in H. subst fin. cbn [vf_code vf_out vf_log].
    destruct (takes_keep l1 (search0 head)) as (S1 & S2 & S3 & S4 & S5 & S6 & S7 & S8). cbn [search0 h_started h_ended h_found h_out h_log samples events app] in S1, S2, S5, S6, S7, S8.
    rewrite Hl, S7, S8. split; [exact T1|]. split; [exact F1|]. split; [eapply Forall_impl; [|exact N1]; cbv beta; tauto|]. right. left.
    split; [reflexivity|]. split; [exact Al|]. left. split; [eapply Forall_impl; [|exact N1]; cbv beta; tauto|]. split; [reflexivity|]. subst out. exact Q.
  - (* start *)
    pose proof (best_takes (l1 ++ [m]) [] _ (best0 head)) as B. cbn [app] in B.
    destruct (takes_keep (l1 ++ [m]) (search0 head)) as (S1 & S2 & S3 & S4 & S5 & S6 & S7 & S8). cbn [search0 h_started h_ended h_found h_out h_log samples events app] in S1, S2, S5, S6, S7, S8.
    apply at_start_ok in AS. destruct AS as (desig & g1 & u1 & s1 & o1 & k' & De & St & Se & Tx & Sk & W).
    assert (W': t2 = fadd (m_t m) (vstep p) /\ k2 = k') by (split; congruence). destruct W' as (-> & ->).
    match type of W with _ = Turn _ _ ?x => assert (H2: h2 = x) by congruence end. clear W. rewrite S2, S5, S6 in H2.
    assert (B2: best (l1 ++ [m]) h2) by (eapply best_ext; [| |exact B]; subst h2; reflexivity).
    assert (Sl: samples (h_log h2) = l1 ++ [m]) by (subst h2; cbn [h_log]; rewrite samples_app, S7; cbn [samples]; apply app_nil_r).
    assert (Ev: events (h_log h2) = [(bytes "start", g1, u1, s1)]) by (subst h2; cbn [h_log]; rewrite events_app, S8; reflexivity).
    assert (Ou: h_out h2 = head ++ sat_head name desig tle ++ o1) by (subst h2; reflexivity).
    assert (St2: h_started h2 = true /\ h_ended h2 = false /\ h_found h2 = 1 /\ h_mjd_start h2 = fsub (fadd (m_t m) (vstep p)) JD_OFF) by (subst h2; repeat split; reflexivity).
    destruct St2 as (Hs & He & Hf & Hms). clear H2.
    assert (Cb: h_mjd_start h2 = begin_clock s t0 (length l1)). { rewrite Hms, Tm. reflexivity. }
    assert (Tn: fadd (m_t m) (vstep p) = ticks s t0 (S (length l1))). { rewrite Tm. reflexivity. }
    rewrite Tn in *.
    assert (T1m: timed s t0 (l1 ++ [m])). { apply timed_app; [exact T1|]. apply timed_one. exact Tm. }
    assert (F1m: Forall (faithful L p tle) (l1 ++ [m])). { apply Forall_app. split; [exact F1|]. constructor; [exact Fm|constructor]. }
    assert (N1m: Forall (fun m => fle (m_t m) (range_end p) = true) (l1 ++ [m])). { apply Forall_app. split; [eapply Forall_impl; [|exact N1]; cbv beta; tauto|constructor; [exact Lm|constructor]]. }
    assert (Len: length (l1 ++ [m]) = S (length l1)) by (rewrite app_length; cbn; lia).
    assert (Ms: sa_sep s1 = m_sep m) by congruence. assert (Mk: sa_sep (k_sat k') = m_sep m) by congruence.
    destruct (loop_lit _ _ _ _ _ _ _ _ _ _ _ _ _ Lp Hs He) as (l2 & k3 & T2 & F2 & N2 & R).
    assert (T12: timed s t0 ((l1 ++ [m]) ++ l2)). { apply timed_app; [exact T1m|]. rewrite Len. exact T2. }
    assert (F12: Forall (faithful L p tle) ((l1 ++ [m]) ++ l2)). { apply Forall_app. now split. }
    assert (N12: Forall (fun m => fle (m_t m) (range_end p) = true) ((l1 ++ [m]) ++ l2)). { apply Forall_app. split; [exact N1m|]. eapply Forall_impl; [|exact N2]. cbv beta. tauto. }
    assert (Len2: forall r, length ((l1 ++ [m]) ++ l2 ++ r) = (S (length l1) + length l2 + length r)%nat) by (intro r; rewrite app_assoc, !app_length; cbn; lia).
    assert (Nth: forall r, nth_error ((l1 ++ [m]) ++ r) (length l1) = Some m). { intro r. rewrite <- app_assoc, nth_error_app2, Nat.sub_diag by lia. reflexivity. }
    assert (Lit: Forall (fun m => visible m = true) (m :: l2)). { constructor; [exact Vm|]. eapply Forall_impl; [|exact N2]. cbv beta. tauto. }
    assert (Idle: Forall (fun m => visible m = false) l1). { eapply Forall_impl; [|exact N1]. cbv beta. tauto. }
    destruct R as [(-> & El & Lst)|[(out & h' & -> & Al & Ho & Hl & Q)|(z & Sz & Tz & Fz & Lz & R)]].
    + (* end of the range *)
      step H. apply ok_eq in H. subst fin. cbn [vf_code vf_out vf_log].
      replace (ticks (vstep p) (ticks s t0 (S (length l1))) (length l2)) with (ticks s t0 (length ((l1 ++ [m]) ++ l2))) in * by (rewrite app_length, Len; symmetry; apply ticks_plus).
      destruct (takes_keep l2 h2) as (R1 & R2 & R3 & R4 & R5 & R6 & R7 & R8). pose proof (best_top _ _ (best_takes l2 _ _ B2)) as Top.
      apply after_open in E2; [|congruence|congruence|rewrite R5, Hf; lia]. destruct E2 as (g2 & u2 & s2 & o2 & k4 & h4 & St2 & Se2 & Tx2 & Ks & V1 & V2 & V3 & V4 & V5 & V6 & V7 & V8).
      apply rest_seen in V8; [|exact V1|rewrite V2, R5, Hf; lia]. destruct V8 as (g3 & u3 & s3 & g4 & u4 & s4 & o3 & o4 & c & n4 & Q1 & Q2 & Q3 & Q4 & Q5 & Q6 & Q7 & Q8 & Q9 & Q10).
      rewrite Q10, V7. rewrite !samples_app, R7, Sl. cbn [samples]. rewrite !app_nil_r.
      rewrite !events_app, R8, Ev. cbn [events app].
      split; [exact T12|]. split; [exact F12|]. split; [exact N12|]. right. right. split; [reflexivity|].
      exists l1, (m :: l2), Range. split.
      * constructor; [cbn [last_ones]; rewrite app_nil_r, <- app_assoc; reflexivity|exact Idle|exact Lit|discriminate|exact I|intros _; exact El|].
        exists g1, u1, s1, g2, u2, s2, g3, u3, s3, g4, u4, s4, (h_tmin (takes h2 l2)). cbv zeta. fold s.
        split; [reflexivity|]. split; [unfold begin_clock; exact St|]. split; [exact St2|].
        rewrite V3, V4, R3, Cb, Ks in *. split; [split; [exact Q1|exact Q2]|]. rewrite V5 in *. split; [split; [exact Q3|exact Q4]|]. split; [exact Top|]. split; [now exists n4|].
        split; [intros x Hx; rewrite Nth in Hx; congruence|]. intro d. rewrite Se2, (Lst m Mk). clear. destruct l2 as [|y l2]; [rewrite app_nil_r; now rewrite last_last|]. rewrite (app_removelast_last m (l := y :: l2)) at 2 by discriminate. rewrite app_assoc, last_last. reflexivity.
      * exists name, desig. eexists. exists c. split; [exact E|]. split; [intro Si; rewrite Si in De; congruence|]. rewrite V2, R5, Hf in Q8. split; [|split; [exact Q8|]].
        { cbn [event_texts]. rewrite Tx, Tx2, Q6, Q7. cbn [bind]. reflexivity. }
        rewrite Q9, V6, R6, Ou, V3, V4, R3, Cb. rewrite <- !app_assoc, app_nil_l. reflexivity.
    + (* altitude exit after the start *)
      apply ok_eq in H. subst fin. cbn [vf_code vf_out vf_log].
      destruct (takes_keep l2 h2) as (R1 & R2 & R3 & R4 & R5 & R6 & R7 & R8). rewrite Hl, R7, R8, Sl, Ev.
      split; [exact T12|]. split; [exact F12|]. split; [exact N12|]. right. left. split; [reflexivity|]. split; [exact Al|]. right.
      exists g1, u1, s1, o1, name, desig. split; [reflexivity|]. split; [exact Tx|]. split; [unfold out_of_range; rewrite Hf, Ou in Q; subst out; exact Q|].
      exists l1, m, l2. split; [now rewrite <- app_assoc|]. split; [exact Idle|]. split; [exact Lit|]. split; [unfold begin_clock; exact St|exact Ms].
    + (* a last sample that is not visible *)
      assert (T3: timed s t0 ((l1 ++ [m]) ++ l2 ++ [z])). { rewrite app_assoc. apply timed_app; [exact T12|]. apply timed_one. rewrite Tz, app_length, Len. apply ticks_plus. }
      assert (F3: Forall (faithful L p tle) ((l1 ++ [m]) ++ l2 ++ [z])). { rewrite app_assoc. apply Forall_app. split; [exact F12|]. constructor; [exact Fz|constructor]. }
      assert (N3: Forall (fun m => fle (m_t m) (range_end p) = true) ((l1 ++ [m]) ++ l2 ++ [z])). { rewrite app_assoc. apply Forall_app. split; [exact N12|]. constructor; [exact Lz|constructor]. }
      assert (Tz': fadd (m_t z) (vstep p) = ticks s t0 (length ((l1 ++ [m]) ++ l2 ++ [z]))).
      { rewrite Tz, Len2. cbn [length]. replace (S (length l1) + length l2 + 1)%nat with (S (S (length l1) + length l2)) by lia. cbn [ticks]. f_equal. apply (ticks_plus s t0 (S (length l1))). }
      rewrite Tz' in R.
      destruct (takes_keep (l2 ++ [z]) h2) as (R1 & R2 & R3 & R4 & R5 & R6 & R7 & R8). pose proof (best_top _ _ (best_takes (l2 ++ [z]) _ _ B2)) as Top.
      assert (Lz2: forall d, List.last ((l1 ++ [m]) ++ l2 ++ [z]) d = z) by (intro d; rewrite app_assoc; apply last_last).
      destruct R as [(Tf & ->)|(Sh & AS)].
      * step H. apply ok_eq in H. subst fin. cbn [vf_code vf_out vf_log].
        apply after_open in E2; [|congruence|congruence|rewrite R5, Hf; lia]. destruct E2 as (g2 & u2 & s2 & o2 & k4 & h4 & St2 & Se2 & Tx2 & Ks & V1 & V2 & V3 & V4 & V5 & V6 & V7 & V8).
        apply rest_seen in V8; [|exact V1|rewrite V2, R5, Hf; lia]. destruct V8 as (g3 & u3 & s3 & g4 & u4 & s4 & o3 & o4 & c & n4 & Q1 & Q2 & Q3 & Q4 & Q5 & Q6 & Q7 & Q8 & Q9 & Q10).
        rewrite Q10, V7. rewrite !samples_app, R7, Sl. cbn [samples]. rewrite !app_nil_r.
        rewrite !events_app, R8, Ev. cbn [events app].
        split; [exact T3|]. split; [exact F3|]. split; [exact N3|]. right. right. split; [reflexivity|].
        exists l1, (m :: l2), (Left z). split.
        -- constructor; [cbn [last_ones]; rewrite <- app_assoc; reflexivity|exact Idle|exact Lit|discriminate|exact Tf|discriminate|].
           exists g1, u1, s1, g2, u2, s2, g3, u3, s3, g4, u4, s4, (h_tmin (takes h2 (l2 ++ [z]))). cbv zeta. fold s.
           split; [reflexivity|]. split; [unfold begin_clock; exact St|]. split; [exact St2|].
           rewrite V3, V4, R3, Cb, Ks in *. split; [split; [exact Q1|exact Q2]|]. rewrite V5 in *. split; [split; [exact Q3|exact Q4]|]. split; [exact Top|]. split; [now exists n4|].
           split; [intros x Hx; rewrite Nth in Hx; congruence|]. intro d. rewrite Lz2. congruence.
        -- exists name, desig. eexists. exists c. split; [exact E|]. split; [intro Si; rewrite Si in De; congruence|]. rewrite V2, R5, Hf in Q8. split; [|split; [exact Q8|]].
           { cbn [event_texts]. rewrite Tx, Tx2, Q6, Q7. cbn [bind]. reflexivity. }
           rewrite Q9, V6, R6, Ou, V3, V4, R3, Cb. rewrite <- !app_assoc, app_nil_l. reflexivity.
      * apply at_shadow_ok in AS. destruct AS as (g2 & u2 & s2 & o2 & k4 & St2 & Se2 & Tx2 & Ks & ->). step H. apply ok_eq in H. subst fin. cbn [vf_code vf_out vf_log].
        rewrite vafter_eq in E2. cbn [h_started h_ended] in E2. rewrite andb_false_r in E2. cbn [bind] in E2.
        apply rest_seen in E2; [|cbn [h_started]; congruence|cbn [h_found]; rewrite R5, Hf; lia]. cbn [h_mjd_start h_mjd_end h_tmin h_found h_out h_log] in E2.
        destruct E2 as (g3 & u3 & s3 & g4 & u4 & s4 & o3 & o4 & c & n4 & Q1 & Q2 & Q3 & Q4 & Q5 & Q6 & Q7 & Q8 & Q9 & Q10).
        rewrite Q10. rewrite !samples_app, R7, Sl. cbn [samples]. rewrite !app_nil_r.
        rewrite !events_app, R8, Ev. cbn [events app].
        split; [exact T3|]. split; [exact F3|]. split; [exact N3|]. right. right. split; [reflexivity|].
        exists l1, (m :: l2), (Shadow z). split.
        -- constructor; [cbn [last_ones]; rewrite <- app_assoc; reflexivity|exact Idle|exact Lit|discriminate|exact Sh|discriminate|].
           exists g1, u1, s1, g2, u2, s2, g3, u3, s3, g4, u4, s4, (h_tmin (takes h2 (l2 ++ [z]))). cbv zeta. fold s.
           split; [reflexivity|]. split; [unfold begin_clock; exact St|]. split; [exact St2|].
           rewrite R3, Cb, <- Ks in *. split; [split; [exact Q1|exact Q2]|]. split; [split; [exact Q3|exact Q4]|]. split; [exact Top|]. split; [now exists n4|].
           split; [intros x Hx; rewrite Nth in Hx; congruence|]. intro d. rewrite Lz2. congruence.
        -- exists name, desig. eexists. exists c. split; [exact E|]. split; [intro Si; rewrite Si in De; congruence|]. rewrite R5, Hf in Q8. split; [|split; [exact Q8|]].
           { cbn [event_texts]. rewrite Tx, Tx2, Q6, Q7. cbn [bind]. reflexivity. }
           rewrite Q9, R6, Ou, R3, Cb. rewrite <- !app_assoc, app_nil_l. reflexivity.
Qed.
End Run.
