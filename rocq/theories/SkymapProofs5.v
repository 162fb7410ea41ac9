(** Filters and single-satellite requests. *)
From Coq Require Import String Ascii ZArith List Bool Lia Reals Lra.
From Flocq Require Import Core IEEE754.BinarySingleNaN.
From Verif Require Import CLib ListLemmas FloatModel TleModel TleSpec TleProofs1 TleProofs3 IoModel SkymapModel SkymapSpec SkymapProofs1 SkymapProofs2 SkymapProofs3 SkymapProofs4.
Import ListNotations.
Open Scope Z_scope.

(** ** Listed exactly when every filter lets it through *)
Definition passb (p : params) (n : num) : bool :=
  negb (alt_rejects p n) && selected p n && (negb (p_sunlit_only p) || n_sunlit n).
Definition filtered (p : params) (s : st) : Prop :=
  (forall a d t n, In (EvList a d t n) (s_log s) -> passb p n = true /\ n_nan n = false /\ n_theta_ok n = true) /\
  (forall c t n, In (EvNew c t n) (s_log s) -> n_nan n = false -> passb p n = true -> n_theta_ok n = true -> exists a d, In (EvList a d t n) (s_log s)).
Lemma filtered_neutral : forall p s s' ev, filtered p s -> s_log s' = s_log s ++ [ev] -> match ev with EvNew _ _ _ | EvList _ _ _ _ => False | _ => True end -> filtered p s'.
Proof.
  intros p s s' ev (A & B) L N. split.
  - intros a d t n H. rewrite L in H. apply in_app_or in H. destruct H as [H|[H|[]]]; [now apply (A a d t)|]. rewrite H in N. contradiction.
  - intros c t n H. rewrite L in *. apply in_app_or in H. destruct H as [H|[H|[]]]; [|rewrite H in N; contradiction].
    intros K1 K2 K3. destruct (B c t n H K1 K2 K3) as (a & d & I). exists a, d. apply in_or_app. now left.
Qed.
Lemma filtered_same : forall p s s', filtered p s -> s_log s' = s_log s -> filtered p s'.
Proof. intros p s s' H L. unfold filtered in *. now rewrite L. Qed.
Lemma filtered_step : forall e argv il chunk s f, filtered (e_p e) s -> ps e argv il chunk s f -> filtered (e_p e) (flow_st f).
Proof.
  intros e argv il chunk s f T H.
  assert (M: forall s0 s', filtered (e_p e) s0 -> move s0 s' -> filtered (e_p e) s') by (intros s0 s' D0 (l1 & nm & -> & _); now apply (filtered_same _ s0)).
  destruct H as [l2 code t f H0 H1 H2 (s' & -> & H3)|l2 t f0 f H0 H1 H2 H3].
  - cbn [flow_st]. refine (M _ _ _ H3). now apply (filtered_same _ s).
  - assert (T0: filtered (e_p e) (note (EvExam t) (set_lines (s_line1 s) l2 s))) by (apply (filtered_neutral _ s _ (EvExam t)); [exact T|reflexivity|exact I]).
    set (s0 := note (EvExam t) (set_lines (s_line1 s) l2 s)) in *. clearbody s0.
    assert (R: filtered (e_p e) (flow_st f0)).
    { destruct H2 as [code C1 C2|code sf d C1 C2 C3 C4|code sf d C1 C2 C3 C4|code sf d s1 f0 C1 C2 C3 C4 C5 C6 C7]; cbn [flow_st].
      - exact T0.
      - now apply (filtered_same _ s0).
      - apply (filtered_neutral _ s0 _ (EvDup code)); [exact T0|reflexivity|exact I].
      - set (n := e_num e (processed s0) t) in *.
        assert (L1: s_log s1 = s_log s0 ++ [EvNew code t n]) by (rewrite C5; reflexivity).
        (* the new satellite is not listed *)
        assert (U: forall s', s_log s' = s_log s1 -> n_nan n = true \/ passb (e_p e) n = false \/ n_theta_ok n = false -> filtered (e_p e) s').
        { intros s' L' W. destruct T0 as (A & B). split.
          - intros a d' t' n' K. rewrite L', L1 in K. apply in_app_or in K. destruct K as [K|[K|[]]]; [now apply (A a d' t')|discriminate K].
          - intros c t' n' K N1 N2 N3. rewrite L', L1 in *. apply in_app_or in K. destruct K as [K|[K|[]]].
            + destruct (B c t' n' K N1 N2 N3) as (a & d' & I'). exists a, d'. apply in_or_app. now left.
            + injection K as <- <- <-. destruct W as [W|[W|W]]; congruence. }
        destruct C7 as [f1 N E|N Al|f1 N Al R].
        + apply exit_with_inv in E. destruct E as (_ & s' & -> & (tx & _ & ->)). apply U; [reflexivity|now left].
        + apply U; [reflexivity|]. right. left. unfold passb. now rewrite Al.
        + destruct R as [R1|R1 R2 R3|desig name en s' f1 R1 R2 R3 R4 R5 R6 R7 R8|R1 R2 R3]; cbn [flow_st].
          * apply U; [reflexivity|]. right. left. unfold passb. rewrite R1. now rewrite andb_false_r.
          * apply U; [reflexivity|]. right. left. unfold passb. rewrite R2, R3. now rewrite andb_false_r.
          * assert (PB: passb (e_p e) n = true).
            { unfold passb. rewrite Al, R1. cbn [negb andb]. destruct (p_sunlit_only (e_p e)); [rewrite R2 by reflexivity|]; reflexivity. }
            assert (L2: s_log s' = s_log s1 ++ [EvList name desig t n]) by (rewrite R6; unfold listed, cut16; destruct (p_info_only (e_p e)); reflexivity).
            assert (T2: filtered (e_p e) s').
            { destruct T0 as (A & B). split.
              - intros a d' t' n' K. rewrite L2, L1, <- app_assoc in K. apply in_app_or in K. destruct K as [K|[K|[K|[]]]]; [now apply (A a d' t')|discriminate K|]. injection K as <- <- <- <-. tauto.
              - intros c t' n' K N1 N2 N3. rewrite L2, L1, <- app_assoc in *. apply in_app_or in K. destruct K as [K|[K|[K|[]]]]; [| |discriminate K].
                + destruct (B c t' n' K N1 N2 N3) as (a & d' & I'). exists a, d'. apply in_or_app. now left.
                + injection K as <- <- <-. exists name, desig. apply in_or_app. right. right. now left. }
            rewrite R7. destruct (s_sfound s1 || (s_found s1 + 1 =? p_max_sats (e_p e))); exact T2.
          * apply U; [reflexivity|]. right. right. exact R3. }
    destruct f0 as [s1|s1|s1|k s1]; cbn [flow_st] in R.
    + destruct H3 as (s' & -> & Mv). exact (M _ _ R Mv).
    + subst f. exact R.
    + subst f. exact R.
    + subst f. exact R.
Qed.
Lemma run_filtered : forall e0 l1 l2 nm fin, skymap e0 l1 l2 nm = Ok fin ->
  (forall a d t n, In (EvList a d t n) (f_log fin) -> passb (e_p e0) n = true /\ n_nan n = false /\ n_theta_ok n = true) /\
  (forall c t n, In (EvNew c t n) (f_log fin) -> n_nan n = false -> passb (e_p e0) n = true -> n_theta_ok n = true -> exists a d, In (EvList a d t n) (f_log fin)).
Proof.
  intros e0 l1 l2 nm fin H.
  destruct (skymap_inv e0 (filtered (e_p (with_path e0))) (fun argv il f => filtered (e_p (with_path e0)) (flow_st f)) l1 l2 nm) with (fin := fin) as (argv & il & f & F & R).
  - intros argv il chunk s f K S. pose proof (filtered_step _ _ _ _ _ _ K S). destruct (live f); assumption.
  - intros s path K. apply (filtered_neutral _ s _ (EvOpen path)); [exact K|reflexivity|exact I].
  - intros s first k1 k2 K E1 E2. now apply (filtered_same _ s).
  - intros argv il s code status msg f K M E. apply exit_with_inv in E. destruct E as (_ & s' & -> & (t & _ & ->)). now apply (filtered_same _ s).
  - exact H.
  - intros out _. split; [intros a d t n []|intros c t n []].
  - apply finish_counts in F. destruct F as (_ & _ & -> & _). assert (D: filtered (e_p (with_path e0)) (flow_st f)) by (destruct (live f); exact R). exact D.
Qed.
(** A run that does not stop with an error met no satellite that passes the filters and has no pixel. *)
Definition placed (p : params) (s : st) : Prop := forall c t n, In (EvNew c t n) (s_log s) -> n_nan n = false -> passb p n = true -> n_theta_ok n = true.
Definition placed_end (p : params) (f : flow) : Prop := match f with Exited c s => (c <> 0 /\ placed p s) \/ (c = 1 /\ stopped (s_log s)) | f => placed p (flow_st f) end.
Lemma placed_neutral : forall p s s' ev, placed p s -> s_log s' = s_log s ++ [ev] -> match ev with EvNew _ _ _ => False | _ => True end -> placed p s'.
Proof. intros p s s' ev A L N c t n H. rewrite L in H. apply in_app_or in H. destruct H as [H|[H|[]]]; [exact (A c t n H)|rewrite H in N; contradiction]. Qed.
Lemma placed_same : forall p s s', placed p s -> s_log s' = s_log s -> placed p s'.
Proof. intros p s s' H L. unfold placed in *. now rewrite L. Qed.
Lemma placed_step : forall e argv il chunk s f, placed (e_p e) s -> ps e argv il chunk s f -> if live f then placed (e_p e) (flow_st f) else placed_end (e_p e) f.
Proof.
  intros e argv il chunk s f T H.
  assert (M: forall s0 s', placed (e_p e) s0 -> move s0 s' -> placed (e_p e) s') by (intros s0 s' D0 (l1 & nm & -> & _); now apply (placed_same _ s0)).
  destruct H as [l2 code t f H0 H1 H2 (s' & -> & H3)|l2 t f0 f H0 H1 H2 H3].
  - cbn [live flow_st]. refine (M _ _ _ H3). now apply (placed_same _ s).
  - assert (T0: placed (e_p e) (note (EvExam t) (set_lines (s_line1 s) l2 s))) by (apply (placed_neutral _ s _ (EvExam t)); [exact T|reflexivity|exact I]).
    set (s0 := note (EvExam t) (set_lines (s_line1 s) l2 s)) in *. clearbody s0.
    assert (R: if live f0 then placed (e_p e) (flow_st f0) else placed_end (e_p e) f0).
    { destruct H2 as [code C1 C2|code sf d C1 C2 C3 C4|code sf d C1 C2 C3 C4|code sf d s1 f0 C1 C2 C3 C4 C5 C6 C7]; cbn [live flow_st].
      - exact T0.
      - now apply (placed_same _ s0).
      - apply (placed_neutral _ s0 _ (EvDup code)); [exact T0|reflexivity|exact I].
      - set (n := e_num e (processed s0) t) in *.
        assert (L1: s_log s1 = s_log s0 ++ [EvNew code t n]) by (rewrite C5; reflexivity).
        assert (U: forall s', s_log s' = s_log s1 -> n_nan n = true \/ passb (e_p e) n = false \/ n_theta_ok n = true -> placed (e_p e) s').
        { intros s' L' W c t' n' K N1 N2. rewrite L', L1 in K. apply in_app_or in K. destruct K as [K|[K|[]]]; [exact (T0 c t' n' K N1 N2)|].
          injection K as <- <- <-. destruct W as [W|[W|W]]; congruence. }
        destruct C7 as [f1 N E|N Al|f1 N Al R].
        + apply exit_with_inv in E. destruct E as (_ & s' & -> & (tx & _ & ->)). left. split; [discriminate|]. apply U; [reflexivity|now left].
        + apply U; [reflexivity|]. right. left. unfold passb. now rewrite Al.
        + destruct R as [R1|R1 R2 R3|desig name en s' f1 R1 R2 R3 R4 R5 R6 R7 R8|R1 R2 R3]; cbn [live flow_st].
          * apply U; [reflexivity|]. right. left. unfold passb. rewrite R1. now rewrite andb_false_r.
          * apply U; [reflexivity|]. right. left. unfold passb. rewrite R2, R3. now rewrite andb_false_r.
          * assert (L2: s_log s' = s_log (cut16 s1) ++ [EvList name desig t n]) by (rewrite R6; unfold listed, cut16; destruct (p_info_only (e_p e)); reflexivity).
            assert (T2: placed (e_p e) s').
            { apply (placed_neutral _ (cut16 s1) _ (EvList name desig t n)); [|exact L2|exact I]. apply U; [reflexivity|right; now right]. }
            rewrite R7. destruct (s_sfound s1 || (s_found s1 + 1 =? p_max_sats (e_p e))); exact T2.
          * right. split; [reflexivity|]. exists (s_log s0), code, t, n. cbn [cut16 set_lines s_log]. tauto. }
    destruct f0 as [s1|s1|s1|k s1]; cbn [live flow_st] in R.
    + destruct H3 as (s' & -> & Mv). exact (M _ _ R Mv).
    + subst f. exact R.
    + subst f. exact R.
    + subst f. exact R.
Qed.
Lemma run_ends : forall e0 l1 l2 nm fin, skymap e0 l1 l2 nm = Ok fin ->
  (f_code fin = 1 /\ stopped (f_log fin)) \/ forall c t n, In (EvNew c t n) (f_log fin) -> n_nan n = false -> passb (e_p e0) n = true -> n_theta_ok n = true.
Proof.
  intros e0 l1 l2 nm fin H.
  destruct (skymap_inv e0 (placed (e_p (with_path e0))) (fun argv il f => placed_end (e_p (with_path e0)) f) l1 l2 nm) with (fin := fin) as (argv & il & f & F & R).
  - intros argv il chunk s f K S. exact (placed_step _ _ _ _ _ _ K S).
  - intros s path K. apply (placed_neutral _ s _ (EvOpen path)); [exact K|reflexivity|exact I].
  - intros s first k1 k2 K E1 E2. now apply (placed_same _ s).
  - intros argv il s code status msg f K M E. apply exit_with_inv in E. destruct E as (_ & s' & -> & (t & _ & ->)). cbn [placed_end]. left.
    split; [destruct M as [(-> & _)|(-> & _)]; discriminate|now apply (placed_same _ s)].
  - exact H.
  - intros out _ c t n [].
  - apply finish_counts in F. destruct F as (_ & _ & FL & F). rewrite FL.
    destruct f as [s|s|s|k s]; cbn [live flow_st placed_end] in *; [right; exact R..|]. destruct F as (K & _).
    destruct R as [(_ & R)|(-> & R)]; [right; exact R|left; tauto].
Qed.
Lemma run_placed : forall e0 l1 l2 nm fin, skymap e0 l1 l2 nm = Ok fin -> f_code fin = 0 ->
  forall c t n, In (EvNew c t n) (f_log fin) -> n_nan n = false -> passb (e_p e0) n = true -> n_theta_ok n = true.
Proof. intros e0 l1 l2 nm fin H Z. destruct (run_ends e0 l1 l2 nm fin H) as [(K & _)|K]; [congruence|exact K]. Qed.

(** Meaning of the comparisons. *)
Lemma flt_real : forall x y, is_finite x = true -> is_finite y = true -> (flt x y = true <-> (real x < real y)%R).
Proof. intros x y A B. unfold flt, real. rewrite Bltb_correct by assumption. destruct (Rlt_bool_spec (B2R x) (B2R y)); split; intro; try reflexivity; try discriminate; lra. Qed.
Lemma fle_real : forall x y, is_finite x = true -> is_finite y = true -> (fle x y = true <-> (real x <= real y)%R).
Proof. intros x y A B. unfold fle, real. rewrite Bleb_correct by assumption. destruct (Rle_bool_spec (B2R x) (B2R y)); split; intro; try reflexivity; try discriminate; lra. Qed.
Lemma passb_iff : forall p n, ordinary p n -> (passb p n = true <-> passes_filters p n).
Proof.
  intros p n (F1 & F2 & F3 & F4 & F5 & F6). unfold passb, passes_filters. rewrite !andb_true_iff.
  assert (A: negb (alt_rejects p n) = true <-> (p_altrng p = true -> within_alt p n)).
  { unfold alt_rejects, within_alt. destruct (p_altrng p); cbn [andb]; [|split; [intros _ K; discriminate K|reflexivity]].
    rewrite negb_true_iff, orb_false_iff.
    assert (X: forall x y, is_finite x = true -> is_finite y = true -> (flt x y = false <-> (real y <= real x)%R)).
    { intros x y Fx Fy. pose proof (flt_real x y Fx Fy). destruct (flt x y); split; intro; try reflexivity; try discriminate; destruct H; [specialize (H eq_refl); lra|].
      destruct (Rlt_dec (real x) (real y)) as [Q|Q]; [specialize (H1 Q); discriminate|lra]. }
    rewrite !X by assumption. split; [intros (P & Q) _; split; assumption|intro K; destruct (K eq_refl); split; assumption]. }
  assert (B: selected p n = true <-> (p_single_n p = true \/ p_single_i p = true \/ p_satname_filter p = true \/ near p n)).
  { unfold selected, single_sat, near. rewrite !orb_true_iff, !fle_real by assumption. rewrite F5, F6. tauto. }
  assert (C: negb (p_sunlit_only p) || n_sunlit n = true <-> (p_sunlit_only p = true -> n_sunlit n = true)).
  { destruct (p_sunlit_only p); destruct (n_sunlit n); cbn; split; intro K; try reflexivity; try discriminate; try tauto; now apply K. }
  tauto.
Qed.

(** ** Requests *)
Lemma memeq_true : forall a b n, c_memeq a b n = Ok true -> firstn n a = firstn n b /\ (n <= length a)%nat /\ (n <= length b)%nat.
Proof.
  intros a b n H. unfold c_memeq, c_take in H. destruct (Nat.leb_spec n (length a)); [|discriminate H]. destruct (Nat.leb_spec n (length b)); [|discriminate H].
  cbn [bind] in H. destruct (list_eq_dec Z.eq_dec (firstn n a) (firstn n b)); [tauto|discriminate H].
Qed.
Lemma padded_prefix : forall (r : list Z) k, (length r <= k)%nat -> firstn (length r) (firstn k (r ++ repeat 0 k)) = r.
Proof. intros r k L. rewrite firstn_firstn, Nat.min_l by exact L. rewrite firstn_app, Nat.sub_diag, firstn_all. cbn. apply app_nil_r. Qed.
Lemma text_prefix : forall r b t, c_text b = Ok t -> ~ In 0 r -> firstn (length r) b = r -> exists k, t = r ++ k.
Proof.
  induction r as [|x r IH]; intros b t T N P; [now exists t|]. destruct b as [|y b]; [discriminate P|]. cbn [length firstn] in P. injection P as -> P.
  cbn [c_text] in T. destruct (Z.eqb_spec x 0) as [->|]; [exfalso; apply N; now left|]. inv_bind T t' T'. injection T as <-.
  destruct (IH b t' T') as (k & ->); [intro K; apply N; now right|exact P|]. now exists k.
Qed.

(** -S: every listed name starts with the given text. *)
Definition named (p : params) (s : st) : Prop := forall a d t n, In (EvList a d t n) (s_log s) -> exists r, a = p_satname p ++ r.
Lemma named_neutral : forall p s s' ev, named p s -> s_log s' = s_log s ++ [ev] -> match ev with EvList _ _ _ _ => False | _ => True end -> named p s'.
Proof. intros p s s' ev A L N a d t n H. rewrite L in H. apply in_app_or in H. destruct H as [H|[H|[]]]; [now apply (A a d t n)|]. rewrite H in N. contradiction. Qed.
Lemma named_same : forall p s s', named p s -> s_log s' = s_log s -> named p s'.
Proof. intros p s s' H L. unfold named in *. now rewrite L. Qed.
Lemma named_step : forall e argv il chunk s f, single_sat (e_p e) = false -> p_satname_filter (e_p e) = true -> ~ In 0 (p_satname (e_p e)) ->
  named (e_p e) s -> ps e argv il chunk s f -> named (e_p e) (flow_st f).
Proof.
  intros e argv il chunk s f S1 S2 S3 T H.
  assert (M: forall s0 s', named (e_p e) s0 -> move s0 s' -> named (e_p e) s') by (intros s0 s' D0 (l1 & nm & -> & _); now apply (named_same _ s0)).
  destruct H as [l2 code t f H0 H1 H2 (s' & -> & H3)|l2 t f0 f H0 H1 H2 H3].
  - cbn [flow_st]. refine (M _ _ _ H3). now apply (named_same _ s).
  - assert (T0: named (e_p e) (note (EvExam t) (set_lines (s_line1 s) l2 s))) by (apply (named_neutral _ s _ (EvExam t)); [exact T|reflexivity|exact I]).
    set (s0 := note (EvExam t) (set_lines (s_line1 s) l2 s)) in *. clearbody s0.
    assert (R: named (e_p e) (flow_st f0)).
    { destruct H2 as [code C1 C2|code sf d C1 C2 C3 C4|code sf d C1 C2 C3 C4|code sf d s1 f0 C1 C2 C3 C4 C5 C6 C7]; cbn [flow_st].
      - exact T0.
      - now apply (named_same _ s0).
      - apply (named_neutral _ s0 _ (EvDup code)); [exact T0|reflexivity|exact I].
      - assert (T1: named (e_p e) s1) by (apply (named_neutral _ s0 _ (EvNew code t (e_num e (processed s0) t))); [exact T0|rewrite C5; reflexivity|exact I]).
        assert (NM: s_name s1 = s_name s0) by (rewrite C5; reflexivity).
        destruct C7 as [f1 N E|N Al|f1 N Al R].
        + apply exit_with_inv in E. destruct E as (_ & s' & -> & (tx & _ & ->)). exact T1.
        + exact T1.
        + destruct R as [R1|R1 R2 R3|desig name en s' f1 R1 R2 R3 R4 R5 R6 R7 R8|R1 R2 R3]; cbn [flow_st]; try exact T1.
          assert (L2: s_log s' = s_log s1 ++ [EvList name desig t (e_num e (processed s0) t)]) by (rewrite R6; unfold listed, cut16; destruct (p_info_only (e_p e)); reflexivity).
          assert (T2: named (e_p e) s').
          { intros a d' t' n' K. rewrite L2 in K. apply in_app_or in K. destruct K as [K|[K|[]]]; [now apply (T1 a d' t' n')|]. injection K as <- <- <- <-.
            unfold selection in C2. unfold single_sat in S1. apply orb_false_iff in S1. destruct S1 as [S1a S1b]. rewrite S1a, S1b, S2 in C2.
            inv_bind C2 b Hb. destruct b; [|discriminate C2]. apply memeq_true in Hb. destruct Hb as (Hb & _ & Hl). rewrite firstn_length in Hl.
            rewrite padded_prefix in Hb by lia. rewrite <- NM in Hb. now apply (text_prefix _ (s_name s1)). }
          rewrite R7. destruct (s_sfound s1 || (s_found s1 + 1 =? p_max_sats (e_p e))); exact T2. }
    destruct f0 as [s1|s1|s1|k s1]; cbn [flow_st] in R.
    + destruct H3 as (s' & -> & Mv). exact (M _ _ R Mv).
    + subst f. exact R.
    + subst f. exact R.
    + subst f. exact R.
Qed.
Lemma run_named : forall e0 l1 l2 nm fin, skymap e0 l1 l2 nm = Ok fin -> single_sat (e_p e0) = false -> p_satname_filter (e_p e0) = true -> ~ In 0 (p_satname (e_p e0)) ->
  forall i, In i (listing (f_log fin)) -> exists r, i_name i = p_satname (e_p e0) ++ r.
Proof.
  intros e0 l1 l2 nm fin H S1 S2 S3 i Hi.
  destruct (skymap_inv e0 (named (e_p (with_path e0))) (fun argv il f => named (e_p (with_path e0)) (flow_st f)) l1 l2 nm) with (fin := fin) as (argv & il & f & F & R).
  - intros argv il chunk s f K S. pose proof (named_step (with_path e0) argv il chunk s f S1 S2 S3 K S). destruct (live f); assumption.
  - intros s path K. apply (named_neutral _ s _ (EvOpen path)); [exact K|reflexivity|exact I].
  - intros s first k1 k2 K E1 E2. now apply (named_same _ s).
  - intros argv il s code status msg f K M E. apply exit_with_inv in E. destruct E as (_ & s' & -> & (t & _ & ->)). now apply (named_same _ s).
  - exact H.
  - intros out _ a d t n [].
  - apply finish_counts in F. destruct F as (_ & _ & L & _). rewrite L in Hi. assert (D: named (e_p (with_path e0)) (flow_st f)) by (destruct (live f); exact R).
    unfold listing in Hi. apply in_flat_map in Hi. destruct Hi as (ev & I1 & I2). destruct ev; try contradiction. destruct I2 as [<-|[]]. cbn [i_name]. exact (D _ _ _ _ I1).
Qed.

(** -s and -i without -V and -a: nothing before the requested satellite leaves a trace, and listing it ends the run. *)
Definition waiting (s : st) : Prop := s_sfound s = false /\ s_seen s = [] /\ met_codes (s_log s) = [] /\ listing (s_log s) = [].
Definition meets (p : params) (t : tle_t) (code d : list Z) : Prop :=
  if p_single_n p then c_strtol (code ++ [0]) = Ok (p_norad_n p)
  else exists r, d = p_intl_desig p ++ r.
Definition answered (p : params) (f : flow) : Prop :=
  match f with
  | EndChecking s => exists code a d t n, listing (s_log s) = [mk_item a d t n] /\ met_codes (s_log s) = [code] /\ In (EvNew code t n) (s_log s) /\ meets p t code d
  | Exited _ s => listing (s_log s) = []
  | _ => True
  end.
Lemma desig_text_no_nul : forall d t, desig_text d = Ok t -> ~ In 0 d -> ~ In 0 t.
Proof.
  intros d t H N K. unfold desig_text in H. inv_bind H c0 H0. destruct (c0 =? 32).
  - injection H as <-. vm_compute in K. repeat (destruct K as [K|K]; [discriminate K|]). destruct K.
  - inv_bind H v Hv. apply ok_inj in H. subst t. assert (K2: In 0 ((if 57000 <? v then bytes "19" else bytes "20") ++ firstn 2 d ++ [45] ++ skipn 2 d)).
    { rewrite <- (firstn_skipn 9 ((if 57000 <? v then bytes "19" else bytes "20") ++ firstn 2 d ++ [45] ++ skipn 2 d)). apply in_or_app. now left. }
    rewrite !in_app_iff in K2. destruct K2 as [K2|[K2|[K2|K2]]].
    + destruct (57000 <? v); vm_compute in K2; repeat (destruct K2 as [K2|K2]; [discriminate K2|]); destruct K2.
    + apply N. rewrite <- (firstn_skipn 2 d). apply in_or_app. now left.
    + destruct K2 as [K2|[]]. discriminate K2.
    + apply N. rewrite <- (firstn_skipn 2 d). apply in_or_app. now right.
Qed.
Lemma padded_split : forall (d : list Z) r k n, ~ In 0 r -> firstn (length r) (firstn k (d ++ repeat 0 n)) = r -> exists x, d = r ++ x.
Proof.
  intros d r. revert d. induction r as [|c r IH]; intros d k n N H; [now exists d|]. destruct k as [|k]; [discriminate H|]. destruct d as [|y d].
  - exfalso. destruct n; [discriminate H|]. cbn in H. injection H as <- _. apply N. now left.
  - cbn in H. injection H as -> H. destruct (IH d k n) as (x & ->); [intro K; apply N; now right|exact H|]. now exists x.
Qed.
Lemma answered_step : forall e argv il chunk s f, single_sat (e_p e) = true -> p_sunlit_only (e_p e) = false -> p_altrng (e_p e) = false ->
  ~ In 0 (p_intl_desig (e_p e)) -> waiting s -> ps e argv il chunk s f -> if live f then waiting (flow_st f) else answered (e_p e) f.
Proof.
  intros e argv il chunk s f S1 S2 S3 S4 T H.
  assert (M: forall s0 s', waiting s0 -> move s0 s' -> waiting s') by (intros s0 s' D0 (l1 & nm & -> & _); exact D0).
  destruct H as [l2 code t f H0 H1 H2 (s' & -> & H3)|l2 t f0 f H0 H1 H2 H3].
  - cbn [flow_st live]. refine (M _ _ _ H3). exact T.
  - assert (T0: waiting (note (EvExam t) (set_lines (s_line1 s) l2 s))).
    { destruct T as (A & B & C & D). unfold waiting. cbn [note set_lines s_sfound s_seen s_log]. rewrite met_app, listing_app, C, D. repeat split; assumption. }
    set (s0 := note (EvExam t) (set_lines (s_line1 s) l2 s)) in *. clearbody s0. destruct T0 as (A & B & C & D).
    destruct H2 as [code C1 C2|code sf d C1 C2 C3 C4|code sf d C1 C2 C3 C4|code sf d s1 f0 C1 C2 C3 C4 C5 C6 C7].
    + subst f. cbn [live flow_st]. repeat split; assumption.
    + subst f sf. cbn [live flow_st]. repeat split; assumption.
    + exfalso. rewrite B in C4. cbn in C4. destruct code; discriminate C4.
    + assert (SF: sf = true) by now apply C3. subst sf.
      assert (MT: meets (e_p e) t code d).
      { unfold meets. unfold selection in C2. unfold single_sat in S1. destruct (p_single_n (e_p e)).
        - inv_bind C2 v Hv. rewrite Hv. rewrite A in C2. destruct (Z.eqb_spec v (p_norad_n (e_p e))) as [->|]; [reflexivity|discriminate C2].
        - cbn [orb] in S1. rewrite S1 in C2. inv_bind C2 d' Hd. inv_bind C2 b Hb. rewrite A in C2. destruct b; [|discriminate C2]. injection C2 as ->.
          apply memeq_true in Hb. destruct Hb as (Hb & _ & Hl). rewrite firstn_length in Hl. rewrite padded_prefix in Hb by lia.
          now apply (padded_split d (p_intl_desig (e_p e)) 12 12). }
      assert (S1f: s_sfound s1 = true) by (rewrite C5; reflexivity).
      assert (L1: s_log s1 = s_log s0 ++ [EvNew code t (e_num e (processed s0) t)]) by (rewrite C5; reflexivity).
      destruct C7 as [f1 N E|N Al|f1 N Al R].
      * apply exit_with_inv in E. destruct E as (_ & s' & -> & (tx & _ & ->)). subst f. cbn [live answered print s_log]. rewrite L1, listing_app, D. reflexivity.
      * unfold alt_rejects in Al. rewrite S3 in Al. discriminate Al.
      * destruct R as [R1|R1 R2 R3|desig name en s' f1 R1 R2 R3 R4 R5 R6 R7 R8|R1 R2 R3].
        -- unfold selected in R1. rewrite S1 in R1. discriminate R1.
        -- congruence.
        -- rewrite S1f in R7. cbn [orb] in R7. subst f1. subst f. cbn [live answered].
           assert (L2: s_log s' = s_log s1 ++ [EvList name desig t (e_num e (processed s0) t)]) by (rewrite R6; unfold listed, cut16; destruct (p_info_only (e_p e)); reflexivity).
           exists code, name, desig, t, (e_num e (processed s0) t). rewrite L2, L1. rewrite !listing_app, !met_app, C, D. split; [reflexivity|]. split; [reflexivity|].
           split; [apply in_or_app; left; apply in_or_app; right; now left|].
           unfold meets in MT |- *. destruct (p_single_n (e_p e)) eqn:PN; [exact MT|]. unfold single_sat in S1. rewrite PN in S1. cbn [orb] in S1. rewrite S1 in R3. injection R3 as <-. exact MT.        -- subst f. cbn [live answered cut16 set_lines s_log]. rewrite L1, listing_app, D. reflexivity.
Qed.
Lemma run_answered : forall e0 l1 l2 nm fin, skymap e0 l1 l2 nm = Ok fin -> single_sat (e_p e0) = true -> p_sunlit_only (e_p e0) = false -> p_altrng (e_p e0) = false ->
  ~ In 0 (p_intl_desig (e_p e0)) ->
  listing (f_log fin) = [] \/
  exists code a d t n, listing (f_log fin) = [mk_item a d t n] /\ met_codes (f_log fin) = [code] /\ In (EvNew code t n) (f_log fin) /\ meets (e_p e0) t code d.
Proof.
  intros e0 l1 l2 nm fin H S1 S2 S3 S4.
  destruct (skymap_inv e0 waiting (fun argv il f => answered (e_p (with_path e0)) f) l1 l2 nm) with (fin := fin) as (argv & il & f & F & R).
  - intros argv il chunk s f K S. exact (answered_step (with_path e0) argv il chunk s f S1 S2 S3 S4 K S).
  - intros s path (A & B & C & D). unfold waiting. cbn [note s_sfound s_seen s_log]. rewrite met_app, listing_app, C, D. repeat split; assumption.
  - intros s first k1 k2 K E1 E2. exact K.
  - intros argv il s code status msg f (A & B & C & D) M E. apply exit_with_inv in E. destruct E as (_ & s' & -> & (t & _ & ->)). exact D.
  - exact H.
  - intros out _. repeat split.
  - apply finish_counts in F. destruct F as (_ & _ & L & _). rewrite L. destruct f as [s|s|s|c s]; cbn [live flow_st answered] in *.
    + left. apply R.
    + left. apply R.
    + right. exact R.
    + left. exact R.
Qed.

(** ** Listings follow entries *)
Lemma lwe_snoc : forall log ev, listed_when_entered log -> match ev with EvList _ _ _ _ => False | _ => True end -> listed_when_entered (log ++ [ev]).
Proof.
  intros log ev H N a name d t n b E. destruct (rev b) as [|y r] eqn:RB.
  - assert (b = []) as -> by (rewrite <- (rev_involutive b), RB; reflexivity). apply app_inj_tail in E. destruct E as [_ E]. rewrite E in N. contradiction.
  - assert (EB: b = rev r ++ [y]) by (rewrite <- (rev_involutive b), RB; reflexivity). rewrite EB in E. rewrite app_comm_cons, app_assoc in E. apply app_inj_tail in E. destruct E as [E _].
    exact (H a name d t n (rev r) E).
Qed.
Lemma lwe_list : forall log code t n name d, listed_when_entered (log ++ [EvNew code t n]) -> listed_when_entered ((log ++ [EvNew code t n]) ++ [EvList name d t n]).
Proof.
  intros log code t n name d H a name' d' t' n' b E. destruct (rev b) as [|y r] eqn:RB.
  - assert (b = []) as -> by (rewrite <- (rev_involutive b), RB; reflexivity). apply app_inj_tail in E. destruct E as [E1 E2]. injection E2 as <- <- <- <-. exists log, code. now symmetry.
  - assert (EB: b = rev r ++ [y]) by (rewrite <- (rev_involutive b), RB; reflexivity). rewrite EB in E. rewrite app_comm_cons, app_assoc in E. apply app_inj_tail in E. destruct E as [E _].
    exact (H a name' d' t' n' (rev r) E).
Qed.
Lemma lwe_step : forall e argv il chunk s f, listed_when_entered (s_log s) -> ps e argv il chunk s f -> listed_when_entered (s_log (flow_st f)).
Proof.
  intros e argv il chunk s f T H.
  assert (M: forall s0 s', listed_when_entered (s_log s0) -> move s0 s' -> listed_when_entered (s_log s')) by (intros s0 s' D0 (l1 & nm & -> & _); exact D0).
  destruct H as [l2 code t f H0 H1 H2 (s' & -> & H3)|l2 t f0 f H0 H1 H2 H3].
  - cbn [flow_st]. refine (M _ _ _ H3). exact T.
  - assert (T0: listed_when_entered (s_log (note (EvExam t) (set_lines (s_line1 s) l2 s)))) by (cbn [note set_lines s_log]; apply lwe_snoc; [exact T|exact I]).
    set (s0 := note (EvExam t) (set_lines (s_line1 s) l2 s)) in *. clearbody s0.
    assert (R: listed_when_entered (s_log (flow_st f0))).
    { destruct H2 as [code C1 C2|code sf d C1 C2 C3 C4|code sf d C1 C2 C3 C4|code sf d s1 f0 C1 C2 C3 C4 C5 C6 C7]; cbn [flow_st].
      - exact T0.
      - exact T0.
      - cbn [note set_sfound s_log]. apply lwe_snoc; [exact T0|exact I].
      - assert (L1: s_log s1 = s_log s0 ++ [EvNew code t (e_num e (processed s0) t)]) by (rewrite C5; reflexivity).
        assert (T1: listed_when_entered (s_log s1)) by (rewrite L1; apply lwe_snoc; [exact T0|exact I]).
        destruct C7 as [f1 N E|N Al|f1 N Al R].
        + apply exit_with_inv in E. destruct E as (_ & s' & -> & (tx & _ & ->)). exact T1.
        + exact T1.
        + destruct R as [R1|R1 R2 R3|desig name en s' f1 R1 R2 R3 R4 R5 R6 R7 R8|R1 R2 R3]; cbn [flow_st]; try exact T1.
          assert (L2: s_log s' = s_log s1 ++ [EvList name desig t (e_num e (processed s0) t)]) by (rewrite R6; unfold listed, cut16; destruct (p_info_only (e_p e)); reflexivity).
          assert (T2: listed_when_entered (s_log s')) by (rewrite L2, L1; apply lwe_list; rewrite <- L1; exact T1).
          rewrite R7. destruct (s_sfound s1 || (s_found s1 + 1 =? p_max_sats (e_p e))); exact T2. }
    destruct f0 as [s1|s1|s1|k s1]; cbn [flow_st] in R.
    + destruct H3 as (s' & -> & Mv). exact (M _ _ R Mv).
    + subst f. exact R.
    + subst f. exact R.
    + subst f. exact R.
Qed.
Lemma run_lwe : forall e0 l1 l2 nm fin, skymap e0 l1 l2 nm = Ok fin -> listed_when_entered (f_log fin).
Proof.
  intros e0 l1 l2 nm fin H.
  destruct (skymap_inv e0 (fun s => listed_when_entered (s_log s)) (fun argv il f => listed_when_entered (s_log (flow_st f))) l1 l2 nm) with (fin := fin) as (argv & il & f & F & R).
  - intros argv il chunk s f K S. pose proof (lwe_step _ _ _ _ _ _ K S). destruct (live f); assumption.
  - intros s path K. cbn [note s_log]. apply lwe_snoc; [exact K|exact I].
  - intros s first k1 k2 K E1 E2. exact K.
  - intros argv il s code status msg f K M E. apply exit_with_inv in E. destruct E as (_ & s' & -> & (t & _ & ->)). exact K.
  - exact H.
  - intros out _ a name d t n b E. destruct a; discriminate E.
  - apply finish_counts in F. destruct F as (_ & _ & -> & _). destruct (live f); exact R.
Qed.
(** Combined forms. *)
Lemma run_unique : forall e0 l1 l2 nm fin, arrays l1 l2 nm -> skymap e0 l1 l2 nm = Ok fin -> comma_free (f_log fin) -> unique (f_log fin) /\ listed_when_entered (f_log fin).
Proof. intros e0 l1 l2 nm fin A H C. split; [apply (run_dedup e0 l1 l2 nm); assumption|now apply (run_lwe e0 l1 l2 nm)]. Qed.
Lemma run_filters : forall e0 l1 l2 nm fin, skymap e0 l1 l2 nm = Ok fin ->
  (forall i, In i (listing (f_log fin)) -> ordinary (e_p e0) (i_num i) -> passes_filters (e_p e0) (i_num i)) /\
  (forall c t n, In (EvNew c t n) (f_log fin) -> n_nan n = false -> ordinary (e_p e0) n -> passes_filters (e_p e0) n -> n_theta_ok n = true \/ f_code fin = 0 -> exists i, In i (listing (f_log fin)) /\ i_tle i = t /\ i_num i = n).
Proof.
  intros e0 l1 l2 nm fin H. pose proof (run_placed e0 l1 l2 nm fin H) as PL. apply run_filtered in H. destruct H as (A & B). split.
  - intros i Hi O. apply passb_iff; [exact O|]. unfold listing in Hi. apply in_flat_map in Hi. destruct Hi as (ev & I1 & I2). destruct ev; try contradiction. destruct I2 as [<-|[]]. cbn [i_num]. now apply (A _ _ _ _ I1).
  - intros c t n I N O P TH. apply passb_iff in P; [|exact O].
    assert (TK: n_theta_ok n = true) by (destruct TH as [TH|TH]; [exact TH|exact (PL TH c t n I N P)]). destruct (B c t n I N P TK) as (a & d & I'). exists (mk_item a d t n). split; [|split; reflexivity].
    unfold listing. apply in_flat_map. eexists. split; [exact I'|]. now left.
Qed.
Lemma run_single : forall e0 l1 l2 nm fin, skymap e0 l1 l2 nm = Ok fin -> p_single_n (e_p e0) = true -> p_sunlit_only (e_p e0) = false -> p_altrng (e_p e0) = false -> ~ In 0 (p_intl_desig (e_p e0)) ->
  listing (f_log fin) = [] \/ exists code i, listing (f_log fin) = [i] /\ In (EvNew code (i_tle i) (i_num i)) (f_log fin) /\ (forall m, shows_nat code m -> m = p_norad_n (e_p e0)).
Proof.
  intros e0 l1 l2 nm fin H S1 S2 S3 S4. destruct (run_answered e0 l1 l2 nm fin H) as [E|(code & a & d & t & n & E & _ & I & M)]; try assumption; [unfold single_sat; now rewrite S1|now left|].
  right. exists code, (mk_item a d t n). split; [exact E|]. split; [exact I|]. unfold meets in M. rewrite S1 in M. intros m Sh. destruct Sh as (k & ds & -> & Hne & HF & <-).
  rewrite <- app_assoc in M. rewrite strtol_digits in M by assumption || reflexivity. now apply ok_inj in M.
Qed.
Lemma run_single_desig : forall e0 l1 l2 nm fin, skymap e0 l1 l2 nm = Ok fin -> p_single_n (e_p e0) = false -> p_single_i (e_p e0) = true -> p_sunlit_only (e_p e0) = false -> p_altrng (e_p e0) = false -> ~ In 0 (p_intl_desig (e_p e0)) ->
  listing (f_log fin) = [] \/ exists i r, listing (f_log fin) = [i] /\ i_desig i = p_intl_desig (e_p e0) ++ r.
Proof.
  intros e0 l1 l2 nm fin H S0 S1 S2 S3 S4. destruct (run_answered e0 l1 l2 nm fin H) as [E|(code & a & d & t & n & E & _ & I & M)]; try assumption; [unfold single_sat; now rewrite S0, S1|now left|].
  right. unfold meets in M. rewrite S0 in M. destruct M as (r & M). exists (mk_item a d t n), r. split; [exact E|exact M].
Qed.
(** A satellite that passes the filters and has no pixel ends the run. *)
Lemma run_stops : forall e0 l1 l2 nm fin, skymap e0 l1 l2 nm = Ok fin ->
  forall c t n, In (EvNew c t n) (f_log fin) -> n_nan n = false -> ordinary (e_p e0) n -> passes_filters (e_p e0) n -> n_theta_ok n = false ->
  f_code fin = 1 /\ stopped (f_log fin).
Proof.
  intros e0 l1 l2 nm fin H c t n I N O P T. destruct (run_ends e0 l1 l2 nm fin H) as [K|K]; [exact K|]. apply passb_iff in P; [|exact O]. rewrite (K c t n I N P) in T. discriminate T.
Qed.
