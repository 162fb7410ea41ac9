(** Consequences for counters, limits, filters and duplicates. *)
From Coq Require Import String Ascii ZArith List Bool Lia Reals.
From Flocq Require Import IEEE754.BinarySingleNaN.
From Verif Require Import CLib FloatModel TleModel IoModel SkymapModel SkymapSpec SkymapProofs1 SkymapProofs2.
Import ListNotations.
Open Scope Z_scope.

Lemma with_path_same : forall e0, e_p (with_path e0) = e_p e0 \/
  (p_max_sats (e_p (with_path e0)) = p_max_sats (e_p e0)) .
Proof. intro. right. reflexivity. Qed.

(** ** Counters *)
Lemma finish_counts : forall e argv il f fin, finish e argv il f = Ok fin ->
  f_found fin = s_found (flow_st f) /\ f_nsunlit fin = s_sunlit (flow_st f) /\ f_log fin = s_log (flow_st f) /\
  (match f with
   | Exited c s => f_code fin = c /\ f_out fin = s_out s /\ f_nsats fin = 0
   | _ => f_code fin = 0 /\ f_nsats fin = (if s_sfound (flow_st f) then 1 else s_found (flow_st f)) /\
          exists msg t, close_stat argv il 0 msg (s_found (flow_st f)) (f_nsats fin) (s_sunlit (flow_st f)) = Ok t /\
            (msg = [] \/ msg = bytes "Requested satellite not found in TLE file") /\
            (msg <> [] <-> single_sat (e_p e) = true /\ s_sfound (flow_st f) = false) /\
            f_out fin = s_out (flow_st f) ++ (if negb (p_info_only (e_p e)) && (0 <? s_found (flow_st f)) then bytes "]," else []) ++ t
   end).
Proof.
  intros e argv il f fin H. destruct f as [s|s|s|c s]; cbn [finish] in H;
   try (cbv zeta in H; inv_bind H t Ht; injection H as <-; cbn [f_found f_nsunlit f_log f_code f_nsats f_out flow_st]; repeat (split; [reflexivity|]);
     exists (if single_sat (e_p e) && negb (s_sfound s) then bytes "Requested satellite not found in TLE file" else []), t; split; [exact Ht|];
     split; [destruct (single_sat (e_p e) && negb (s_sfound s)); tauto|]; split; [|reflexivity];
     destruct (single_sat (e_p e)); destruct (s_sfound s); cbn [andb negb]; split; intro K; try tauto; try (destruct K; discriminate); try discriminate; exfalso; now apply K).
  injection H as <-. cbn. repeat split; reflexivity.
Qed.

Lemma tally_start : forall p l1 l2 nm o, tally p o (start l1 l2 nm o).
Proof. intros. unfold tally, start, body. cbn. split; [reflexivity|]. split; [reflexivity|]. split; [destruct (p_info_only p); now rewrite app_nil_r|]. intro. constructor. Qed.

Lemma tally_opens : forall p o s path, tally p o s -> tally p o (note (EvOpen path) s).
Proof. intros p o s path H. apply (tally_log p o s); try assumption; try reflexivity. cbn [note s_log]. rewrite listing_app. cbn. now rewrite app_nil_r. Qed.
Lemma tally_begins : forall p o s l1 nm, tally p o s -> tally p o (set_name nm (set_lines l1 (s_line2 s) s)).
Proof. intros p o s l1 nm H. now apply (tally_log p o s). Qed.

Lemma counters : forall e0 l1 l2 nm fin, skymap e0 l1 l2 nm = Ok fin ->
  f_found fin = Z.of_nat (length (listing (f_log fin))) /\ f_nsunlit fin = Z.of_nat (length (sunlit_items (listing (f_log fin)))).
Proof.
  intros e0 l1 l2 nm fin H.
  set (T := fun s : st => s_found s = Z.of_nat (length (listing (s_log s))) /\ s_sunlit s = Z.of_nat (length (sunlit_items (listing (s_log s))))).
  destruct (skymap_inv e0 (fun s => exists o, tally (e_p (with_path e0)) o s) (fun argv il f => T (flow_st f)) l1 l2 nm) with (fin := fin)
    as (argv & il & f & F & R).
  - intros argv il chunk s f (o & K) S. pose proof (tally_step _ _ _ o _ _ _ K S) as X. destruct f as [s'|s'|s'|c s']; cbn [live flow_st] in *; eauto.
    + unfold T. destruct X as (A & B & _). tauto.
    + destruct X as [(_ & (A & B & _) & _)|(s1 & status & msg & (A & B & _) & (t & _ & ->) & _)]; unfold T; tauto.
  - intros s path (o & K). exists o. now apply tally_opens.
  - intros s first k1 k2 (o & K) _ _. exists o. now apply tally_begins.
  - intros argv il s code status msg f (o & A & B & _) _ E. apply exit_with_inv in E. destruct E as (_ & s' & -> & (t & _ & ->)). unfold T. tauto.
  - exact H.
  - intros out _. exists out. apply tally_start.
  - apply finish_counts in F. destruct F as (-> & -> & -> & _). destruct f as [s'|s'|s'|c s']; cbn [live flow_st] in *; try exact R; destruct R as (o & A & B & _); tauto.
Qed.

Lemma sunlit_le : forall l, (length (sunlit_items l) <= length l)%nat.
Proof. induction l as [|i l IH]; [apply le_n|]. cbn [sunlit_items filter]. destruct (n_sunlit (i_num i)); cbn [length]; unfold sunlit_items in IH; lia. Qed.

(** ** Single requests and the limit *)
Definition limits (p : params) (s : st) : Prop :=
  (s_sfound s = true -> single_sat p = true) /\ (single_sat p = true -> s_found s = 0) /\
  (1 <= p_max_sats p -> s_found s < p_max_sats p) /\ 0 <= s_found s.
Definition limits_end (p : params) (f : flow) : Prop :=
  match f with
  | EndChecking s => (s_sfound s = true /\ single_sat p = true /\ s_found s = 1) \/
      (single_sat p = false /\ s_sfound s = false /\ s_found s = p_max_sats p)
  | Exited c s => c <> 0 /\ limits p s
  | f => limits p (flow_st f)
  end.
Lemma selection_sf : forall p t code name sf sf' d, selection p t code name sf = Ok (Some (sf', d)) -> single_sat p = false -> sf' = sf.
Proof.
  intros p t code name sf sf' d H S. unfold selection in H. unfold single_sat in S. apply orb_false_iff in S. destruct S as [S1 S2]. rewrite S1, S2 in H.
  destruct (p_satname_filter p); [inv_bind H b Hb; destruct b; [|discriminate H]|]; injection H as <- _; reflexivity.
Qed.
Lemma limits_move : forall p s s', limits p s -> move s s' -> limits p s'.
Proof. intros p s s' H (l1 & nm & -> & _). exact H. Qed.
Lemma limits_step : forall e argv il chunk s f, limits (e_p e) s -> ps e argv il chunk s f ->
  if live f then limits (e_p e) (flow_st f) else limits_end (e_p e) f.
Proof.
  intros e argv il chunk s f T H. destruct H as [l2 code t f H0 H1 H2 (s' & -> & H3)|l2 t f0 f H0 H1 H2 H3].
  - refine (limits_move _ _ _ _ H3). exact T.
  - set (s0 := note (EvExam t) (set_lines (s_line1 s) l2 s)) in *. assert (T0: limits (e_p e) s0) by exact T. clearbody s0. clear T.
    assert (R: if live f0 then limits (e_p e) (flow_st f0) else limits_end (e_p e) f0).
    { destruct T0 as (A & B & C & D).
      destruct H2 as [code C1 C2|code sf d C1 C2 C3 C4|code sf d C1 C2 C3 C4|code sf d s1 f0 C1 C2 C3 C4 C5 C6 C7]; cbn [live flow_st].
      - repeat split; assumption.
      - subst sf. repeat split; try assumption. cbn. discriminate.
      - repeat split; try assumption. cbn [note set_sfound s_sfound]. intro K. destruct (single_sat (e_p e)) eqn:S; [reflexivity|].
        rewrite (selection_sf _ _ _ _ _ _ _ C2 S) in K. discriminate (A K).
      - assert (T1: limits (e_p e) s1).
        { rewrite C5. unfold entered. repeat split; try assumption. cbn [note set_sfound set_seen s_sfound]. intro K. destruct (single_sat (e_p e)) eqn:S; [reflexivity|].
          rewrite (selection_sf _ _ _ _ _ _ _ C2 S) in K. discriminate (A K). }
        assert (SF: s_sfound s1 = sf) by (rewrite C5; reflexivity).
        assert (NS: single_sat (e_p e) = false -> s_sfound s1 = false).
        { intro S. destruct (s_sfound s1) eqn:K; [|reflexivity]. destruct T1 as (X & _). rewrite (X K) in S. discriminate S. }
        destruct C7 as [f1 N E|N Al|f1 N Al R].
        + apply exit_with_inv in E. destruct E as (_ & s' & -> & (tx & _ & ->)). split; [discriminate|exact T1].
        + exact T1.
        + destruct R as [R1|R1 R2 R3|desig name en s' f1 R1 R2 R3 R4 R5 R6 R7 R8|R1 R2 R3]; cbn [live flow_st]; try exact T1; [|split; [discriminate|exact T1]].
          assert (F: s_found s' = s_found s1 + 1 /\ s_sfound s' = s_sfound s1) by (rewrite R6; unfold listed, cut16; destruct (p_info_only (e_p e)); split; reflexivity).
          destruct F as (F1 & F2). destruct T1 as (X1 & X2 & X3 & X4). rewrite R7.
          destruct (s_sfound s1) eqn:K.
          * cbn [orb live limits_end flow_st]. left. specialize (X1 eq_refl). specialize (X2 X1). rewrite F2, F1, X2. tauto.
          * assert (S: single_sat (e_p e) = false) by (destruct (single_sat (e_p e)); [specialize (C3 eq_refl); congruence|reflexivity]).
            cbn [orb]. destruct (Z.eqb_spec (s_found s1 + 1) (p_max_sats (e_p e))) as [E|E]; cbn [live limits_end flow_st].
            -- right. rewrite F2, F1. tauto.
            -- repeat split.
               ++ rewrite F2. discriminate.
               ++ intro. congruence.
               ++ rewrite F1. intro M. specialize (X3 M). lia.
               ++ lia. }
    destruct f0 as [s1|s1|s1|k s1]; cbn [live flow_st] in R.
    + destruct H3 as (s' & -> & Mv). exact (limits_move _ _ _ R Mv).
    + subst f. exact R.
    + subst f. exact R.
    + subst f. exact R.
Qed.
Lemma run_limits : forall e0 l1 l2 nm fin, skymap e0 l1 l2 nm = Ok fin ->
  exists argv il f, finish (with_path e0) argv il f = Ok fin /\ if live f then limits (e_p (with_path e0)) (flow_st f) else limits_end (e_p (with_path e0)) f.
Proof.
  intros e0 l1 l2 nm fin H. apply (skymap_inv e0 (limits (e_p (with_path e0))) (fun argv il => limits_end (e_p (with_path e0))) l1 l2 nm); try assumption.
  - intros. eapply limits_step; eauto.
  - intros s path K. exact K.
  - intros s first k1 k2 K _ _. exact K.
  - intros argv il s code status msg f K M E. apply exit_with_inv in E. destruct E as (_ & s' & -> & (t & _ & ->)). split; [lia|exact K].
  - intros out _. repeat split; cbn; try discriminate; lia.
Qed.

Lemma limit_respected : forall e0 l1 l2 nm fin, skymap e0 l1 l2 nm = Ok fin -> 1 <= p_max_sats (e_p e0) -> f_found fin <= p_max_sats (e_p e0).
Proof.
  intros e0 l1 l2 nm fin H M. apply run_limits in H. destruct H as (argv & il & f & F & R). apply finish_counts in F. destruct F as (-> & _).
  change (p_max_sats (e_p e0)) with (p_max_sats (e_p (with_path e0))) in *.
  destruct f as [s|s|s|c s]; cbn [live flow_st limits_end] in *; try (destruct R as (_ & _ & R & _); specialize (R M); lia).
  2: destruct R as (_ & _ & _ & R & _); specialize (R M); lia.
  destruct R as [(_ & _ & ->)|(_ & _ & ->)]; lia.
Qed.

(** The total reported at the end. *)
Lemma nsats_found : forall e0 l1 l2 nm fin, skymap e0 l1 l2 nm = Ok fin -> f_code fin = 0 ->
  (single_sat (e_p e0) = false -> f_nsats fin = f_found fin) /\
  (single_sat (e_p e0) = true -> 0 <= f_found fin <= f_nsats fin /\ f_nsats fin <= 1).
Proof.
  intros e0 l1 l2 nm fin H C. apply run_limits in H. destruct H as (argv & il & f & F & R). apply finish_counts in F. destruct F as (-> & _ & _ & F).
  change (single_sat (e_p e0)) with (single_sat (e_p (with_path e0))).
  destruct f as [s|s|s|c s]; cbn [live flow_st limits_end] in *.
  - destruct F as (_ & -> & _). destruct R as (A & B & D & E). split; intro S; destruct (s_sfound s) eqn:K; try (rewrite (A eq_refl) in S; discriminate S); try reflexivity; rewrite (B S); lia.
  - destruct F as (_ & -> & _). destruct R as (A & B & D & E). split; intro S; destruct (s_sfound s) eqn:K; try (rewrite (A eq_refl) in S; discriminate S); try reflexivity; rewrite (B S); lia.
  - destruct F as (_ & -> & _). destruct R as [(K & S1 & ->)|(S1 & K & _)]; rewrite K; split; intro S; try congruence; lia.
  - destruct F as (C' & _). destruct R as (R & _). congruence.
Qed.
