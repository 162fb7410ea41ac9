(** Whole runs: records examined and names. *)
From Coq Require Import String Ascii ZArith List Bool Lia.
From Verif Require Import CLib ListLemmas FloatModel TleModel TleSpec IoModel SkymapModel SkymapSpec SkymapProofs1 SkymapProofs2 SkymapProofs3 SkymapProofs4 SkymapProofs6.
Import ListNotations.
Open Scope Z_scope.

Lemma texts_end : forall bs ts, Forall good_block bs -> flat_map block_texts bs = ts ++ [[]] -> exists bs', bs = bs' ++ [Note []] /\ flat_map block_texts bs' = ts.
Proof.
  intros bs ts G E. destruct (snoc_cases bs) as [->|(r & b & ->)]; [destruct ts; discriminate E|]. rewrite flat_map_app in E. cbn [flat_map] in E. rewrite app_nil_r in E.
  apply Forall_app in G. destruct G as [_ G]. inversion G as [|? ? Gb _]; subst. destruct b as [t|t1 t2 el]; cbn [block_texts] in E.
  - apply app_inj_tail in E. destruct E as [<- <-]. exists r. split; reflexivity.
  - exfalso. change [t1; t2] with ([t1] ++ [t2]) in E. rewrite app_assoc in E. apply app_inj_tail in E. destruct E as [_ ->]. destruct Gb as (_ & _ & _ & (L & _) & _). cbn in L. lia.
Qed.
Lemma records_note_end : forall bs o, records o (bs ++ [Note []]) = records o bs.
Proof. induction bs as [|[t|t1 t2 el] bs IH]; intro o; cbn; [reflexivity|apply IH|]. f_equal. apply IH. Qed.
Lemma good_texts : forall bs, Forall good_block bs -> Forall (short 99) (flat_map block_texts bs).
Proof.
  induction bs as [|b bs IH]; intro G; [constructor|]. inversion G; subst. cbn [flat_map]. apply Forall_app. split; [|now apply IH].
  assert (X: forall t, good_text t -> short 99 t) by (intros t (A & _ & B); split; [exact A|lia]).
  destruct b as [t|t1 t2 el]; cbn [block_texts good_block] in *; repeat (apply Forall_cons; [apply X; tauto|]); apply Forall_nil.
Qed.
Lemma walked_stop0 : forall rs, walked false rs [].
Proof. intro rs. split; [reflexivity|]. split; [exists O; split; [constructor|discriminate]|constructor]. Qed.
Lemma exit_log : forall e argv il c k m s f, exit_with e argv il c k m s = Ok f -> live f = false /\ s_log (flow_st f) = s_log s.
Proof. intros e argv il c k m s f H. apply exit_with_inv in H. destruct H as (_ & s' & -> & (t & _ & ->)). split; reflexivity. Qed.

Lemma one_file_walk : forall e argv il path s f bs, sized s -> (forall c, e_fs e path = Some c -> good_file c bs) -> one_file e argv il path s = Ok f ->
  (live f = true -> sized (flow_st f)) /\ exists L, s_log (flow_st f) = s_log s ++ EvOpen path :: L /\ walked (live f) (records None bs) L.
Proof.
  intros e argv il path s f bs T GF R. unfold one_file in R. cbv zeta in R.
  assert (X: forall c k m, exit_with e argv il c k m (note (EvOpen path) s) = Ok f ->
     (live f = true -> sized (flow_st f)) /\ exists L, s_log (flow_st f) = s_log s ++ EvOpen path :: L /\ walked (live f) (records None bs) L).
  { intros c k m E. apply exit_log in E. destruct E as (-> & ->). split; [discriminate|]. exists []. split; [reflexivity|]. apply walked_stop0. }
  destruct (e_fs e path) as [contents|] eqn:FS; [|exact (X _ _ _ R)]. destruct (GF contents eq_refl) as (FO & G). clear GF.
  destruct (fgets_either 99 (flat_map block_texts bs) contents (good_texts bs G) FO) as (ts & C & E).
  assert (Y: exists bs', Forall good_block bs' /\ flat_map block_texts bs' = ts /\ records None bs = records None bs').
  { destruct E as [<-|E]; [exists bs; tauto|]. destruct (texts_end bs ts G E) as (bs' & -> & E'). exists bs'. apply Forall_app in G. rewrite records_note_end. tauto. }
  destruct Y as (bs' & G' & E' & Erec). rewrite Erec in *. subst ts. clear Erec E FO G bs.
  destruct (fgets_seq 99 contents) as [|first rest]; [exact (X _ _ _ R)|]. clear X.
  inv_bind R k1 R1. inv_bind R k2 R2. destruct (store_text _ _ _ R1) as (x & ->).
  match type of R with passes _ _ _ _ ?q = _ => set (s0 := q) in * end.
  assert (T0: sized s0). { destruct T as (A & B & D). apply store_length in R1. apply take_name_length in R2. cbn [note set_lines s_line1 s_name] in R1, R2. unfold sized, arrays, s0. cbn [set_name set_lines note s_line1 s_line2 s_name] in *. repeat split; congruence. }
  assert (L0: s_log s0 = s_log s ++ [EvOpen path]) by reflexivity.
  destruct bs' as [|b bs']; [inversion C|]. inversion G' as [|? ? Gb G]; subst. destruct b as [t|t1 t2 el].
  - cbn [flat_map block_texts app] in C. inversion C as [|? ? ? ? C0 C']; subst.
    assert (NM: name_is (Some t) s0). { intros t0 E GN. injection E as <-. cbn [s0 set_name s_name]. exact (take_name_own first x _ _ t C0 GN R2). }
    destruct (blocks_run e argv il bs' (Some t) rest s0 f G C' T0 NM R) as (Sz & L & E & W). split; [exact Sz|]. exists L. split; [rewrite E, L0, <- app_assoc; reflexivity|exact W].
  - cbn [flat_map block_texts app] in C. inversion C as [|? ? ? ? C1 C']; subst. inversion C' as [|? c2 ? rest' C2 C'']; subst. cbn [passes] in R. inv_bind R f1 R0. apply pass_ps in R0.
    destruct (second_line _ _ _ t1 t2 el first x c2 s0 f1 T0 Gb C1 C2 eq_refl R0) as (S1 & t & L & D & E2 & FR).
    pose proof (own_of_record s0 t L None el FR D (name_is_none s0)) as OW. destruct FR as (FX & FO & _). cbn [records].
    assert (GO: forall s1, f1 = Next s1 \/ f1 = Continue s1 -> passes e argv il rest' s1 = Ok f ->
      (live f = true -> sized (flow_st f)) /\ exists L, s_log (flow_st f) = s_log s ++ EvOpen path :: L /\ walked (live f) ((None, el) :: records None bs') L).
    { intros s1 F1 Rs. assert (FS1: flow_st f1 = s1) by (destruct F1 as [->| ->]; reflexivity). rewrite FS1 in *.
      destruct (blocks_run e argv il bs' None rest' s1 f G C'' S1 (name_is_none s1) Rs) as (Sz & M & E3 & W). split; [exact Sz|]. exists (EvExam t :: L ++ M).
      split; [rewrite E3, E2, L0, <- !app_assoc; reflexivity|]. now apply walked_cons. }
    destruct f1 as [s1|s1|s1|k s1].
    * apply (GO s1); [now left|exact R].
    * apply (GO s1); [now right|exact R].
    * injection R as <-. cbn [live flow_st] in *. split; [discriminate|]. exists (EvExam t :: L). split; [rewrite E2, L0, <- app_assoc; reflexivity|]. now apply walked_stop.
    * injection R as <-. cbn [live flow_st] in *. split; [discriminate|]. exists (EvExam t :: L). split; [rewrite E2, L0, <- app_assoc; reflexivity|]. now apply walked_stop.
Qed.

(** Invariants at the level of whole files. *)
Section Files.
  Variable e0 : env.
  Let e := with_path e0.
  Variable P : st -> Prop.
  Variable Q : flow -> Prop.
  Variable l1 l2 nm : list Z.
  Hypothesis file : forall argv il path s f, P s -> one_file e argv il path s = Ok f -> if live f then P (flow_st f) else Q f.
  Hypothesis fails : forall argv s msg f, P s -> exit_with e argv true 2 2 msg s = Ok f -> Q f.
  Lemma skymap_files : forall fin, skymap e0 l1 l2 nm = Ok fin -> (forall out, P (start l1 l2 nm out)) ->
    exists argv il f, finish e argv il f = Ok fin /\ if live f then P (flow_st f) else Q f.
  Proof.
    intros fin H B. unfold skymap in H. cbv zeta in H. fold e in H. destruct (nth_error (e_argv e) (file_arg (e_argv e))) as [arg|]; [|discriminate H].
    assert (One: forall a, (path <- c_sprintf 200 (if existsb (Z.eqb 47) a then a else p_tle_path (e_p e) ++ 47 :: a) ;;
       f <- one_file e (e_argv e) false path (start l1 l2 nm (open_json ++ preamble e a)) ;; finish e (e_argv e) false f) = Ok fin ->
       exists argv il f, finish e argv il f = Ok fin /\ if live f then P (flow_st f) else Q f).
    { intros a K. inv_bind K path K1. inv_bind K f K2. exists (e_argv e), false, f. split; [exact K|]. refine (file _ _ _ _ _ _ K2). apply B. }
    assert (Lst: forall a, (path <- c_sprintf 200 (p_tle_path (e_p e) ++ 47 :: a) ;;
       match e_fs e path with
       | None => f <- exit_with e (set_nth (file_arg (e_argv e)) a (e_argv e)) true 2 2 (bytes "Could not open input file " ++ path) (start l1 l2 nm open_json) ;;
                 finish e (set_nth (file_arg (e_argv e)) a (e_argv e)) true f
       | Some contents => f <- rows e (set_nth (file_arg (e_argv e)) a (e_argv e)) (fgets_seq 63 contents) (start l1 l2 nm (open_json ++ preamble e a)) ;;
                 finish e (set_nth (file_arg (e_argv e)) a (e_argv e)) true f
       end) = Ok fin -> exists argv il f, finish e argv il f = Ok fin /\ if live f then P (flow_st f) else Q f).
    { intros a K. inv_bind K path K1. destruct (e_fs e path) as [contents|]; inv_bind K f K2.
      - eexists. exists true, f. split; [exact K|]. refine (rows_inv e _ P Q _ _ _ _ _ K2); [intros; eapply file; eauto|]. apply B.
      - eexists. exists true, f. split; [exact K|].
        assert (L: live f = false) by (apply exit_log in K2; tauto). rewrite L. exact (fails _ _ _ f (B open_json) K2). }
    destruct arg as [|c a]; [exact (One [] H)|].
    destruct (Z.eq_dec c 64) as [->|N]; [exact (Lst a H)|]. apply (One (c :: a)).
    destruct c as [|c|c]; try exact H. do 7 (destruct c as [c|c|]; try exact H). exfalso. now apply N.
  Qed.
End Files.

(** Element sets of a sequence of files. *)
Definition all_records (bl : list Z -> list block) (paths : list (list Z)) := flat_map (fun p => records None (bl p)) paths.
Definition trace (bl : list Z -> list block) (d : bool) (log : list event) : Prop :=
  (exists k, Forall2 describes (examined log) (firstn k (map snd (all_records bl (opened log)))) /\ (d = true -> (length (all_records bl (opened log)) <= k)%nat)) /\
  Forall (own (all_records bl (opened log))) (listing log).
Lemma own_more : forall a b i, own a i -> own (a ++ b) i.
Proof. intros a b i (o & el & I & R). exists o, el. split; [apply in_or_app; now left|exact R]. Qed.
Lemma own_more2 : forall a b i, own b i -> own (a ++ b) i.
Proof. intros a b i (o & el & I & R). exists o, el. split; [apply in_or_app; now right|exact R]. Qed.
Lemma trace_file : forall bl d log p L, trace bl true log -> walked d (records None (bl p)) L -> trace bl d (log ++ EvOpen p :: L).
Proof.
  intros bl d log p L ((k & F & K) & O) (O' & (k' & F' & K') & W).
  assert (EO: opened (log ++ EvOpen p :: L) = opened log ++ [p]) by (rewrite opened_app; cbn; fold (opened L); now rewrite O').
  assert (AR: all_records bl (opened log ++ [p]) = all_records bl (opened log) ++ records None (bl p)) by (unfold all_records; rewrite flat_map_app; cbn; now rewrite app_nil_r).
  unfold trace. rewrite EO, AR. set (A := all_records bl (opened log)) in *. set (B := records None (bl p)) in *. split.
  - exists (length A + k')%nat. split.
    + rewrite examined_app. cbn. fold (examined L). rewrite map_app, firstn_app, map_length. replace (length A + k' - length A)%nat with k' by lia.
      apply Forall2_app; [|exact F']. rewrite firstn_all2 in F by (rewrite map_length; now apply K). rewrite firstn_all2 by (rewrite map_length; lia). exact F.
    + intro D. rewrite app_length. apply K' in D. lia.
  - rewrite listing_app. apply Forall_app. split; [eapply Forall_impl; [|exact O]; intro i; apply own_more|]. cbn. fold (listing L). eapply Forall_impl; [|exact W]. intro i. apply own_more2.
Qed.

Lemma run_trace : forall e0 l1 l2 nm fin bl, arrays l1 l2 nm -> skymap e0 l1 l2 nm = Ok fin -> readable e0 bl (opened (f_log fin)) ->
  exists d, trace bl d (f_log fin) /\ (f_code fin = 0 -> single_sat (e_p e0) = false -> f_found fin <> p_max_sats (e_p e0) -> d = true).
Proof.
  intros e0 l1 l2 nm fin bl Ar H RD.
  set (e := with_path e0). 
  set (P := fun s : st => sized s /\ limits (e_p e) s /\ (readable e0 bl (opened (s_log s)) -> trace bl true (s_log s))).
  set (Q := fun f : flow => limits_end (e_p e) f /\ (readable e0 bl (opened (s_log (flow_st f))) -> trace bl false (s_log (flow_st f)))).
  assert (LF: forall argv il path s f, limits (e_p e) s -> one_file e argv il path s = Ok f -> if live f then limits (e_p e) (flow_st f) else limits_end (e_p e) f).
  { intros argv il path s f. apply (one_file_inv2 e0 (limits (e_p e)) (fun _ _ => limits_end (e_p e))).
    - intros. eapply limits_step; eauto.
    - intros s0 p0 K. exact K.
    - intros s0 first k1 k2 K _ _. exact K.
    - intros argv0 il0 s0 code status msg f0 K M E. apply exit_with_inv in E. destruct E as (_ & s' & -> & (t & _ & ->)). split; [lia|exact K]. }
  destruct (skymap_files e0 P Q l1 l2 nm) with (fin := fin) as (argv & il & f & F & R).
  - intros argv il path s f (S & Lm & Tr) O. pose proof (LF _ _ _ _ _ Lm O) as Lm'.
    assert (W: readable e0 bl (opened (s_log (flow_st f))) -> trace bl (live f) (s_log (flow_st f))).
    { intro Rd. assert (Inc: exists L0, s_log (flow_st f) = s_log s ++ EvOpen path :: L0).
      { fold e in O. clear - O. unfold one_file in O. cbv zeta in O. destruct (e_fs e path) as [contents|].
        - destruct (fgets_seq 99 contents) as [|first rest]; [apply exit_log in O; destruct O as (_ & ->); now exists []|].
          inv_bind O k1 O1. inv_bind O k2 O2.
          assert (G: if live f then (fun s' => exists L0, s_log s' = s_log s ++ EvOpen path :: L0) (flow_st f) else (fun f => exists L0, s_log (flow_st f) = s_log s ++ EvOpen path :: L0) f).
          { refine (passes_inv e argv il (fun s' => exists L0, s_log s' = s_log s ++ EvOpen path :: L0) (fun f => exists L0, s_log (flow_st f) = s_log s ++ EvOpen path :: L0) _ rest _ f _ O); [|now exists []].
            intros chunk s0 f0 (L0 & E0) Ps. assert (G: exists L0, s_log (flow_st f0) = s_log s ++ EvOpen path :: L0); [|destruct (live f0); exact G].
            destruct Ps as [q2 code t f0 H0 H1 H2 (s' & -> & H3)|q2 t f1 f0 H0 H1 H2 H3].
            - cbn [flow_st]. rewrite (move_log _ _ H3). now exists L0.
            - destruct (tf_log _ _ _ _ _ _ H2) as (L1 & E1 & _). cbn [note set_lines s_log] in E1. rewrite E0 in E1. rewrite <- !app_assoc in E1. cbn [app] in E1.
              destruct f1 as [s1|s1|s1|k s1]; cbn [flow_st] in *; try (subst f0; eexists; exact E1). destruct H3 as (s' & -> & Mv). cbn [flow_st]. rewrite (move_log _ _ Mv). eexists; exact E1. }
          destruct (live f); exact G.
        - apply exit_log in O. destruct O as (_ & ->). now exists []. }
      destruct Inc as (L0 & EL).
      assert (RP: forall c, e_fs e path = Some c -> good_file c (bl path)).
      { intros c Hc. apply Rd; [|exact Hc]. rewrite EL, opened_app. apply in_or_app. right. now left. }
      destruct (one_file_walk e argv il path s f (bl path) S RP O) as (_ & L & E & W). rewrite E. apply trace_file; [|exact W]. apply Tr.
      intros p c Ip Hc. apply Rd; [|exact Hc]. rewrite EL, opened_app. apply in_or_app. now left. }
    destruct (live f) eqn:Lv.
    + split; [|split; [exact Lm'|exact W]].
      assert (G: if live f then sized (flow_st f) else True); [|now rewrite Lv in G].
      refine (one_file_inv e argv il sized (fun _ => True) _ _ _ _ path s f S O).
      * intros chunk s0 f0 S0 Ps. destruct (live f0) eqn:Lv0; [|exact I]. destruct Ps as [q2 code t f0 H0 H1 H2 (s' & -> & H3)|q2 t f1 f0 H0 H1 H2 H3].
        -- refine (sized_move _ _ _ H3). destruct S0 as (A & B & C). apply store_length in H0. unfold sized, arrays. cbn [set_lines s_line1 s_line2 s_name]. repeat split; congruence.
        -- assert (T0: sized (note (EvExam t) (set_lines (s_line1 s0) q2 s0))) by (destruct S0 as (A & B & C); apply store_length in H0; unfold sized, arrays; cbn [note set_lines s_line1 s_line2 s_name]; repeat split; congruence).
           pose proof (tf_sized _ _ _ _ _ _ T0 H2) as T1. destruct f1 as [s1|s1|s1|k s1]; cbn [flow_st] in *; try (subst f0; exact T1). destruct H3 as (s' & -> & Mv). exact (sized_move _ _ T1 Mv).
      * intros s0 p0 K. exact K.
      * intros s0 first k1 k2 (A & B & C) E1 E2. apply store_length in E1. apply take_name_length in E2. unfold sized, arrays. cbn [set_name set_lines s_line1 s_line2 s_name]. repeat split; congruence.
      * intros. exact I.
    + split; [exact Lm'|exact W].
  - intros argv s msg f (S & Lm & Tr) E. apply exit_with_inv in E. destruct E as (_ & s' & -> & (t & _ & ->)). split.
    + split; [lia|exact Lm].
    + intro Rd. destruct (Tr Rd) as ((k & Fk & K) & O). split; [exists k; split; [exact Fk|discriminate]|exact O].
  - exact H.
  - intro out. split; [exact Ar|]. split; [repeat split; cbn; try discriminate; lia|]. intros _. split; [exists O; split; [constructor|intros _; apply le_n]|constructor].
  - apply finish_counts in F. destruct F as (F1 & _ & F3 & F4). rewrite F3 in RD |- *. rewrite F1. exists (live f). split.
    + destruct (live f); [apply R; exact RD|apply R; exact RD].
    + intros C S M. destruct f as [s|s|s|c s]; cbn [live flow_st] in *; try reflexivity; exfalso.
      * destruct R as ([(_ & K & _)|(_ & _ & K)] & _); [|now apply M]. change (single_sat (e_p e)) with (single_sat (e_p e0)) in K. congruence.
      * destruct R as ((K & _) & _). destruct F4 as (F4 & _). congruence.
Qed.
Lemma all_records_els : forall bl ps, map snd (all_records bl ps) = file_elements bl ps.
Proof. intros bl ps. unfold all_records, file_elements. induction ps as [|p ps IH]; [reflexivity|]. cbn [flat_map]. rewrite map_app, records_els, IH. reflexivity. Qed.
Lemma run_examined : forall e0 l1 l2 nm fin bl, arrays l1 l2 nm -> skymap e0 l1 l2 nm = Ok fin -> readable e0 bl (opened (f_log fin)) ->
  (exists k, Forall2 describes (examined (f_log fin)) (firstn k (file_elements bl (opened (f_log fin))))) /\
  (f_code fin = 0 -> p_single_n (e_p e0) = false -> p_single_i (e_p e0) = false -> f_found fin <> p_max_sats (e_p e0) ->
   Forall2 describes (examined (f_log fin)) (file_elements bl (opened (f_log fin)))).
Proof.
  intros e0 l1 l2 nm fin bl A H R. destruct (run_trace e0 l1 l2 nm fin bl A H R) as (d & ((k & F & K) & _) & D). rewrite all_records_els in F. split; [now exists k|].
  intros C S1 S2 M. rewrite firstn_all2 in F; [exact F|]. rewrite <- (all_records_els bl), map_length. apply K. apply D; try assumption. unfold single_sat. now rewrite S1, S2.
Qed.
Lemma run_names : forall e0 l1 l2 nm fin bl, arrays l1 l2 nm -> skymap e0 l1 l2 nm = Ok fin -> readable e0 bl (opened (f_log fin)) ->
  forall i, In i (listing (f_log fin)) ->
  exists o el, In (o, el) (file_records bl (opened (f_log fin))) /\ describes (i_tle i) el /\ (forall t, o = Some t -> good_name t -> trimmed (i_name i) t).
Proof.
  intros e0 l1 l2 nm fin bl A H R i Hi. destruct (run_trace e0 l1 l2 nm fin bl A H R) as (d & (_ & O) & _). rewrite Forall_forall in O. exact (O i Hi).
Qed.
