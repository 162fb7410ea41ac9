(** Reading element files: every record is examined once, in order, under its own name. *)
From Coq Require Import String Ascii ZArith List Bool Lia.
From Verif Require Import CLib ListLemmas FloatModel TleModel TleSpec TleProofs1 TleProofs4 TleProofs5 TleProofs6 IoModel SkymapModel SkymapSpec SkymapProofs1 SkymapProofs2 SkymapProofs3 SkymapProofs4.
Import ListNotations.
Open Scope Z_scope.

(** ** Lines delivered by fgets *)
Lemma fgets_line : forall cap t room cur l, ~ In 10 t -> (length t < room)%nat ->
  fgets_go cap room cur (t ++ 10 :: l) = (rev cur ++ t ++ [10]) :: fgets_go cap cap [] l.
Proof.
  intros cap t. induction t as [|c t IH]; intros room cur l N L; cbn [app fgets_go].
  - cbn [Z.eqb Pos.eqb rev]. reflexivity.
  - destruct (Z.eqb_spec c 10) as [->|_]; [exfalso; apply N; now left|]. cbn [length] in L. destruct room as [|[|r]]; [lia|lia|].
    rewrite IH; [|intro K; apply N; now right|lia]. cbn [rev]. now rewrite <- app_assoc.
Qed.
Lemma fgets_last : forall cap t room cur, ~ In 10 t -> (length t < room)%nat -> fgets_go cap room cur t = match cur, t with [], [] => [] | _, _ => [rev cur ++ t] end.
Proof.
  intros cap t. induction t as [|c t IH]; intros room cur N L; cbn [fgets_go].
  - destruct cur; [reflexivity|]. now rewrite app_nil_r.
  - destruct (Z.eqb_spec c 10) as [->|_]; [exfalso; apply N; now left|]. cbn [length] in L. destruct room as [|[|r]]; [lia|lia|].
    rewrite IH; [|intro K; apply N; now right|lia]. cbn [rev]. rewrite <- app_assoc. now destruct cur.
Qed.
Definition chunk_of (t c : list Z) : Prop := c = t ++ [10] \/ c = t.
Definition short (cap : nat) (t : list Z) : Prop := ~ In 10 t /\ (length t < cap)%nat.
Lemma fgets_lines : forall cap ts, Forall (short cap) ts -> fgets_seq cap (flat_map (fun t => t ++ [10]) ts) = map (fun t => t ++ [10]) ts.
Proof.
  intros cap ts F. unfold fgets_seq. induction F as [|t ts (N & L) F IH]; [reflexivity|]. cbn [flat_map map]. rewrite <- app_assoc. cbn [app].
  rewrite fgets_line by assumption. cbn [rev app]. now rewrite IH.
Qed.
Lemma fgets_lines_last : forall cap ts t, Forall (short cap) ts -> short cap t ->
  fgets_seq cap (flat_map (fun t => t ++ [10]) ts ++ t) = map (fun t => t ++ [10]) ts ++ match t with [] => [] | _ => [t] end.
Proof.
  intros cap ts t F (N & L). unfold fgets_seq. induction F as [|u ts (N' & L') F IH].
  - cbn [flat_map map app]. rewrite fgets_last by assumption. destruct t; reflexivity.
  - cbn [flat_map map app]. rewrite <- !app_assoc. cbn [app]. rewrite fgets_line by assumption. cbn [rev app]. now rewrite IH.
Qed.
(** Either form: the texts, the last one perhaps without newline, perhaps lost when it is empty and has none. *)
Lemma snoc_cases : forall {A} (l : list A), l = [] \/ exists r x, l = r ++ [x].
Proof. intros A l. destruct (rev l) as [|x r] eqn:E; [left|right; exists (rev r), x]; rewrite <- (rev_involutive l), E; reflexivity. Qed.
Lemma fgets_either : forall cap ts contents, Forall (short cap) ts ->
  contents = flat_map (fun t => t ++ [10]) ts \/ contents ++ [10] = flat_map (fun t => t ++ [10]) ts ->
  exists ts', Forall2 chunk_of ts' (fgets_seq cap contents) /\ (ts = ts' \/ ts = ts' ++ [[]]).
Proof.
  intros cap ts contents F [->|H].
  - exists ts. rewrite fgets_lines by exact F. split; [|now left]. clear F. induction ts; constructor; [now left|assumption].
  - destruct (snoc_cases ts) as [->|(r & x & ->)]; [destruct contents; discriminate H|].
    rewrite flat_map_app in H. cbn [flat_map] in H. rewrite app_nil_r, app_assoc in H. apply app_inj_tail in H. destruct H as [-> _].
    apply Forall_app in F. destruct F as [F1 F2]. inversion F2 as [|? ? F3 _]; subst. rewrite fgets_lines_last by assumption.
    assert (M: Forall2 chunk_of r (map (fun t => t ++ [10]) r)) by (clear; induction r; constructor; [now left|assumption]).
    destruct x as [|c x].
    + exists r. rewrite app_nil_r. split; [exact M|now right].
    + exists (r ++ [c :: x]). split; [|now left]. apply Forall2_app; [exact M|]. constructor; [now right|constructor].
Qed.

(** ** The layout of a line does not depend on what follows in the buffer *)
Lemma col_app : forall l x i, (i < length l)%nat -> col (l ++ x) i = col l i.
Proof. intros. unfold col. now apply app_nth1. Qed.
Lemma field_app : forall l x a w, (a + w <= length l)%nat -> field (l ++ x) a w = field l a w.
Proof.
  intros l x a w L. unfold field. rewrite skipn_app, firstn_app. replace (w - length (skipn a l))%nat with O by (rewrite skipn_length; lia). cbn [firstn]. now rewrite app_nil_r.
Qed.
Lemma layout1_swap : forall t a b x el, a <= 32 -> b <= 32 -> layout1 (t ++ [a]) el -> layout1 (t ++ b :: x) el.
Proof.
  intros t a b x el Ha Hb (L & D & C & R). assert (LT: (69 <= length t)%nat) by (rewrite app_length in L; cbn in L; lia).
  unfold layout1. unfold data_ok in *. rewrite !(col_app t [a]) in R by lia. rewrite !(field_app t [a]) in R by lia. rewrite !(col_app t (b :: x) 0), !(field_app t (b :: x)) by lia.
  rewrite !(col_app t (b :: x) 1), !(col_app t (b :: x) 7), !(col_app t (b :: x) 23), !(col_app t (b :: x) 32), !(col_app t (b :: x) 33), !(col_app t (b :: x) 34), !(col_app t (b :: x) 43), !(col_app t (b :: x) 62) by lia.
  split; [rewrite app_length; cbn; lia|]. split.
  { rewrite firstn_app in *. replace (68 - length t)%nat with O in * by lia. exact D. }
  split; [|exact R]. destruct (Nat.eq_dec (length t) 69) as [E|E].
  - unfold col. rewrite app_nth2 by lia. rewrite E, Nat.sub_diag. exact Hb.
  - rewrite col_app in * by lia. exact C.
Qed.
Lemma layout2_swap : forall t a b x el, a <= 32 -> b <= 32 -> layout2 (t ++ [a]) el -> layout2 (t ++ b :: x) el.
Proof.
  intros t a b x el Ha Hb (L & D & C & R). assert (LT: (69 <= length t)%nat) by (rewrite app_length in L; cbn in L; lia).
  unfold layout2. unfold data_ok in *. rewrite !(col_app t [a]) in R by lia. rewrite !(field_app t [a]) in R by lia. rewrite !(col_app t (b :: x) 0), !(field_app t (b :: x)) by lia.
  rewrite !(col_app t (b :: x) 1), !(col_app t (b :: x) 16), !(col_app t (b :: x) 25), !(col_app t (b :: x) 33), !(col_app t (b :: x) 42), !(col_app t (b :: x) 51), !(col_app t (b :: x) 54) by lia.
  split; [rewrite app_length; cbn; lia|]. split.
  { rewrite firstn_app in *. replace (68 - length t)%nat with O in * by lia. exact D. }
  split; [|exact R]. destruct (Nat.eq_dec (length t) 69) as [E|E].
  - unfold col. rewrite app_nth2 by lia. rewrite E, Nat.sub_diag. exact Hb.
  - rewrite col_app in * by lia. exact C.
Qed.
Lemma check_swap : forall t a x, (69 <= length t)%nat -> check_digit_ok (t ++ [a]) -> check_digit_ok (t ++ x).
Proof.
  intros t a x L H. unfold check_digit_ok in *. rewrite !col_app in * by lia. rewrite !firstn_app in *. replace (68 - length t)%nat with O in * by lia.
  cbn [firstn] in *. rewrite app_nil_r in *. exact H.
Qed.
Lemma check_digit_digit : forall l, check_digit_ok l -> digit (col l 68).
Proof. intros l H. unfold check_digit_ok in H. unfold digit. pose proof (Z.mod_pos_bound (total (firstn 68 l)) 10). lia. Qed.
Lemma pair_parses : forall t1 t2 el c1 c2 x1 x2 s, good_block (Pair t1 t2 el) -> chunk_of t1 c1 -> chunk_of t2 c2 ->
  exists t, parse_elements (c1 ++ 0 :: x1) (c2 ++ 0 :: x2) s = Ok (0, t) /\ describes t el.
Proof.
  intros t1 t2 el c1 c2 x1 x2 s (_ & _ & L1 & L2 & K1 & K2) C1 C2.
  assert (E1: (69 <= length t1)%nat) by (destruct L1 as (L & _); rewrite app_length in L; cbn in L; lia).
  assert (E2: (69 <= length t2)%nat) by (destruct L2 as (L & _); rewrite app_length in L; cbn in L; lia).
  assert (X1: exists b y, c1 ++ 0 :: x1 = t1 ++ b :: y /\ b <= 32) by (destruct C1 as [->| ->]; [exists 10, (0 :: x1); rewrite <- app_assoc|exists 0, x1]; split; [reflexivity|lia|reflexivity|lia]).
  assert (X2: exists b y, c2 ++ 0 :: x2 = t2 ++ b :: y /\ b <= 32) by (destruct C2 as [->| ->]; [exists 10, (0 :: x2); rewrite <- app_assoc|exists 0, x2]; split; [reflexivity|lia|reflexivity|lia]).
  destruct X1 as (b1 & y1 & -> & B1). destruct X2 as (b2 & y2 & -> & B2).
  apply (layout1_swap t1 10 b1 y1) in L1; [|lia|exact B1]. apply (layout2_swap t2 10 b2 y2) in L2; [|lia|exact B2].
  apply (check_swap t1 10 (b1 :: y1) E1) in K1. apply (check_swap t2 10 (b2 :: y2) E2) in K2.
  destruct (parse_ok _ _ el s L1 L2 (check_digit_digit _ K1) (check_digit_digit _ K2)) as (o1 & o2 & s' & I1 & I2 & P & D).
  assert (o1 = true) as -> by now apply I1. assert (o2 = true) as -> by now apply I2. exists s'. split; [exact P|exact D].
Qed.

(** ** What a record leaves in the log *)
Definition from_record (s : st) (t : tle_t) (L : list event) : Prop :=
  examined L = [] /\ opened L = [] /\ (forall i, In i (listing L) -> i_tle i = t /\ c_text (s_name s) = Ok (i_name i)).
Lemma tf_log : forall e argv il t s f, tf e argv il t s f -> exists L, s_log (flow_st f) = s_log s ++ L /\ from_record s t L.
Proof.
  intros e argv il t s f H.
  destruct H as [code C1 C2|code sf d C1 C2 C3 C4|code sf d C1 C2 C3 C4|code sf d s1 f0 C1 C2 C3 C4 C5 C6 C7]; cbn [flow_st].
  - exists []. rewrite app_nil_r. repeat split; contradiction.
  - exists []. rewrite app_nil_r. repeat split; contradiction.
  - exists [EvDup code]. repeat split; contradiction.
  - set (n := e_num e (processed s) t) in *.
    assert (L1: s_log s1 = s_log s ++ [EvNew code t n]) by (rewrite C5; reflexivity).
    assert (NM: s_name s1 = s_name s) by (rewrite C5; reflexivity).
    assert (U: from_record s t [EvNew code t n]) by (repeat split; contradiction).
    destruct C7 as [f1 N E|N Al|f1 N Al R].
    + apply exit_with_inv in E. destruct E as (_ & s' & -> & (tx & _ & ->)). eexists. split; [exact L1|exact U].
    + eexists. split; [exact L1|exact U].
    + destruct R as [R1|R1 R2 R3|desig name en s' f1 R1 R2 R3 R4 R5 R6 R7 R8|R1 R2 R3]; cbn [flow_st].
      * eexists. split; [exact L1|exact U].
      * eexists. split; [exact L1|exact U].
      * assert (L2: s_log s' = s_log s ++ [EvNew code t n; EvList name desig t n]).
        { rewrite R6. unfold listed, cut16. destruct (p_info_only (e_p e)); cbn [set_counts note print set_lines s_log]; rewrite L1, <- app_assoc; reflexivity. }
        exists [EvNew code t n; EvList name desig t n]. split; [rewrite R7; destruct (s_sfound s1 || (s_found s1 + 1 =? p_max_sats (e_p e))); exact L2|].
        split; [reflexivity|]. split; [reflexivity|]. intros i [<-|[]]. cbn [i_tle i_name]. split; [reflexivity|]. now rewrite <- NM.
      * eexists. split; [exact L1|exact U].
Qed.
Lemma tf_sized : forall e argv il t s f, sized s -> tf e argv il t s f -> sized (flow_st f).
Proof.
  intros e argv il t s f T H.
  destruct H as [code C1 C2|code sf d C1 C2 C3 C4|code sf d C1 C2 C3 C4|code sf d s1 f0 C1 C2 C3 C4 C5 C6 C7]; cbn [flow_st]; try exact T.
  assert (T1: sized s1) by (rewrite C5; exact T).
  destruct C7 as [f1 N E|N Al|f1 N Al R]; try exact T1.
  - apply exit_with_inv in E. destruct E as (_ & s' & -> & (tx & _ & ->)). exact T1.
  - destruct R as [R1|R1 R2 R3|desig name en s' f1 R1 R2 R3 R4 R5 R6 R7 R8|R1 R2 R3]; cbn [flow_st]; try exact T1.
    + now apply sized_cut.
    + assert (T2: sized s') by (rewrite R6; apply sized_cut in T1; unfold listed; destruct (p_info_only (e_p e)); exact T1).
      rewrite R7. destruct (s_sfound s1 || (s_found s1 + 1 =? p_max_sats (e_p e))); exact T2.
    + now apply sized_cut.
Qed.
(** End of the loop body: the line just read becomes line1. *)
Lemma store_text : forall b c b', c_store b c = Ok b' -> exists x, b' = c ++ 0 :: x.
Proof. intros b c b' H. unfold c_store in H. destruct (S (length c) <=? length b)%nat; [|discriminate H]. apply ok_inj in H. subst b'. now eexists. Qed.
Lemma move_line1 : forall s s' c x, move s s' -> s_line2 s = c ++ 0 :: x -> ~ In 0 c -> exists y, s_line1 s' = c ++ 0 :: y.
Proof.
  intros s s' c x (l1 & nm & -> & (t2 & A & B) & _) E N. cbn [set_name set_lines s_line1]. rewrite E, c_text_nul in A by exact N. apply ok_inj in A. subst t2.
  now apply store_text in B.
Qed.
Lemma move_log : forall s s', move s s' -> s_log s' = s_log s.
Proof. intros s s' (l1 & nm & -> & _). reflexivity. Qed.

(** A line that cannot be a second element line. *)
Lemma col0 : forall c x, col (c ++ 0 :: x) 0 = hd 0 c.
Proof. intros [|a c] x; reflexivity. Qed.
Lemma not_second : forall e argv il c s f, sized s -> ps e argv il c s f -> hd 0 c <> 50 -> ~ In 0 c ->
  exists s' x, f = Next s' /\ s_log s' = s_log s /\ sized s' /\ s_line1 s' = c ++ 0 :: x.
Proof.
  intros e argv il c s f T P N Z. destruct P as [l2 code t f H0 H1 H2 (s' & -> & H3)|l2 t f0 f H0 H1 H2 H3].
  - assert (T2: sized (set_lines (s_line1 s) l2 s)) by (destruct T as (A & B & C); apply store_length in H0; unfold sized, arrays; cbn [set_lines s_line1 s_line2 s_name]; repeat split; congruence).
    destruct (store_text _ _ _ H0) as (x & E). destruct (move_line1 _ _ c x H3 E Z) as (y & Y). exists s', y. split; [reflexivity|]. split; [exact (move_log _ _ H3)|]. split; [now apply (sized_move _ _ T2)|exact Y].
  - exfalso. destruct (store_text _ _ _ H0) as (x & E). apply parse_codes in H1. destruct H1 as [(K & _)|(k1 & k2 & S1 & S2 & _)]; [lia|].
    rewrite E, col0 in S2. contradiction.
Qed.
Lemma second_line : forall e argv il t1 t2 el c1 x1 c2 s f, sized s -> good_block (Pair t1 t2 el) -> chunk_of t1 c1 -> chunk_of t2 c2 ->
  s_line1 s = c1 ++ 0 :: x1 -> ps e argv il c2 s f ->
  sized (flow_st f) /\ exists t L, describes t el /\ s_log (flow_st f) = s_log s ++ EvExam t :: L /\ from_record s t L.
Proof.
  intros e argv il t1 t2 el c1 x1 c2 s f T G C1 C2 E1 P. destruct P as [l2 code t f H0 H1 H2 (s' & -> & H3)|l2 t f0 f H0 H1 H2 H3]; destruct (store_text _ _ _ H0) as (x2 & E2).
  - exfalso. destruct (pair_parses t1 t2 el c1 c2 x1 x2 (e_tle0 e) G C1 C2) as (t' & Pt & _). rewrite <- E1, <- E2, H1 in Pt. apply ok_inj in Pt. congruence.
  - destruct (pair_parses t1 t2 el c1 c2 x1 x2 (e_tle0 e) G C1 C2) as (t' & Pt & D). rewrite <- E1, <- E2, H1 in Pt. apply ok_inj in Pt. injection Pt as <-.
    assert (T0: sized (note (EvExam t) (set_lines (s_line1 s) l2 s))) by (destruct T as (A & B & C); apply store_length in H0; unfold sized, arrays; cbn [note set_lines s_line1 s_line2 s_name]; repeat split; congruence).
    pose proof (tf_sized _ _ _ _ _ _ T0 H2) as S0. destruct (tf_log _ _ _ _ _ _ H2) as (L & L0 & R). cbn [note set_lines s_log] in L0.
    assert (R': from_record s t L) by exact R.
    assert (X: exists L', s_log (flow_st f0) = s_log s ++ EvExam t :: L' /\ from_record s t L') by (exists L; split; [rewrite L0, <- app_assoc; reflexivity|exact R']).
    clear L L0 R R'. destruct X as (L & L0 & R). destruct f0 as [s1|s1|s1|k s1]; cbn [flow_st] in *.
    + destruct H3 as (s' & -> & Mv). cbn [flow_st]. split; [exact (sized_move _ _ S0 Mv)|]. exists t, L. rewrite (move_log _ _ Mv). tauto.
    + subst f. split; [exact S0|]. exists t, L. tauto.
    + subst f. split; [exact S0|]. exists t, L. tauto.
    + subst f. split; [exact S0|]. exists t, L. tauto.
Qed.

(** ** Names *)
Lemma space_iff : forall c, is_space c = true <-> white c.
Proof. intro c. unfold is_space, white. rewrite orb_true_iff, andb_true_iff, Z.eqb_eq, !Z.leb_le. tauto. Qed.
Lemma drop_space_spec : forall l, exists w, l = w ++ drop_space l /\ Forall white w /\ ~ white (hd 0 (drop_space l)).
Proof.
  induction l as [|c l (w & E & F & N)]; cbn [drop_space].
  - exists []. repeat split; [constructor|]. unfold white. cbn. lia.
  - destruct (is_space c) eqn:S.
    + exists (c :: w). split; [cbn; now rewrite <- E|]. split; [constructor; [now apply space_iff|exact F]|exact N].
    + exists []. split; [reflexivity|]. split; [constructor|]. cbn. intro K. apply space_iff in K. congruence.
Qed.
Lemma last_rev : forall (l : list Z) d, last (rev l) d = hd d l.
Proof. intros [|a l] d; [reflexivity|]. cbn [rev hd]. apply last_last. Qed.
Lemma trim_text : forall c r t, chunk_of t (c :: r) -> Exists (fun c => ~ white c) t -> trimmed (c :: rev (drop_space (rev r))) t.
Proof.
  intros c r t C X. destruct (drop_space_spec (rev r)) as (w & E & F & N). set (k := drop_space (rev r)) in *. clearbody k.
  assert (R: r = rev k ++ rev w) by (rewrite <- rev_app_distr, <- E, rev_involutive; reflexivity). clear E.
  assert (FW: Forall white (rev w)) by (apply Forall_rev; exact F). 
  assert (W: Forall white (rev w)) by exact FW.
  assert (NW: ~ white (last (c :: rev k) 32)).
  { destruct k as [|a k].
    - cbn in R |- *. subst r. intro Wc. assert (A: Forall white (c :: rev w)) by (constructor; assumption).
      assert (B: Forall white t). { destruct C as [C| <-]; [|exact A]. rewrite C in A. apply Forall_app in A. tauto. }
      apply Exists_exists in X. destruct X as (y & Iy & Ny). rewrite Forall_forall in B. now apply Ny, B.
    - replace (last (c :: rev (a :: k)) 32) with a; [exact N|]. cbn [rev]. rewrite app_comm_cons. now rewrite last_last. }
  unfold trimmed. destruct C as [C| <-].
  - destruct (snoc_cases (rev w)) as [E|(v & y & E)].
    + exfalso. rewrite E, app_nil_r in R. subst r. rewrite C in NW. rewrite last_last in NW. apply NW. unfold white. lia.
    + rewrite E in *. exists v. rewrite R in C. change (c :: rev k ++ v ++ [y]) with ((c :: rev k) ++ v ++ [y]) in C. rewrite app_assoc in C. apply app_inj_tail in C. destruct C as [C _]. rewrite <- C. split; [reflexivity|]. apply Forall_app in W. tauto.
  - exists (rev w). split; [rewrite R; reflexivity|]. tauto.
Qed.
Lemma strncpy_whole : forall n c x, ~ In 0 c -> (length c < n)%nat -> strncpy_bytes (c ++ 0 :: x) n = Ok (c ++ repeat 0 (n - length c)).
Proof.
  induction n as [|n IH]; intros c x N L; [lia|]. destruct c as [|a c]; cbn [app strncpy_bytes].
  - reflexivity.
  - destruct (Z.eqb_spec a 0) as [->|_]; [exfalso; apply N; now left|]. cbn [length] in L. rewrite IH; [reflexivity|intro K; apply N; now right|lia].
Qed.
Lemma take_name_own : forall c x nm r t, chunk_of t c -> good_name t -> take_name (c ++ 0 :: x) nm = Ok r -> exists a, c_text r = Ok a /\ trimmed a t.
Proof.
  intros c x nm r t C (L & Z & N1 & N2 & X) H.
  assert (ZC: ~ In 0 c) by (destruct C as [->| ->]; [intro K; apply in_app_or in K; destruct K as [K|[K|[]]]; [tauto|discriminate K]|exact Z]).
  assert (LC: (length c <= 22)%nat) by (destruct C as [->| ->]; [rewrite app_length; cbn; lia|lia]).
  unfold take_name in H. inv_bind H n Hn. unfold c_strncpy in Hn. destruct (23 <=? length nm)%nat; [|discriminate Hn]. rewrite strncpy_whole in Hn by (assumption || lia). cbn [bind] in Hn.
  apply ok_inj in Hn. replace (23 - length c)%nat with (S (22 - length c)) in Hn by lia. cbn [repeat] in Hn. rewrite <- app_assoc in Hn. cbn [app] in Hn. subst n.
  unfold trimend in H. rewrite c_text_nul in H by exact ZC. cbn [bind] in H. destruct c as [|a c]; [discriminate H|].
  apply store_text in H. destruct H as (y & ->). exists (a :: rev (drop_space (rev c))). split; [|now apply trim_text].
  apply c_text_nul. intros [K|K]; [apply ZC; now left|]. apply ZC. right. apply in_rev in K. apply in_rev.
  destruct (drop_space_spec (rev c)) as (w & -> & _). apply in_or_app. now right.
Qed.
Definition name_is (o : option (list Z)) (s : st) : Prop :=
  forall t, o = Some t -> good_name t -> exists a, c_text (s_name s) = Ok a /\ trimmed a t.
Lemma note_name : forall e argv il t c s s', ps e argv il c s (Next s') -> chunk_of t c -> good_text t -> hd 0 c <> 50 -> name_is (Some t) s'.
Proof.
  intros e argv il t c s s' P C G N t0 E GN. injection E as <-.
  assert (ZC: ~ In 0 c) by (destruct G as (_ & Z & _); destruct C as [->| ->]; [intro K; apply in_app_or in K; destruct K as [K|[K|[]]]; [tauto|discriminate K]|exact Z]).
  remember (Next s') as f eqn:Ef. destruct P as [l2 code t' f H0 H1 H2 (s'' & -> & H3)|l2 t' f0 f H0 H1 H2 H3].
  - injection Ef as ->. destruct (store_text _ _ _ H0) as (x & E2). destruct H3 as (l1 & nm & -> & _ & (k & K1 & K2)). cbn [set_name set_lines s_line2 s_name] in *.
    assert (C0: k = hd 0 c). { rewrite E2 in K1. unfold rd in K1. destruct c as [|a c]; cbn in K1; injection K1 as <-; reflexivity. }
    assert (N1: hd 0 c <> 49). { destruct GN as (_ & _ & N1 & _ & X). destruct t as [|a t]; [inversion X|]. intro K. destruct C as [->| ->]; cbn in K; subst a; now apply (N1 t). }
    destruct K2 as [(_ & _ & K2)|([K2|K2] & _)]; [|congruence|congruence]. rewrite E2 in K2. exact (take_name_own c x _ _ t C GN K2).
  - exfalso. destruct (store_text _ _ _ H0) as (x & E2). apply parse_codes in H1. destruct H1 as [(K & _)|(k1 & k2 & S1 & S2 & _)]; [lia|]. rewrite E2, col0 in S2. contradiction.
Qed.

(** ** All blocks *)
Definition els (bs : list block) : list elements := flat_map block_elements bs.
Definition own (rs : list (option (list Z) * elements)) (i : item) : Prop :=
  exists o el, In (o, el) rs /\ describes (i_tle i) el /\ (forall t, o = Some t -> good_name t -> trimmed (i_name i) t).
Definition walked (done : bool) (rs : list (option (list Z) * elements)) (L : list event) : Prop :=
  opened L = [] /\ (exists k, Forall2 describes (examined L) (firstn k (map snd rs)) /\ (done = true -> (length rs <= k)%nat)) /\ Forall (own rs) (listing L).
Lemma records_els : forall bs o, map snd (records o bs) = els bs.
Proof. induction bs as [|[t|t1 t2 el] bs IH]; intro o; cbn; [reflexivity|apply IH|]. f_equal. apply IH. Qed.
Lemma hd_chunk : forall t c, chunk_of t c -> (forall r, t <> 50 :: r) -> hd 0 c <> 50.
Proof. intros t c [->| ->] N K; destruct t as [|a t]; cbn in K; try discriminate K; subst a; now apply (N t). Qed.
Lemma chunk_no_nul : forall t c, chunk_of t c -> good_text t -> ~ In 0 c.
Proof. intros t c C (_ & Z & _). destruct C as [->| ->]; [intro K; apply in_app_or in K; destruct K as [K|[K|[]]]; [tauto|discriminate K]|exact Z]. Qed.
Lemma pair_hd : forall t1 t2 el c, good_block (Pair t1 t2 el) -> chunk_of t1 c -> hd 0 c <> 50.
Proof.
  intros t1 t2 el c (_ & _ & (L & _ & _ & K & _) & _) C H. rewrite app_length in L. cbn in L. destruct t1 as [|a t1]; [cbn in L; lia|]. unfold col in K. cbn in K. subst a.
  destruct C as [->| ->]; discriminate H.
Qed.
Lemma walked_cons : forall d el o rs t L M, describes t el -> opened L = [] -> examined L = [] ->
  (forall i, In i (listing L) -> own [(o, el)] i) -> walked d rs M -> walked d ((o, el) :: rs) (EvExam t :: L ++ M).
Proof.
  intros d el o rs t L M D O X I (O' & (k & F & K) & W). split; [|split].
  - cbn. fold (opened (L ++ M)). rewrite opened_app, O, O'. reflexivity.
  - exists (S k). split; [|intro Y; cbn; apply K in Y; lia]. cbn. fold (examined (L ++ M)). rewrite examined_app, X. cbn. now constructor.
  - cbn. fold (listing (L ++ M)). rewrite listing_app. apply Forall_app. split.
    + apply Forall_forall. intros i Hi. destruct (I i Hi) as (o' & el' & [E|[]] & Q). exists o', el'. split; [left; exact E|exact Q].
    + rewrite Forall_forall in *. intros i Hi. destruct (W i Hi) as (o' & el' & E & Q). exists o', el'. split; [right; exact E|exact Q].
Qed.
Lemma walked_stop : forall el o rs t L, describes t el -> opened L = [] -> examined L = [] ->
  (forall i, In i (listing L) -> own [(o, el)] i) -> walked false ((o, el) :: rs) (EvExam t :: L).
Proof.
  intros el o rs t L D O X I. split; [|split].
  - exact O.
  - exists 1%nat. split; [|discriminate]. cbn. fold (examined L). rewrite X. constructor; [exact D|constructor].
  - cbn. fold (listing L). apply Forall_forall. intros i Hi. destruct (I i Hi) as (o' & el' & [E|[]] & Q). exists o', el'. split; [left; exact E|exact Q].
Qed.
Lemma own_of_record : forall s t L o el, from_record s t L -> describes t el -> name_is o s -> forall i, In i (listing L) -> own [(o, el)] i.
Proof.
  intros s t L o el (_ & _ & R) D N i Hi. destruct (R i Hi) as (A & B). exists o, el. split; [now left|]. split; [now rewrite A|].
  intros t0 E G. destruct (N t0 E G) as (a & Ha & Tr). congruence.
Qed.
Lemma name_is_none : forall s, name_is None s.
Proof. intros s t E. discriminate E. Qed.
Lemma name_is_not_second : forall e argv il o c s s', ps e argv il c s (Next s') -> hd 0 c = 49 -> ~ In 0 c -> name_is o s -> name_is o s'.
Proof.
  intros e argv il o c s s' P H Z N. remember (Next s') as f eqn:Ef. destruct P as [l2 code t' f H0 H1 H2 (s'' & -> & H3)|l2 t' f0 f H0 H1 H2 H3].
  - injection Ef as ->. destruct (store_text _ _ _ H0) as (x & E2). destruct H3 as (l1 & nm & -> & _ & (k & K1 & K2)). cbn [set_name set_lines s_line2 s_name] in *.
    assert (C0: k = hd 0 c). { rewrite E2 in K1. unfold rd in K1. destruct c as [|a c]; cbn in K1; injection K1 as <-; reflexivity. }
    destruct K2 as [(K2 & _ & _)|(_ & ->)]; [congruence|]. exact N.
  - exfalso. destruct (store_text _ _ _ H0) as (x & E2). apply parse_codes in H1. destruct H1 as [(K & _)|(k1 & k2 & S1 & S2 & _)]; [lia|]. rewrite E2, col0, H in S2. discriminate S2.
Qed.
Lemma pair_hd1 : forall t1 t2 el c, good_block (Pair t1 t2 el) -> chunk_of t1 c -> hd 0 c = 49.
Proof.
  intros t1 t2 el c (_ & _ & (L & _ & _ & K & _) & _) C. rewrite app_length in L. cbn in L. destruct t1 as [|a t1]; [cbn in L; lia|]. unfold col in K. cbn in K. subst a.
  destruct C as [->| ->]; reflexivity.
Qed.
Lemma walked_nil : forall d, walked d [] [].
Proof. intro d. split; [reflexivity|]. split; [exists O; split; [constructor|intros _; apply le_n]|constructor]. Qed.

Lemma blocks_run : forall e argv il bs o chunks s f, Forall good_block bs -> Forall2 chunk_of (flat_map block_texts bs) chunks -> sized s -> name_is o s ->
  passes e argv il chunks s = Ok f ->
  (live f = true -> sized (flow_st f)) /\ exists L, s_log (flow_st f) = s_log s ++ L /\ walked (live f) (records o bs) L.
Proof.
  intros e argv il bs. induction bs as [|b bs IH]; intros o chunks s f G C T NM R.
  - inversion C; subst. injection R as <-. cbn [live flow_st]. split; [intros _; exact T|]. exists []. rewrite app_nil_r. split; [reflexivity|]. apply walked_nil.
  - inversion G as [|? ? Gb G']; subst. destruct b as [t|t1 t2 el].
    + cbn [flat_map block_texts app] in C. inversion C as [|? c ? chunks' C0 C']; subst. cbn [passes] in R. inv_bind R f0 R0. apply pass_ps in R0.
      destruct Gb as (Gt & Gn). pose proof (hd_chunk t c C0 Gn) as Hd. destruct (not_second _ _ _ _ _ _ T R0 Hd (chunk_no_nul _ _ C0 Gt)) as (s' & x & -> & Lg & T' & _).
      pose proof (note_name _ _ _ t c s s' R0 C0 Gt Hd) as NM'.
      destruct (IH (Some t) chunks' s' f G' C' T' NM' R) as (Sz & L & E & W). split; [exact Sz|]. exists L. rewrite <- Lg. split; [exact E|exact W].
    + cbn [flat_map block_texts app] in C. inversion C as [|? c1 ? chunks1 C1 C']; subst. inversion C' as [|? c2 ? chunks2 C2 C'']; subst. cbn [passes] in R.
      inv_bind R f0 R0. apply pass_ps in R0. pose proof Gb as (G1 & G2 & _).
      destruct (not_second _ _ _ _ _ _ T R0 (pair_hd _ _ _ _ Gb C1) (chunk_no_nul _ _ C1 G1)) as (s' & x & -> & Lg & T' & E1).
      pose proof (name_is_not_second _ _ _ o c1 s s' R0 (pair_hd1 _ _ _ _ Gb C1) (chunk_no_nul _ _ C1 G1) NM) as NM'.
      inv_bind R f1 R1. apply pass_ps in R1. destruct (second_line _ _ _ t1 t2 el c1 x c2 s' f1 T' Gb C1 C2 E1 R1) as (S1 & t & L & D & E2 & FR).
      pose proof (own_of_record s' t L o el FR D NM') as OW. destruct FR as (FX & FO & _). cbn [records].
      assert (GO: forall s1, f1 = Next s1 \/ f1 = Continue s1 -> passes e argv il chunks2 s1 = Ok f ->
        (live f = true -> sized (flow_st f)) /\ exists L, s_log (flow_st f) = s_log s ++ L /\ walked (live f) ((o, el) :: records None bs) L).
      { intros s1 F1 Rs. assert (FS: flow_st f1 = s1) by (destruct F1 as [->| ->]; reflexivity). rewrite FS in *.
        destruct (IH None chunks2 s1 f G' C'' S1 (name_is_none s1) Rs) as (Sz & M & E3 & W). split; [exact Sz|]. exists (EvExam t :: L ++ M).
        split; [rewrite E3, E2, Lg, <- app_assoc; reflexivity|]. now apply walked_cons. }
      destruct f1 as [s1|s1|s1|k s1].
      * apply (GO s1); [now left|exact R].
      * apply (GO s1); [now right|exact R].
      * injection R as <-. cbn [live flow_st] in *. split; [discriminate|]. exists (EvExam t :: L). split; [now rewrite E2, Lg|]. now apply walked_stop.
      * injection R as <-. cbn [live flow_st] in *. split; [discriminate|]. exists (EvExam t :: L). split; [now rewrite E2, Lg|]. now apply walked_stop.
Qed.
