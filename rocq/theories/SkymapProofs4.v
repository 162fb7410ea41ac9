(** Duplicate list and filters. *)
From Coq Require Import String Ascii ZArith List Bool Lia Reals.
From Flocq Require Import IEEE754.BinarySingleNaN.
From Verif Require Import CLib ListLemmas FloatModel TleModel TleSpec TleProofs1 TleProofs5 TleProofs6 IoModel SkymapModel SkymapSpec SkymapProofs1 SkymapProofs2 SkymapProofs3.
Import ListNotations.
Open Scope Z_scope.

(** ** Buffers keep their size *)
Definition sized (s : st) : Prop := arrays (s_line1 s) (s_line2 s) (s_name s).
Lemma store_length : forall b t b', c_store b t = Ok b' -> length b' = length b.
Proof.
  intros b t b' H. unfold c_store in H. destruct (Nat.leb_spec (S (length t)) (length b)); [|discriminate H]. apply ok_inj in H. subst b'.
  rewrite app_length. cbn [length]. rewrite skipn_length. lia.
Qed.
Lemma strncpy_bytes_length : forall n s t, strncpy_bytes s n = Ok t -> length t = n.
Proof.
  induction n as [|n IH]; intros s t H; [apply ok_inj in H; subst t; reflexivity|]. cbn [strncpy_bytes] in H. destruct s as [|c s]; [discriminate H|].
  destruct (c =? 0); [injection H as <-; cbn [length]; now rewrite repeat_length|]. inv_bind H t' H'. injection H as <-. cbn [length]. f_equal. now apply (IH s).
Qed.
Lemma strncpy_length : forall d s n r, c_strncpy d s n = Ok r -> length r = length d.
Proof.
  intros d s n r H. unfold c_strncpy in H. destruct (Nat.leb_spec n (length d)); [|discriminate H]. inv_bind H t H'. apply ok_inj in H. subst r.
  apply strncpy_bytes_length in H'. rewrite app_length, skipn_length. lia.
Qed.
Lemma trimend_length : forall b r, trimend b = Ok r -> length r = length b.
Proof. intros b r H. unfold trimend in H. inv_bind H t H'. destruct t; [discriminate H|]. now apply store_length in H. Qed.
Lemma take_name_length : forall l nm r, take_name l nm = Ok r -> length r = length nm.
Proof. intros l nm r H. unfold take_name in H. inv_bind H n H'. apply trimend_length in H. apply strncpy_length in H'. congruence. Qed.
Lemma sized_move : forall s s', sized s -> move s s' -> sized s'.
Proof.
  intros s s' (A & B & C) (l1 & nm & -> & (t2 & _ & S) & (c & _ & D)). unfold sized, arrays. cbn [set_name set_lines s_line1 s_line2 s_name].
  apply store_length in S. split; [congruence|]. split; [exact B|]. destruct D as [(_ & _ & D)|(_ & ->)]; [apply take_name_length in D; congruence|exact C].
Qed.
Lemma sized_cut : forall s, sized s -> sized (cut16 s).
Proof.
  intros s (A & B & C). unfold sized, arrays, cut16. cbn [set_lines s_line1 s_line2 s_name]. split; [|tauto].
  rewrite app_length. cbn [length]. rewrite firstn_length, skipn_length. lia.
Qed.

(** ** The code of an accepted record has five characters *)
Lemma parse_zero_data : forall l1 l2 s t, length l1 = 100%nat -> length l2 = 100%nat -> parse_elements l1 l2 s = Ok (0, t) ->
  line_start l1 /\ data_ok l1 /\ line_start l2 /\ data_ok l2 /\ col l1 0 = 49 /\ col l2 0 = 50 /\ col l1 69 <= 32 /\ col l2 69 <= 32.
Proof.
  intros l1 l2 s t A B H. apply parse_codes in H. destruct H as [(K & _)|(k1 & k2 & S1 & S2 & H1 & H2 & P1 & P2 & _)]; [lia|].
  assert (X: forall l k, length l = 100%nat -> tle_checksum l = Ok k -> 0 <= k -> line_start l /\ data_ok l /\ col l 69 <= 32).
  { intros l k L E P. destruct (checksum_cases l ltac:(lia)) as (C1 & C2 & C3 & C4).
    assert (LS: line_start l). { unfold line_start. destruct (Z.eq_dec (col l 1) 32); [|rewrite C1 in E; [injection E as <-; lia|intros [_ Q]; contradiction]].
      destruct (Z.eq_dec (col l 0) 49); [tauto|]. destruct (Z.eq_dec (col l 0) 50); [tauto|]. rewrite C1 in E; [injection E as <-; lia|intros [[Q|Q] _]; contradiction]. }
    assert (DO: data_ok l).
    { destruct (Forall_dec printable (fun c => ltac:(unfold printable; destruct (Z_le_dec 32 c); destruct (Z_le_dec c 122); [left; lia|right; lia|right; lia|right; lia])) (firstn 68 l)) as [D|D]; [exact D|].
      rewrite C2 in E; [injection E as <-; lia|exact LS|exact D]. }
    split; [exact LS|]. split; [exact DO|]. destruct (Z_le_dec (col l 69) 32); [assumption|]. rewrite C3 in E; [injection E as <-; lia| | |]; try assumption; lia. }
  destruct (X l1 k1 A H1 P1) as (X1 & X2 & X3). destruct (X l2 k2 B H2 P2) as (Y1 & Y2 & Y3). tauto.
Qed.
Lemma strncpy_no_nul : forall n s, (n <= length s)%nat -> ~ In 0 (firstn n s) -> strncpy_bytes s n = Ok (firstn n s).
Proof.
  induction n as [|n IH]; intros s L H; [reflexivity|]. destruct s as [|c s]; [cbn in L; lia|]. cbn [firstn strncpy_bytes] in *.
  destruct (Z.eqb_spec c 0) as [->|N]; [exfalso; apply H; now left|]. rewrite IH; [reflexivity|cbn in L; lia|]. intro K. apply H. now right.
Qed.
Lemma c_text_nul : forall t r, ~ In 0 t -> c_text (t ++ 0 :: r) = Ok t.
Proof.
  induction t as [|c t IH]; intros r H; [reflexivity|]. cbn [app c_text]. destruct (Z.eqb_spec c 0) as [->|N]; [exfalso; apply H; now left|].
  rewrite IH; [reflexivity|]. intro K. apply H. now right.
Qed.
Lemma code_field : forall s, length (s_line1 s) = 100%nat -> data_ok (s_line1 s) -> code_of s = Ok (field (s_line1 s) 2 5) /\ length (field (s_line1 s) 2 5) = 5%nat.
Proof.
  intros s L D. assert (F: ~ In 0 (field (s_line1 s) 2 5)).
  { intro K. unfold field in K. unfold data_ok in D. rewrite Forall_forall in D. assert (I: In 0 (firstn 68 (s_line1 s))).
    { replace 68%nat with (2 + 66)%nat by reflexivity. rewrite <- (firstn_skipn 2 (firstn (2 + 66) (s_line1 s))). rewrite firstn_firstn. change (Init.Nat.min 2 (2 + 66)) with 2%nat.
      rewrite skipn_firstn_comm. change (2 + 66 - 2)%nat with 66%nat. apply in_or_app. right. 
      rewrite <- (firstn_skipn 5 (firstn 66 (skipn 2 (s_line1 s)))). rewrite firstn_firstn. apply in_or_app. now left. }
    apply D in I. unfold printable in I. lia. }
  unfold code_of, adv, field in *. rewrite strncpy_no_nul; [|rewrite skipn_length; lia|exact F]. cbn [bind]. rewrite c_text_nul by exact F.
  split; [reflexivity|]. rewrite firstn_length, skipn_length. lia.
Qed.

(** ** Searching the list of codes *)
Definition keys (cs : list (list Z)) : list Z := flat_map (fun c => c ++ [44]) cs.
Lemma prefixb_iff : forall a b, prefixb a b = true <-> exists r, b = a ++ r.
Proof.
  induction a as [|x a IH]; intro b; cbn [prefixb]; [split; [intros _; now exists b|reflexivity]|].
  destruct b as [|y b]; [split; [discriminate|intros (r & H); discriminate H]|]. rewrite andb_true_iff, Z.eqb_eq, IH. split.
  - intros (-> & r & ->). now exists r.
  - intros (r & H). injection H as -> ->. split; [reflexivity|now exists r].
Qed.
Lemma strstr_iff : forall h n, strstrb h n = true <-> exists a b, h = a ++ n ++ b.
Proof.
  induction h as [|x h IH]; intro n; cbn [strstrb]; rewrite orb_true_iff, prefixb_iff.
  - split; [intros [(r & H)|H]; [exists [], r; exact H|discriminate H]|]. intros (a & b & H). left. destruct a; [now exists b|discriminate H].
  - rewrite IH. split.
    + intros [(r & H)|(a & b & ->)]; [exists [], r; exact H|]. exists (x :: a), b. reflexivity.
    + intros (a & b & H). destruct a as [|y a]; [left; now exists b|]. right. injection H as -> ->. now exists a, b.
Qed.
Lemma first_comma : forall a b c d, ~ In 44 a -> ~ In 44 c -> a ++ 44 :: b = c ++ 44 :: d -> a = c /\ b = d.
Proof.
  induction a as [|x a IH]; intros b c d A C H.
  - destruct c as [|y c]; [injection H as ->; tauto|]. injection H as <- _. exfalso. apply C. now left.
  - destruct c as [|y c]; [injection H as -> _; exfalso; apply A; now left|]. injection H as <- H.
    destruct (IH b c d) as [-> ->]; [intro K; apply A; now right|intro K; apply C; now right|exact H|tauto].
Qed.
Lemma app_split : forall (a b c d : list Z), a ++ b = c ++ d -> (exists k, c = a ++ k /\ b = k ++ d) \/ (exists k, k <> [] /\ a = c ++ k /\ d = k ++ b).
Proof.
  induction a as [|x a IH]; intros b c d H; [left; exists c; split; [reflexivity|exact H]|].
  destruct c as [|y c]; [right; exists (x :: a); split; [discriminate|]; split; [reflexivity|now symmetry]|].
  injection H as <- H. destruct (IH b c d H) as [(k & -> & ->)|(k & N & -> & ->)]; [left; now exists k|right; exists k; tauto].
Qed.
Lemma found_key : forall cs c, Forall (fun x => length x = 5%nat /\ ~ In 44 x) cs -> length c = 5%nat -> ~ In 44 c ->
  (strstrb (keys cs) (c ++ [44]) = true <-> In c cs).
Proof.
  intros cs c F L N. rewrite strstr_iff. split.
  - intros (a & b & H). revert a b H. induction F as [|x cs (Lx & Nx) F IH]; intros a b H.
    + cbn in H. destruct a; [|discriminate H]. destruct c; discriminate H.
    + cbn [keys flat_map] in H. fold (keys cs) in H. rewrite <- !app_assoc in H. cbn [app] in H.
      apply app_split in H. destruct H as [(k & -> & H)|(k & Nk & -> & H)].
      * destruct k as [|y k].
        -- cbn [app] in H. destruct c as [|y c]; [discriminate L|]. exfalso. injection H as <- _. apply N. now left.
        -- injection H as <- H. right. apply (IH k b); rewrite <- app_assoc; exact H.
      * left. assert (NK: ~ In 44 (k)) by (intro K; apply Nx; apply in_or_app; now right).
        assert (D: c ++ 44 :: b = k ++ 44 :: keys cs) by exact H.
        apply first_comma in D; [|exact N|exact NK]. destruct D as [-> _]. rewrite app_length in Lx. destruct a; [reflexivity|cbn in Lx; lia].
  - intro I. apply in_split in I. destruct I as (u & v & ->). exists (keys u), (keys v). unfold keys. rewrite flat_map_app. cbn [flat_map]. now rewrite <- !app_assoc.
Qed.
Lemma keys_length : forall cs, Forall (fun x => length x = 5%nat) cs -> length (keys cs) = (6 * length cs)%nat.
Proof. induction 1 as [|x cs L F IH]; [reflexivity|]. cbn [keys flat_map length]. fold (keys cs). rewrite !app_length, L, IH. cbn [length]. lia. Qed.

Lemma met_app : forall a b, met_codes (a ++ b) = met_codes a ++ met_codes b.
Proof. intros. apply flat_map_app. Qed.
Lemma entered_met : forall log c, In c (entered_codes log) -> In c (met_codes log).
Proof.
  intros log c H. unfold entered_codes, met_codes in *. rewrite in_flat_map in *. destruct H as (ev & I & K). exists ev. split; [exact I|]. destruct ev; try destruct K as [<-|[]]; try contradiction. now left.
Qed.

(** ** State of the duplicate list *)
Definition dedup (s : st) : Prop :=
  sized s /\ s_seen s = keys (entered_codes (s_log s)) /\ s_use s = 6 * Z.of_nat (length (entered_codes (s_log s))) /\
  Forall (fun c => length c = 5%nat) (met_codes (s_log s)) /\
  s_cur s = 70000 /\ 6 * Z.of_nat (length (entered_codes (s_log s))) + 1 <= 70000 /\
  (comma_free (s_log s) -> unique (s_log s)).

(** Adding an event that is not about codes. *)
Definition neutral (ev : event) : Prop := match ev with EvNew _ _ _ | EvDup _ => False | _ => True end.
Lemma neutral_log : forall log ev, neutral ev -> entered_codes (log ++ [ev]) = entered_codes log /\ met_codes (log ++ [ev]) = met_codes log.
Proof. intros log ev H. rewrite codes_app, met_app. destruct ev; try contradiction; cbn; now rewrite !app_nil_r. Qed.
Lemma snoc_inv : forall (A : Type) (l a b : list A) x y, l ++ [x] = a ++ y :: b -> (b = [] /\ l = a /\ x = y) \/ (exists b', b = b' ++ [x] /\ l = a ++ y :: b').
Proof.
  intros A l a b x y H. destruct (@exists_last _ (y :: b)) as (b0 & z & E); [discriminate|]. rewrite E, app_assoc in H. apply app_inj_tail in H. destruct H as [H <-].
  destruct b0 as [|w b0]; [left; injection E as -> ->; rewrite app_nil_r in H; tauto|]. right. injection E as -> ->. exists b0. split; [reflexivity|exact H].
Qed.
Lemma unique_neutral : forall log ev, neutral ev -> unique log -> unique (log ++ [ev]).
Proof.
  intros log ev N (U & D). split; [rewrite (proj1 (neutral_log log ev N)); exact U|]. intros a c b H. apply snoc_inv in H.
  destruct H as [(_ & _ & ->)|(b' & _ & ->)]; [contradiction|]. now apply (D a c b').
Qed.
Lemma dedup_neutral : forall s ev, neutral ev -> dedup s -> dedup (note ev s).
Proof.
  intros s ev N (Z & A & B & C & D & E & F). unfold dedup. cbn [note s_seen s_use s_cur s_log]. destruct (neutral_log (s_log s) ev N) as (L1 & L2). rewrite L1, L2.
  repeat split; try assumption; try apply Z; unfold comma_free in *; rewrite L2 in *; apply (unique_neutral (s_log s) ev N (F H)).
Qed.
Lemma dedup_same : forall s s', dedup s -> sized s' -> s_seen s' = s_seen s -> s_use s' = s_use s -> s_cur s' = s_cur s -> s_log s' = s_log s -> dedup s'.
Proof. intros s s' (Z & A & B & C & D & E & F) S H1 H2 H3 H4. unfold dedup. rewrite H1, H2, H3, H4. repeat split; try assumption; try apply S; now apply F. Qed.
Lemma dedup_enter : forall e code t sf s, dedup s -> length code = 5%nat -> strstrb (s_seen s) (code ++ [44]) = false ->
  Z.of_nat (length (s_seen (entered e code t sf s))) + 1 <= s_cur (entered e code t sf s) -> dedup (entered e code t sf s).
Proof.
  intros e code t sf s (Z & A & B & C & D & E & F) L S M. unfold entered in *. cbn [note set_seen set_sfound s_seen s_use s_cur s_log] in *.
  rewrite B, D in M. destruct (Z.leb_spec 70000 (6 * Z.of_nat (length (entered_codes (s_log s))))); [lia|].
  rewrite A, app_length in M. assert (F5: Forall (fun c => length c = 5%nat) (entered_codes (s_log s))).
  { rewrite Forall_forall in C |- *. intros c I. apply C. now apply entered_met. }
  rewrite keys_length in M by exact F5. rewrite app_length, L in M. cbn [length] in M.
  unfold dedup. cbn [note set_seen set_sfound s_seen s_use s_cur s_log]. rewrite codes_app, met_app. cbn [entered_codes met_codes flat_map app].
  split; [exact Z|]. split; [rewrite A; unfold keys; rewrite flat_map_app; cbn [flat_map]; now rewrite app_nil_r|].
  rewrite app_length. cbn [length]. split; [lia|]. split; [apply Forall_app; split; [exact C|now constructor]|].
  split; [rewrite B, D; destruct (Z.leb_spec 70000 (6 * Z.of_nat (length (entered_codes (s_log s))))); lia|]. split; [lia|].
  intro CF. unfold comma_free in CF. rewrite met_app in CF. cbn [met_codes flat_map app] in CF. apply Forall_app in CF. destruct CF as [CF1 CF2]. inversion CF2 as [|? ? NC _]; subst.
  destruct (F CF1) as (U & Dp). split.
  - rewrite codes_app. cbn [entered_codes flat_map app]. apply NoDup_Add with (a := code) (l := entered_codes (s_log s)).
    { rewrite <- (app_nil_r (entered_codes (s_log s))) at 1. apply Add_app. }
    split; [exact U|]. intro I. assert (G: Forall (fun x => length x = 5%nat /\ ~ In 44 x) (entered_codes (s_log s))).
    { rewrite Forall_forall in C, CF1 |- *. intros x Ix. apply entered_met in Ix. split; [now apply C|now apply CF1]. }
    apply (proj2 (found_key _ code G L NC)) in I. rewrite A in S. congruence.
  - intros a c b H1. apply snoc_inv in H1. destruct H1 as [(_ & _ & K)|(b' & _ & K)]; [discriminate K|]. now apply (Dp a c b').
Qed.
Lemma dedup_dup : forall code s, dedup s -> length code = 5%nat -> strstrb (s_seen s) (code ++ [44]) = true -> dedup (note (EvDup code) s).
Proof.
  intros code s (Z & A & B & C & D & E & F) L S. unfold dedup. cbn [note s_seen s_use s_cur s_log]. rewrite codes_app, met_app. cbn [entered_codes met_codes flat_map app]. rewrite app_nil_r.
  split; [exact Z|]. split; [exact A|]. split; [exact B|]. split; [apply Forall_app; split; [exact C|now constructor]|]. split; [exact D|]. split; [exact E|].
  intro CF. unfold comma_free in CF. rewrite met_app in CF. cbn [met_codes flat_map app] in CF. apply Forall_app in CF. destruct CF as [CF1 CF2]. inversion CF2 as [|? ? NC _]; subst.
  destruct (F CF1) as (U & Dp). split; [rewrite codes_app; cbn [entered_codes flat_map]; rewrite app_nil_r; exact U|].
  intros a c b H. apply snoc_inv in H. destruct H as [(_ & <- & K)|(b' & _ & K)]; [|now apply (Dp a c b')]. injection K as <-.
  apply (found_key _ code); [|exact L|exact NC|rewrite <- A; exact S].
  rewrite Forall_forall in C, CF1 |- *. intros x Ix. apply entered_met in Ix. split; [now apply C|now apply CF1].
Qed.

Lemma dedup_step : forall e argv il chunk s f, dedup s -> ps e argv il chunk s f -> dedup (flow_st f).
Proof.
  intros e argv il chunk s f T H.
  assert (M: forall s0 s', dedup s0 -> move s0 s' -> dedup s').
  { intros s0 s' D0 Mv. apply (dedup_same s0 s' D0); [apply (sized_move s0 s'); [apply D0|exact Mv]| | | |]; destruct Mv as (l1 & nm & -> & _); reflexivity. }
  assert (SZ: forall l2, c_store (s_line2 s) chunk = Ok l2 -> dedup (set_lines (s_line1 s) l2 s)).
  { intros l2 E. apply (dedup_same s); try assumption; try reflexivity. destruct T as ((A & B & C) & _). apply store_length in E. repeat split; cbn [set_lines s_line1 s_line2 s_name]; congruence. }
  destruct H as [l2 code t f H0 H1 H2 (s' & -> & H3)|l2 t f0 f H0 H1 H2 H3].
  - cbn [flow_st]. exact (M _ _ (SZ l2 H0) H3).
  - pose proof (dedup_neutral _ (EvExam t) I (SZ l2 H0)) as T0.
    assert (DA: data_ok (s_line1 s)).
    { destruct (SZ l2 H0) as ((A & B & _) & _). apply (parse_zero_data _ _ _ _ A B) in H1. tauto. }
    set (s0 := note (EvExam t) (set_lines (s_line1 s) l2 s)) in *.
    assert (CO: forall code, code_of s0 = Ok code -> length code = 5%nat).
    { intros code E. destruct (code_field s0) as (C1 & C2); [apply T0|exact DA|]. rewrite C1 in E. injection E as <-. exact C2. }
    assert (R: dedup (flow_st f0)).
    { destruct H2 as [code C1 C2|code sf d C1 C2 C3 C4|code sf d C1 C2 C3 C4|code sf d s1 f0 C1 C2 C3 C4 C5 C6 C7]; cbn [flow_st].
      - exact T0.
      - apply (dedup_same s0); try assumption; try reflexivity. apply T0.
      - apply dedup_dup; [|now apply CO|exact C4]. apply (dedup_same s0); try assumption; try reflexivity. apply T0.
      - assert (T1: dedup s1) by (rewrite C5 in C6 |- *; apply dedup_enter; try assumption; now apply CO).
        assert (TC: dedup (cut16 s1)) by (apply (dedup_same s1); try assumption; try reflexivity; apply sized_cut; apply T1).
        destruct C7 as [f1 N E|N Al|f1 N Al R].
        + apply exit_with_inv in E. destruct E as (_ & s' & -> & (tx & _ & ->)). apply (dedup_same s1); try assumption; try reflexivity. apply T1.
        + exact T1.
        + destruct R as [R1|R1 R2 R3|desig name en s' f1 R1 R2 R3 R4 R5 R6 R7 R8|R1 R2 R3]; cbn [flow_st].
          * exact T1.
          * exact TC.
          * assert (T2: dedup s').
            { rewrite R6. unfold listed.
              assert (X: dedup (if p_info_only (e_p e) then cut16 s1 else print (lead (cut16 s1) ++ en) (cut16 s1))).
              { destruct (p_info_only (e_p e)); [exact TC|]. apply (dedup_same (cut16 s1)); try assumption; try reflexivity. apply TC. }
              apply (dedup_neutral _ (EvList name desig t (e_num e (processed s0) t)) I) in X.
              eapply dedup_same; [exact X|apply X|reflexivity|reflexivity|reflexivity|reflexivity]. }
            rewrite R7. destruct (s_sfound s1 || (s_found s1 + 1 =? p_max_sats (e_p e))); exact T2.
          * exact TC. }
    destruct f0 as [s1|s1|s1|k s1]; cbn [flow_st] in R.
    + destruct H3 as (s' & -> & Mv). exact (M _ _ R Mv).
    + subst f. exact R.
    + subst f. exact R.
    + subst f. exact R.
Qed.

Lemma run_dedup : forall e0 l1 l2 nm fin, arrays l1 l2 nm -> skymap e0 l1 l2 nm = Ok fin ->
  6 * Z.of_nat (length (entered_codes (f_log fin))) + 1 <= 70000 /\ Forall (fun c => length c = 5%nat) (met_codes (f_log fin)) /\
  (comma_free (f_log fin) -> unique (f_log fin)).
Proof.
  intros e0 l1 l2 nm fin AR H.
  destruct (skymap_inv e0 dedup (fun argv il f => dedup (flow_st f)) l1 l2 nm) with (fin := fin) as (argv & il & f & F & R).
  - intros argv il chunk s f K S. pose proof (dedup_step _ _ _ _ _ _ K S). destruct (live f); assumption.
  - intros s path K. now apply dedup_neutral.
  - intros s first k1 k2 K E1 E2. apply (dedup_same s); try assumption; try reflexivity. destruct K as ((A & B & C) & _).
    apply store_length in E1. apply take_name_length in E2. repeat split; cbn [set_name set_lines s_line1 s_line2 s_name]; congruence.
  - intros argv il s code status msg f K M E. apply exit_with_inv in E. destruct E as (_ & s' & -> & (t & _ & ->)). apply (dedup_same s); try assumption; try reflexivity. apply K.
  - exact H.
  - intros out _. unfold dedup, start. cbn. split; [exact AR|]. repeat split; try lia; try constructor; try discriminate; intros a c b K; destruct a; discriminate K.
  - apply finish_counts in F. destruct F as (_ & _ & -> & _). assert (D: dedup (flow_st f)) by (destruct (live f); exact R).
    destruct D as (_ & _ & _ & C & _ & E & U). tauto.
Qed.
