(** A catalogue that overruns the duplicate list. *)
From Coq Require Import String Ascii ZArith List Bool Lia QArith.
From Verif Require Import CLib ListLemmas FloatModel TleModel TleSpec TleExamples TleProofs1 TleProofs2 TleProofs3 TleProofs4 TleProofs5 TleProofs6 IoModel SkymapModel SkymapSpec SkymapExamples SkymapProofs1 SkymapProofs2 SkymapProofs3 SkymapProofs4 SkymapProofs6 SkymapProofs8.
Import ListNotations.
Open Scope Z_scope.

Definition elems (n : Z) (d : list Z) : elements :=
  mk_elements n 85 d 2024 13252083333 16717 (0 # 1) (30270 # 100000000) 48 999 516390 1602230 3580 901234 2699876 1550249123 45289.
Lemma good_pair : forall n c1 c2 c3 c4 c5 d1 d2 d3 d4 d5 d6 d7 d8, 0 <= n < norad_count -> encode_norad n = [c1;c2;c3;c4;c5] ->
  Forall (fun c => 48 <= c <= 90) [c1;c2;c3;c4;c5] -> Forall (fun c => 32 <= c <= 90) [d1;d2;d3;d4;d5;d6;d7;d8] ->
  good_block (Pair (el_line1 [c1;c2;c3;c4;c5] [d1;d2;d3;d4;d5;d6;d7;d8]) (el_line2 [c1;c2;c3;c4;c5]) (elems n [d1;d2;d3;d4;d5;d6;d7;d8])).
Proof.
  intros n c1 c2 c3 c4 c5 d1 d2 d3 d4 d5 d6 d7 d8 N E FC FD. cbn [good_block]. unfold el_line1, el_line2, checked.
  change (bytes "1 ") with [49; 32]. change (bytes "U ") with [85; 32]. change (bytes "2 ") with [50; 32].
  set (t1 := [49; 32] ++ _). set (t2 := [50; 32] ++ _).
  set (v1 := total t1 mod 10). set (v2 := total t2 mod 10).
  assert (B1: 0 <= v1 < 10) by (apply Z.mod_pos_bound; lia). assert (B2: 0 <= v2 < 10) by (apply Z.mod_pos_bound; lia).
  assert (V1: v1 = total t1 mod 10) by reflexivity. assert (V2: v2 = total t2 mod 10) by reflexivity. clearbody v1 v2.
  assert (C: 48 <= c1 <= 90 /\ 48 <= c2 <= 90 /\ 48 <= c3 <= 90 /\ 48 <= c4 <= 90 /\ 48 <= c5 <= 90).
  { rewrite !Forall_cons_iff in FC. tauto. }
  assert (D: 32 <= d1 <= 90 /\ 32 <= d2 <= 90 /\ 32 <= d3 <= 90 /\ 32 <= d4 <= 90 /\ 32 <= d5 <= 90 /\ 32 <= d6 <= 90 /\ 32 <= d7 <= 90 /\ 32 <= d8 <= 90).
  { rewrite !Forall_cons_iff in FD. tauto. }
  clear FC FD.
  assert (G1: forall c, In c t1 -> 32 <= c <= 90). { apply Forall_forall. unfold t1. cbn. repeat (apply Forall_cons; [lia|]). apply Forall_nil. }
  assert (G2: forall c, In c t2 -> 32 <= c <= 90). { apply Forall_forall. unfold t2. cbn. repeat (apply Forall_cons; [lia|]). apply Forall_nil. }
  assert (GT: forall t v, (forall c, In c t -> 32 <= c <= 90) -> 0 <= v < 10 -> length t = 68%nat -> good_text (t ++ [48 + v])).
  { intros t v G B L. split; [|split].
    - intro K. apply in_app_or in K. destruct K as [K|[K|[]]]; [apply G in K|]; lia.
    - intro K. apply in_app_or in K. destruct K as [K|[K|[]]]; [apply G in K|]; lia.
    - rewrite app_length, L. cbn. lia. }
  split; [now apply GT|]. split; [now apply GT|]. split; [|split; [|split]].
  - unfold t1. cbn [app]. unfold layout1, data_ok, col, field. cbn.
    split; [lia|].
    split; [printable_ok|].
    split; [lia|].
    split; [reflexivity|]. split; [reflexivity|].
    split; [exact N|].
    split; [now symmetry|]. split; [reflexivity|].
    split; [unfold digit; lia|]. split; [reflexivity|].
    split.
    { exists 24. split; [|reflexivity]. split; [digits_ok|reflexivity]. }
    split.
    { exists 132, 52083333. split; [exists 0%nat, [49;51;50]; repeat split; try discriminate; digits_ok|].
      split; [reflexivity|]. split; [|reflexivity]. split; [digits_ok|reflexivity]. }
    split; [reflexivity|].
    split.
    { exists 16717. split; [reflexivity|]. split; [|reflexivity]. split; [digits_ok|reflexivity]. }
    split; [reflexivity|].
    split.
    { exists 32, [48;48;48;48;48], 43, 48. repeat split; try (unfold digit; lia); try tauto. digits_ok. }
    split.
    { exists 32, [51;48;50;55;48], 45, 51. repeat split; try (unfold digit; lia); try tauto. digits_ok. }
    split; [reflexivity|]. split; [discriminate|].
    exists 1%nat, [57;57;57]. repeat split; try discriminate. digits_ok.
  - unfold t2. cbn [app]. unfold layout2, data_ok, col, field. cbn.
    split; [lia|].
    split; [printable_ok|].
    split; [lia|].
    split; [reflexivity|]. split; [reflexivity|].
    split. { exists 1%nat, [53;49], [54;51;57;48]. repeat split; digits_ok. }
    split; [reflexivity|].
    split. { exists 0%nat, [49;54;48], [50;50;51;48]. repeat split; digits_ok. }
    split; [reflexivity|].
    split. { split; [digits_ok|reflexivity]. }
    split; [reflexivity|].
    split. { exists 1%nat, [57;48], [49;50;51;52]. repeat split; digits_ok. }
    split; [reflexivity|].
    split. { exists 0%nat, [50;54;57], [57;56;55;54]. repeat split; digits_ok. }
    split; [reflexivity|].
    split. { exists 15, 50249123. split; [exists 0%nat, [49;53]; repeat split; try discriminate; digits_ok|].
             split; [reflexivity|]. split; [|reflexivity]. split; [digits_ok|reflexivity]. }
    exists 0%nat, [52;53;50;56;57]. repeat split; try discriminate. digits_ok.
  - unfold check_digit_ok, col. replace (nth 68 ((t1 ++ [48 + v1]) ++ [10]) 0) with (48 + v1) by reflexivity. rewrite V1. reflexivity.
  - unfold check_digit_ok, col. replace (nth 68 ((t2 ++ [48 + v2]) ++ [10]) 0) with (48 + v2) by reflexivity. rewrite V2. reflexivity.
Qed.

(** ** The run *)
Definition d8 : list Z := [57;56;48;54;55;65;32;32].   (* "98067A  " *)
Definition big1 (i : nat) : list Z := el_line1 (encode_norad (Z.of_nat i)) d8.
Definition big2 (i : nat) : list Z := el_line2 (encode_norad (Z.of_nat i)).
Definition codes_upto (i : nat) : list (list Z) := map (fun k => encode_norad (Z.of_nat k)) (seq 0 i).
Lemma code_shape : forall i, Z.of_nat i < 100000 -> exists c1 c2 c3 c4 c5, encode_norad (Z.of_nat i) = [c1;c2;c3;c4;c5] /\ Forall (fun c => 48 <= c <= 57) [c1;c2;c3;c4;c5].
Proof.
  intros i L. destruct (plain_code_shows (Z.of_nat i) ltac:(lia)) as (k & ds & E & _ & F & _). destruct (encode_is_code (Z.of_nat i) ltac:(unfold norad_count; lia)) as (Len & _).
  assert (k = O) as ->.
  { destruct k as [|k]; [reflexivity|]. exfalso. destruct (encode_is_code (Z.of_nat i) ltac:(unfold norad_count; lia)) as (_ & S). rewrite E in S. cbn in S. inversion S as [|? ? S0 _]; subst.
    cbn in S0. repeat (destruct S0 as [S0|S0]; [discriminate S0|]). exact S0. }
  cbn in E. rewrite E in *. destruct ds as [|c1 [|c2 [|c3 [|c4 [|c5 [|c6 ds]]]]]]; try discriminate Len. exists c1, c2, c3, c4, c5. split; [reflexivity|exact F].
Qed.
Lemma big_pair : forall i, Z.of_nat i < 100000 -> good_block (Pair (big1 i) (big2 i) (elems (Z.of_nat i) d8)).
Proof.
  intros i L. destruct (code_shape i L) as (c1 & c2 & c3 & c4 & c5 & E & F). unfold big1, big2. rewrite E. apply good_pair; [unfold norad_count; lia|exact E| |].
  - eapply Forall_impl; [|exact F]. cbn. lia.
  - repeat (apply Forall_cons; [lia|]). apply Forall_nil.
Qed.
Lemma big_lengths : forall i, Z.of_nat i < 100000 -> length (big1 i) = 69%nat /\ length (big2 i) = 69%nat /\ hd 0 (big1 i) = 49 /\ hd 0 (big2 i) = 50 /\ field (big1 i) 2 5 = encode_norad (Z.of_nat i).
Proof.
  intros i L. destruct (code_shape i L) as (c1 & c2 & c3 & c4 & c5 & E & F). unfold big1, big2. rewrite E. repeat split.
Qed.
Lemma codes_distinct : forall i, Z.of_nat i < 100000 -> ~ In (encode_norad (Z.of_nat i)) (codes_upto i).
Proof.
  intros i L K. apply in_map_iff in K. destruct K as (j & E & J). apply in_seq in J.
  pose proof (strtol_shows _ _ (plain_code_shows (Z.of_nat i) ltac:(lia))) as A. pose proof (strtol_shows _ _ (plain_code_shows (Z.of_nat j) ltac:(lia))) as B.
  rewrite E, A in B. apply ok_inj in B. lia.
Qed.
Lemma codes_comma : forall i, Z.of_nat i <= 100000 -> Forall (fun x => length x = 5%nat /\ ~ In 44 x) (codes_upto i).
Proof.
  intros i L. apply Forall_forall. intros x K. apply in_map_iff in K. destruct K as (j & <- & J). apply in_seq in J.
  destruct (code_shape j ltac:(lia)) as (c1 & c2 & c3 & c4 & c5 & -> & F). split; [reflexivity|]. intro K. rewrite Forall_forall in F. apply F in K. lia.
Qed.
Lemma keys_length : forall cs, Forall (fun x : list Z => length x = 5%nat /\ ~ In 44 x) cs -> length (keys cs) = (6 * length cs)%nat.
Proof. intros cs F. induction F as [|x cs (L & _) F IH]; [reflexivity|]. cbn [keys flat_map]. fold (keys cs). rewrite !app_length, IH, L. cbn [length]. lia. Qed.
Lemma keys_snoc : forall i, keys (codes_upto i) ++ encode_norad (Z.of_nat i) ++ [44] = keys (codes_upto (S i)).
Proof. intro i. unfold codes_upto. rewrite seq_S, map_app. unfold keys. rewrite flat_map_app. cbn [map flat_map]. now rewrite app_nil_r. Qed.

(** A satellite far outside the region. *)
Definition far_num : num :=
  mk_num 0 0 false x0 x0 (of_int 420) x0 (of_int 90) (of_int 90) true (of_int 185) (of_int (-53)) (of_int 186) (of_int (-53)) (of_int 1436) (of_int 89) (of_int 2) 690893 true.
Definition catalogue (k : nat) : list Z := flat_map (fun i => (big1 i ++ [10]) ++ (big2 i ++ [10])) (seq 0 k).
Definition big_env (k : nat) : env :=
  mk_env [bytes "sat_skymap"; bytes "s.txt"; bytes "-l44,11,23"] ex_params ex_hdr (fun _ _ => far_num)
    (fun path => if list_eq_dec Z.eq_dec path (bytes "./s.txt") then Some (catalogue k) else None) tle0.

Definition lists (i : nat) (s : st) : Prop := s_sfound s = false /\ s_seen s = keys (codes_upto i) /\ s_use s = 6 * Z.of_nat i /\ s_cur s = 70000.
Definition holds (c : list Z) (s : st) : Prop := exists x, s_line1 s = c ++ 0 :: x.
Lemma store_ok : forall b c, length b = 100%nat -> (length c <= 99)%nat -> exists b' x, c_store b c = Ok b' /\ b' = c ++ 0 :: x /\ length b' = 100%nat.
Proof.
  intros b c L LC. unfold c_store. destruct (Nat.leb_spec (S (length c)) (length b)); [|lia]. eexists. eexists. split; [reflexivity|]. split; [reflexivity|].
  rewrite app_length. cbn [length]. rewrite skipn_length. lia.
Qed.
(** Ending the loop body after an element line. *)
Lemma ends : forall s c x, length (s_line1 s) = 100%nat -> s_line2 s = c ++ 0 :: x -> ~ In 0 c -> (length c <= 99)%nat -> hd 0 c = 49 \/ hd 0 c = 50 ->
  exists l1 y, (t2 <- c_text (s_line2 s) ;; l1 <- c_store (s_line1 s) t2 ;;
   let s := set_lines l1 (s_line2 s) s in
   c <- rd (s_line2 s) 0 ;;
   if negb (c =? 49) && negb (c =? 50) then n <- take_name (s_line2 s) (s_name s) ;; Ok (Next (set_name n s)) else Ok (Next s)) = Ok (Next (set_lines l1 (s_line2 s) s)) /\
   l1 = c ++ 0 :: y /\ length l1 = 100%nat.
Proof.
  intros s c x L E N LC H. rewrite E, c_text_nul by exact N. cbn [bind]. destruct (store_ok (s_line1 s) c L LC) as (l1 & y & -> & E1 & L1). cbn [bind]. cbv zeta. cbn [set_lines s_line2 s_name].
  exists l1, y. split; [|tauto]. assert (R: rd (c ++ 0 :: x) 0 = Ok (hd 0 c)) by (destruct c; reflexivity). rewrite R. cbn [bind].
  destruct H as [->| ->]; reflexivity.
Qed.
Lemma first_pass : forall e argv il i s, (1 <= i)%nat /\ Z.of_nat i < 100000 -> sized s -> holds (big2 (i - 1) ++ [10]) s -> lists i s ->
  exists s', pass e argv il (big1 i ++ [10]) s = Ok (Next s') /\ sized s' /\ holds (big1 i ++ [10]) s' /\ lists i s'.
Proof.
  intros e argv il i s I (S1 & S2 & S3) (x & H) L. destruct (big_lengths i ltac:(lia)) as (L1 & L2 & H1 & H2 & _). destruct (big_lengths (i - 1) ltac:(lia)) as (_ & _ & _ & H2' & _).
  pose proof (big_pair i ltac:(lia)) as ((_ & N1 & _) & _).
  unfold pass. destruct (store_ok (s_line2 s) (big1 i ++ [10]) S2 ltac:(rewrite app_length, L1; cbn; lia)) as (l2 & y & -> & E2 & LL2). cbn [bind]. cbv zeta. cbn [set_lines s_line1].
  assert (P: parse_elements (s_line1 s) l2 (e_tle0 e) = Ok (-104, e_tle0 e)).
  { unfold parse_elements. replace (rd (s_line1 s) 0) with (@Ok Z 50); [reflexivity|]. rewrite H. destruct (big2 (i - 1)) as [|a r]; [discriminate H2'|]. cbn in H2'. subst a. reflexivity. }
  rewrite P. cbn [bind Z.eqb]. fold (set_lines (s_line1 s) l2 s).
  destruct (ends (set_lines (s_line1 s) l2 s) (big1 i ++ [10]) y) as (l1 & z & R & E1 & LL1).
  - exact S1.
  - exact E2.
  - intro K. apply in_app_or in K. destruct K as [K|[K|[]]]; [tauto|discriminate K].
  - rewrite app_length, L1. cbn. lia.
  - left. destruct (big1 i); [discriminate L1|exact H1].
  - eexists. split; [exact R|]. split; [|split; [now exists z|exact L]]. unfold sized, arrays. cbn [set_lines s_line1 s_line2 s_name]. tauto.
Qed.
Lemma second_start : forall k argv il i s, Z.of_nat i <= 11666 -> sized s -> holds (big1 i ++ [10]) s -> lists i s ->
  exists l2 y t, c_store (s_line2 s) (big2 i ++ [10]) = Ok l2 /\ l2 = (big2 i ++ [10]) ++ 0 :: y /\ length l2 = 100%nat /\
    parse_elements (s_line1 s) l2 (e_tle0 (with_path (big_env k))) = Ok (0, t) /\
    tle_found (with_path (big_env k)) argv il t (note (EvExam t) (set_lines (s_line1 s) l2 s)) =
    (if 70000 <? 6 * Z.of_nat i + 6 + 1 then UB OutOfBounds
     else Ok (Next (entered (with_path (big_env k)) (encode_norad (Z.of_nat i)) t false (note (EvExam t) (set_lines (s_line1 s) l2 s))))).
Proof.
  intros k argv il i s I0 (S1 & S2 & S3) (x & H) (A1 & A2 & A3 & A4). assert (I: Z.of_nat i < 100000) by lia. destruct (big_lengths i I) as (L1 & L2 & H1 & H2 & FC). pose proof (big_pair i I) as G.
  destruct (store_ok (s_line2 s) (big2 i ++ [10]) S2 ltac:(rewrite app_length, L2; cbn; lia)) as (l2 & y & ES & E2 & LL2). rewrite ES. exists l2, y.
  destruct (pair_parses _ _ _ (big1 i ++ [10]) (big2 i ++ [10]) x y (e_tle0 (with_path (big_env k))) G (or_introl eq_refl) (or_introl eq_refl)) as (t & P & _).
  rewrite <- H, <- E2 in P. exists t. split; [reflexivity|]. split; [exact E2|]. split; [exact LL2|]. split; [exact P|].
  set (s0 := note (EvExam t) (set_lines (s_line1 s) l2 s)).
  assert (DO: data_ok (s_line1 s)). { apply parse_zero_data in P; [tauto|exact S1|exact LL2]. }
  destruct (code_field s0 S1 DO) as (CF & _). change (s_line1 s0) with (s_line1 s) in CF. rewrite H in CF.
  rewrite field_app in CF by (rewrite app_length, L1; cbn; lia). rewrite field_app in CF by lia. rewrite FC in CF.
  unfold tle_found. cbv zeta. unfold code_of in CF.
  destruct (strncpy_bytes (adv (s_line1 s0) 2) 5) as [cc|] eqn:SC; [|discriminate CF]. cbn [bind] in CF |- *. rewrite CF. cbn [bind].
  change (selection (e_p (with_path (big_env k))) t (encode_norad (Z.of_nat i)) (s_name s0) (s_sfound s0)) with (@Ok (option (bool * list Z)) (Some (s_sfound s0, bytes "none"))). cbn [bind].
  change (s_sfound s0) with (s_sfound s). rewrite A1. change (single_sat (e_p (with_path (big_env k))) && negb false) with false. cbv iota.
  change (s_seen (set_sfound false s0)) with (s_seen s). change (s_cur (set_sfound false s0)) with (s_cur s). change (s_use (set_sfound false s0)) with (s_use s).
  change (processed (set_sfound false s0)) with (processed s0).
  assert (C5: length (encode_norad (Z.of_nat i)) = 5%nat /\ ~ In 44 (encode_norad (Z.of_nat i))).
  { destruct (code_shape i I) as (c1 & c2 & c3 & c4 & c5 & -> & F). split; [reflexivity|]. intro K. rewrite Forall_forall in F. apply F in K. lia. }
  rewrite A2, A3, A4.
  assert (NS: strstrb (keys (codes_upto i)) (encode_norad (Z.of_nat i) ++ [44]) = false).
  { destruct (strstrb (keys (codes_upto i)) (encode_norad (Z.of_nat i) ++ [44])) eqn:SS; [|reflexivity]. exfalso.
    apply found_key in SS; [now apply (codes_distinct i I)|apply codes_comma; lia|tauto|tauto]. }
  rewrite NS.
  assert (LEN: Z.of_nat (length (keys (codes_upto i) ++ encode_norad (Z.of_nat i) ++ [44])) = 6 * Z.of_nat i + 6).
  { rewrite app_length, keys_length by (apply codes_comma; lia). rewrite app_length. destruct C5 as (-> & _). unfold codes_upto. rewrite map_length, seq_length. cbn [length]. lia. }
  rewrite LEN. destruct (Z.leb_spec 70000 (6 * Z.of_nat i)) as [K|_]; [lia|].
  destruct (70000 <? 6 * Z.of_nat i + 6 + 1); [reflexivity|].
  change (e_num (with_path (big_env k)) (processed s0) t) with far_num. change (n_nan far_num) with false. cbv iota.
  change (alt_rejects (e_p (with_path (big_env k))) far_num) with false. cbv iota. unfold report. cbv zeta.
  assert (SEL: selected (e_p (with_path (big_env k))) far_num = false) by (vm_compute; reflexivity). rewrite SEL. unfold entered.
  change (s_seen s0) with (s_seen s). change (s_cur s0) with (s_cur s). change (s_use s0) with (s_use s). rewrite A2, A3, A4.
  destruct (Z.leb_spec 70000 (6 * Z.of_nat i)) as [K|_]; [lia|]. reflexivity.
Qed.
Lemma second_pass : forall k argv il i s, Z.of_nat i < 11666 -> sized s -> holds (big1 i ++ [10]) s -> lists i s ->
  exists s', pass (with_path (big_env k)) argv il (big2 i ++ [10]) s = Ok (Next s') /\ sized s' /\ holds (big2 i ++ [10]) s' /\ lists (S i) s'.
Proof.
  intros k argv il i s I S H L. destruct (second_start k argv il i s ltac:(lia) S H L) as (l2 & y & t & ES & E2 & LL2 & P & TF).
  destruct (big_lengths i ltac:(lia)) as (L1 & L2 & H1 & H2 & FC). pose proof (big_pair i ltac:(lia)) as (_ & (_ & N2 & _) & _).
  unfold pass. rewrite ES. cbn [bind]. cbv zeta. cbn [set_lines s_line1]. rewrite P. cbn [bind Z.eqb]. fold (set_lines (s_line1 s) l2 s). rewrite TF. clear TF.
  destruct (Z.ltb_spec 70000 (6 * Z.of_nat i + 6 + 1)) as [K|_]; [lia|]. cbn [bind].
  set (s1 := entered _ _ _ _ _). destruct S as (S1 & S2 & S3).
  destruct (ends s1 (big2 i ++ [10]) y) as (l1 & z & R & E1 & LL1).
  - exact S1.
  - exact E2.
  - intro K. apply in_app_or in K. destruct K as [K|[K|[]]]; [tauto|discriminate K].
  - rewrite app_length, L2. cbn. lia.
  - right. destruct (big2 i); [discriminate L2|exact H2].
  - eexists. split; [exact R|]. split; [|split].
    + unfold sized, arrays. cbn [set_lines s_line1 s_line2 s_name]. change (s_line2 s1) with l2. change (s_name s1) with (s_name s). tauto.
    + now exists z.
    + destruct L as (A1 & A2 & A3 & A4). unfold lists. cbn [set_lines s_sfound s_seen s_use s_cur]. unfold s1, entered. cbn [note set_seen set_sfound set_lines s_sfound s_seen s_use s_cur].
      rewrite A2, A3, A4, keys_snoc. split; [reflexivity|]. split; [reflexivity|]. split; [lia|]. destruct (Z.leb_spec 70000 (6 * Z.of_nat i)); [lia|reflexivity].
Qed.
Lemma second_fails : forall k argv il i s, Z.of_nat i = 11666 -> sized s -> holds (big1 i ++ [10]) s -> lists i s ->
  pass (with_path (big_env k)) argv il (big2 i ++ [10]) s = UB OutOfBounds.
Proof.
  intros k argv il i s I S H L. destruct (second_start k argv il i s ltac:(lia) S H L) as (l2 & y & t & ES & E2 & LL2 & P & TF).
  unfold pass. rewrite ES. cbn [bind]. cbv zeta. cbn [set_lines s_line1]. rewrite P. cbn [bind Z.eqb]. fold (set_lines (s_line1 s) l2 s). rewrite TF, I. reflexivity.
Qed.
Definition chunks_from (i m : nat) : list (list Z) := flat_map (fun j => [big1 j ++ [10]; big2 j ++ [10]]) (seq i m).
Lemma run_from : forall k argv il m i s, Z.of_nat i + Z.of_nat m = 11667 -> (1 <= m)%nat -> sized s -> holds (big1 i ++ [10]) s -> lists i s ->
  forall rest, passes (with_path (big_env k)) argv il ((big2 i ++ [10]) :: chunks_from (S i) (m - 1) ++ rest) s = UB OutOfBounds.
Proof.
  intros k argv il m. induction m as [|m IH]; intros i s I M Sz H L rest; [lia|]. cbn [passes]. destruct m as [|m].
  - rewrite second_fails by (assumption || lia). reflexivity.
  - destruct (second_pass k argv il i s ltac:(lia) Sz H L) as (s' & -> & S' & H' & L'). cbn [bind]. cbn [Nat.sub]. change (chunks_from (S i) (S m)) with ([big1 (S i) ++ [10]; big2 (S i) ++ [10]] ++ chunks_from (S (S i)) m).
    cbn [app passes]. destruct (first_pass (with_path (big_env k)) argv il (S i) s' ltac:(lia) S') as (s2 & -> & S2 & H2 & L2).
    + cbn [Nat.sub]. rewrite Nat.sub_0_r. exact H'.
    + exact L'.
    + cbn [bind]. replace m with (S m - 1)%nat by lia. apply IH; try assumption; lia.
Qed.
Lemma catalogue_lines : forall k, Z.of_nat k <= 100000 -> fgets_seq 99 (catalogue k) = chunks_from 0 k.
Proof.
  intros k K. assert (E: catalogue k = flat_map (fun t => t ++ [10]) (flat_map (fun i => [big1 i; big2 i]) (seq 0 k))).
  { unfold catalogue. induction (seq 0 k) as [|a l IH]; [reflexivity|]. cbn [flat_map app]. rewrite IH, <- !app_assoc. reflexivity. }
  rewrite E, fgets_lines.
  - unfold chunks_from. clear. generalize (seq 0 k) as l. induction l as [|a l IH]; [reflexivity|]. cbn [flat_map app map]. rewrite IH. reflexivity.
  - apply Forall_forall. intros t Ht. apply in_flat_map in Ht. destruct Ht as (i & Hi & Ht). apply in_seq in Hi. pose proof (big_pair i ltac:(lia)) as ((A1 & _ & B1) & (A2 & _ & B2) & _).
    destruct Ht as [<-|[<-|[]]]; split; try assumption; lia.
Qed.
Lemma overrun : forall k, 11667 <= Z.of_nat k <= 100000 -> skymap (big_env k) z100 z100 z25 = UB OutOfBounds.
Proof.
  intros k K. unfold skymap. cbv zeta. change (nth_error (e_argv (with_path (big_env k))) (file_arg (e_argv (with_path (big_env k))))) with (Some (bytes "s.txt")).
  cbv iota. change (bytes "s.txt") with (115 :: bytes ".txt") at 1. cbv iota.
  match goal with |- (_ <- c_sprintf ?c ?t ;; _) = _ => replace (c_sprintf c t) with (@Ok (list Z) (bytes "./s.txt")) by reflexivity end. cbn [bind].
  unfold one_file. cbv zeta. replace (e_fs (with_path (big_env k)) (bytes "./s.txt")) with (Some (catalogue k)) by reflexivity.
  rewrite catalogue_lines by lia. remember (k - 1)%nat as m eqn:Em. assert (k = S m) as -> by lia. clear Em.
  change (chunks_from 0 (S m)) with ([big1 0 ++ [10]; big2 0 ++ [10]] ++ chunks_from 1 m). cbn [app].
  set (s0 := note _ _). change (s_line1 s0) with z100. change (s_name s0) with z25.
  destruct (c_store z100 (big1 0 ++ [10])) as [l1|] eqn:E1; [|vm_compute in E1; discriminate E1]. cbn [bind]. cbn [set_lines s_name].
  assert (EL: l1 = (big1 0 ++ [10]) ++ repeat 0 30) by (apply ok_inj; rewrite <- E1; vm_compute; reflexivity). 
  change (s_name s0) with z25. destruct (take_name l1 z25) as [n|] eqn:E2; [|rewrite EL in E2; vm_compute in E2; discriminate E2]. cbn [bind].
  match goal with |- context [passes _ _ _ _ ?q] => set (s1 := q) end.
  assert (SZ: sized s1). { unfold sized, arrays, s1. cbn [set_name set_lines s_line1 s_line2 s_name]. apply store_length in E1. apply take_name_length in E2. rewrite E1, E2. repeat split. }
  assert (EM: exists a b, m = (a + b)%nat /\ Z.of_nat a = 11666) by (exists (Z.to_nat 11666), (m - Z.to_nat 11666)%nat; lia).
  destruct EM as (a & b & -> & EA). assert (EC: chunks_from 1 (a + b) = chunks_from 1 a ++ chunks_from (1 + a) b) by (unfold chunks_from; rewrite seq_app, flat_map_app; reflexivity).
  rewrite EC. pose proof (run_from (S (a + b)) (e_argv (with_path (big_env (S (a + b))))) false (S a) O s1) as RF. cbn [Nat.sub] in RF. rewrite Nat.sub_0_r in RF.
  rewrite RF; [reflexivity|lia|lia|exact SZ| |].
  - exists (repeat 0 29). unfold s1. cbn [set_name set_lines s_line1]. exact EL.
  - unfold lists, s1, s0, start. cbn. repeat split.
Qed.
Lemma overrun_exists : exists e, skymap e z100 z100 z25 = UB OutOfBounds /\ e_argv e = [bytes "sat_skymap"; bytes "s.txt"; bytes "-l44,11,23"] /\ (forall k t, e_num e k t = far_num).
Proof. exists (big_env (Z.to_nat 11667)). split; [apply overrun; rewrite Z2Nat.id; lia|split; reflexivity]. Qed.
