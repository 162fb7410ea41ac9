(** List files, trimming, catalogue numbers and designators in requests. *)
From Coq Require Import String Ascii ZArith List Bool Lia.
From Verif Require Import CLib ListLemmas FloatModel TleModel TleSpec TleProofs1 TleProofs3 IoModel SkymapModel SkymapSpec SkymapProofs1 SkymapProofs2 SkymapProofs3 SkymapProofs4 SkymapProofs6 SkymapProofs7.
Import ListNotations.
Open Scope Z_scope.

(** ** Files opened *)
Lemma one_file_log : forall e argv il path s f, one_file e argv il path s = Ok f -> exists L, s_log (flow_st f) = s_log s ++ EvOpen path :: L /\ opened L = [].
Proof.
  intros e argv il path s f O. unfold one_file in O. cbv zeta in O. set (G := fun s' : st => exists L, s_log s' = s_log s ++ EvOpen path :: L /\ opened L = []).
  change (G (flow_st f)). destruct (e_fs e path) as [contents|].
  - destruct (fgets_seq 99 contents) as [|first rest]; [apply exit_log in O; destruct O as (_ & E); unfold G; rewrite E; now exists []|].
    inv_bind O k1 O1. inv_bind O k2 O2.
    assert (X: if live f then G (flow_st f) else (fun f => G (flow_st f)) f).
    { refine (passes_inv e argv il G (fun f => G (flow_st f)) _ rest _ f _ O); [|now exists []].
      intros chunk s0 f0 (L0 & E0 & O0) Ps. assert (X: G (flow_st f0)); [|destruct (live f0); exact X].
      destruct Ps as [q2 code t f0 H0 H1 H2 (s' & -> & H3)|q2 t f1 f0 H0 H1 H2 H3].
      - cbn [flow_st]. unfold G. rewrite (move_log _ _ H3). now exists L0.
      - destruct (tf_log _ _ _ _ _ _ H2) as (L1 & E1 & (_ & O1' & _)). cbn [note set_lines s_log] in E1. rewrite E0 in E1. rewrite <- !app_assoc in E1. cbn [app] in E1.
        assert (Y: G (flow_st f1)). { exists (L0 ++ EvExam t :: L1). split; [rewrite E1; cbn; reflexivity|]. rewrite opened_app, O0. exact O1'. }
        destruct f1 as [s1|s1|s1|k s1]; cbn [flow_st] in *; try (subst f0; exact Y). destruct H3 as (s' & -> & Mv). cbn [flow_st]. unfold G in *. rewrite (move_log _ _ Mv). exact Y. }
    destruct (live f); exact X.
  - apply exit_log in O. destruct O as (_ & E). unfold G. rewrite E. now exists [].
Qed.
Lemma row_named : forall r c o, good_row r -> chunk_of r c -> row_name c = Ok o -> c <> [] ->
  match o with None => row_paths [] r = [] | Some name => name = r /\ r <> [] /\ (forall t, r <> 35 :: t) end.
Proof.
  intros r c o (N10 & N0 & L & La) C H NE. unfold row_name in H. inv_bind H b Hb. inv_bind H c0 H0. destruct (store_text _ _ _ Hb) as (x & E).
  assert (ZC: ~ In 0 c) by (destruct C as [->| ->]; [intro K; apply in_app_or in K; destruct K as [K|[K|[]]]; [tauto|discriminate K]|exact N0]).
  assert (C0: c0 = hd 0 c). { rewrite E in H0. unfold rd in H0. destruct c as [|a c]; cbn in H0; injection H0 as <-; reflexivity. }
  destruct (Z.eqb_spec c0 35) as [E35|N35].
  - injection H as <-. destruct r as [|a r]; [reflexivity|]. assert (a = 35) as -> by (destruct C as [->| ->]; cbn in C0; congruence). reflexivity.
  - rewrite E, c_text_nul in H by exact ZC. cbn [bind] in H.
    assert (NR: forall t, r <> 35 :: t) by (intros t ->; destruct C as [->| ->]; cbn in C0; congruence).
    destruct C as [->| ->].
    + rewrite rev_app_distr in H. cbn [rev app] in H. cbn [Z.ltb Z.compare Pos.compare Pos.compare_cont] in H. rewrite rev_involutive in H.
      destruct r as [|a r]; cbn in H; injection H as <-; [reflexivity|]. split; [reflexivity|]. split; [discriminate|exact NR].
    + destruct (rev r) as [|y k] eqn:ER; [discriminate H|].
      assert (y = last r 32) as ->. { rewrite <- (rev_involutive r), ER. cbn [rev]. symmetry. apply last_last. }
      destruct (Z.ltb_spec (last r 32) 32) as [K|_]; [lia|]. destruct r as [|a r]; [contradiction|]. cbn in H. injection H as <-. split; [reflexivity|]. split; [discriminate|exact NR].
Qed.
Lemma rows_opened : forall e argv rs chunks s f, Forall good_row rs -> Forall2 chunk_of rs chunks -> Forall (fun c => c <> []) chunks -> rows e argv chunks s = Ok f ->
  exists k, opened (s_log (flow_st f)) = opened (s_log s) ++ firstn k (flat_map (row_paths (p_tle_path (e_p e))) rs) /\
            (live f = true -> (length (flat_map (row_paths (p_tle_path (e_p e))) rs) <= k)%nat).
Proof.
  intros e argv rs. induction rs as [|r rs IH]; intros chunks s f G C NE R; inversion C as [|? c ? chunks' C0 C']; subst.
  - injection R as <-. exists O. cbn. rewrite app_nil_r. split; [reflexivity|lia].
  - inversion G as [|? ? Gr G']; subst. inversion NE as [|? ? NEc NE']; subst. cbn [rows] in R. inv_bind R o Ro. pose proof (row_named r c o Gr C0 Ro NEc) as RN. destruct o as [name|].
    + destruct RN as (-> & N0 & N35). inv_bind R path Rp. inv_bind R f0 Rf.
      assert (EP: path = p_tle_path (e_p e) ++ 47 :: r) by (unfold c_sprintf in Rp; destruct (S (length (p_tle_path (e_p e) ++ 47%Z :: r)) <=? 200)%nat; [apply ok_inj in Rp; now symmetry|discriminate Rp]).
      assert (RP: row_paths (p_tle_path (e_p e)) r = [path]).
      { rewrite EP. destruct r as [|a r]; [contradiction|]. unfold row_paths. destruct (Z.eq_dec a 35) as [->|NA]; [exfalso; now apply (N35 r)|].
        destruct a as [|a|a]; try reflexivity. do 6 (destruct a as [a|a|]; try reflexivity). exfalso. now apply NA. }
      destruct (one_file_log _ _ _ _ _ _ Rf) as (L & EL & OL). cbn [flat_map]. rewrite RP.
      assert (EO: opened (s_log (flow_st f0)) = opened (s_log s) ++ [path]) by (rewrite EL, opened_app; cbn; fold (opened L); now rewrite OL).
      assert (GO: forall s0, flow_st f0 = s0 -> rows e argv chunks' s0 = Ok f ->
        exists k, opened (s_log (flow_st f)) = opened (s_log s) ++ firstn k ([path] ++ flat_map (row_paths (p_tle_path (e_p e))) rs) /\
            (live f = true -> (length ([path] ++ flat_map (row_paths (p_tle_path (e_p e))) rs) <= k)%nat)).
      { intros s0 <- Rs. destruct (IH chunks' _ f G' C' NE' Rs) as (k & E1 & E2). exists (S k). rewrite E1, EO, <- app_assoc. split; [reflexivity|]. intro Lv. apply E2 in Lv. cbn [app length]. lia. }
      destruct f0 as [s0|s0|s0|k0 s0]; try (apply (GO s0 eq_refl R)); injection R as <-; exists 1%nat; (split; [exact EO|discriminate]).
    + assert (RP: row_paths (p_tle_path (e_p e)) r = []). { destruct r as [|a r]; [reflexivity|]. unfold row_paths in *. destruct a as [|a|a]; try discriminate RN. do 6 (destruct a as [a|a|]; try discriminate RN). reflexivity. }
      cbn [flat_map]. rewrite RP. exact (IH chunks' s f G' C' NE' R).
Qed.
Lemma fgets_go_nonempty : forall cap l room cur, (1 <= cap)%nat -> Forall (fun c => c <> []) (fgets_go cap room cur l).
Proof.
  intros cap l. induction l as [|c l IH]; intros room cur L; cbn [fgets_go].
  - destruct cur as [|a cur]; constructor; [|constructor]. cbn [rev]. destruct (rev cur); discriminate.
  - assert (X: rev (c :: cur) <> []) by (cbn [rev]; destruct (rev cur); discriminate).
    destruct (c =? 10); [constructor; [exact X|now apply IH]|]. destruct room as [|[|r]]; try (constructor; [exact X|now apply IH]). now apply IH.
Qed.

Lemma list_opened : forall e0 l1 l2 nm fin name contents rs, skymap e0 l1 l2 nm = Ok fin ->
  nth_error (e_argv e0) (file_arg (e_argv e0)) = Some (64 :: name) ->
  let dir := p_tle_path (e_p (with_path e0)) in
  e_fs e0 (dir ++ 47 :: name) = Some contents -> lines_of contents rs -> Forall good_row rs ->
  exists k, opened (f_log fin) = firstn k (flat_map (row_paths dir) rs) /\
    (f_code fin = 0 -> single_sat (e_p e0) = false -> f_found fin <> p_max_sats (e_p e0) -> opened (f_log fin) = flat_map (row_paths dir) rs).
Proof.
  intros e0 l1 l2 nm fin name contents rs H HA dir FS LN G. unfold skymap in H. cbv zeta in H. change (e_argv (with_path e0)) with (e_argv e0) in H. rewrite HA in H.
  fold dir in H. inv_bind H path Hp.
  assert (EP: path = dir ++ 47 :: name) by (unfold c_sprintf in Hp; destruct (S (length (dir ++ 47%Z :: name)) <=? 200)%nat; [apply ok_inj in Hp; now symmetry|discriminate Hp]).
  change (e_fs (with_path e0)) with (e_fs e0) in H. subst path. rewrite FS in H. inv_bind H f Hf.
  assert (SH: Forall (short 63) rs) by (eapply Forall_impl; [|exact G]; intros r (A & _ & B & _); split; [exact A|lia]).
  destruct (fgets_either 63 rs contents SH LN) as (ts & C & E).
  assert (GT: Forall good_row ts) by (destruct E as [<-|E]; [exact G|]; rewrite E in G; apply Forall_app in G; tauto).
  assert (EQ: flat_map (row_paths dir) rs = flat_map (row_paths dir) ts) by (destruct E as [<-|E]; [reflexivity|]; rewrite E, flat_map_app; cbn; now rewrite app_nil_r).
  rewrite EQ. destruct (rows_opened _ _ ts _ _ f GT C (fgets_go_nonempty 63 contents 63 [] ltac:(lia)) Hf) as (k & E1 & E2). fold dir in E1, E2.
  set (argv := set_nth (file_arg (e_argv e0)) name (e_argv e0)) in *.
  assert (LM: if live f then limits (e_p (with_path e0)) (flow_st f) else limits_end (e_p (with_path e0)) f).
  { refine (rows_inv (with_path e0) argv (limits (e_p (with_path e0))) (limits_end (e_p (with_path e0))) _ _ _ _ _ Hf); [|repeat split; cbn; try discriminate; lia].
    intros path s0 f0. apply (one_file_inv2 e0 (limits (e_p (with_path e0))) (fun _ _ => limits_end (e_p (with_path e0)))).
    - intros. eapply limits_step; eauto.
    - intros s1 p0 K. exact K.
    - intros s1 first k1 k2 K _ _. exact K.
    - intros argv0 il0 s1 code status msg f1 K M X. apply exit_with_inv in X. destruct X as (_ & s' & -> & (t & _ & ->)). split; [lia|exact K]. }
  apply finish_counts in H. destruct H as (F1 & _ & F3 & F4). rewrite F3, F1. cbn [s_log start opened flat_map app] in E1. exists k. split; [exact E1|].
  intros Cd S M. rewrite E1. apply firstn_all2. apply E2. destruct f as [s|s|s|c s]; cbn [live flow_st limits_end] in *; try reflexivity; exfalso.
  - destruct LM as [(_ & K & _)|(_ & _ & K)]; [|now apply M]. change (single_sat (e_p (with_path e0))) with (single_sat (e_p e0)) in K. congruence.
  - destruct LM as (K & _). destruct F4 as (F4 & _). congruence.
Qed.

Lemma file_opened : forall e0 l1 l2 nm fin arg, skymap e0 l1 l2 nm = Ok fin ->
  nth_error (e_argv e0) (file_arg (e_argv e0)) = Some arg -> (forall name, arg <> 64 :: name) ->
  opened (f_log fin) = [if existsb (Z.eqb 47) arg then arg else p_tle_path (e_p (with_path e0)) ++ 47 :: arg].
Proof.
  intros e0 l1 l2 nm fin arg H HA NA. unfold skymap in H. cbv zeta in H. change (e_argv (with_path e0)) with (e_argv e0) in H. rewrite HA in H.
  set (pa := if existsb (Z.eqb 47) arg then arg else p_tle_path (e_p (with_path e0)) ++ 47 :: arg) in *.
  assert (X: (path <- c_sprintf 200 pa ;; f <- one_file (with_path e0) (e_argv e0) false path (start l1 l2 nm (open_json ++ preamble (with_path e0) arg)) ;; finish (with_path e0) (e_argv e0) false f) = Ok fin).
  { destruct arg as [|a arg]; [exact H|]. destruct (Z.eq_dec a 64) as [->|N]; [exfalso; now apply (NA arg)|].
    destruct a as [|a|a]; try exact H. do 7 (destruct a as [a|a|]; try exact H). exfalso. now apply N. }
  clear H. inv_bind X path Hp. inv_bind X f Hf. destruct (one_file_log _ _ _ _ _ _ Hf) as (L & EL & OL).
  apply finish_counts in X. destruct X as (_ & _ & -> & _). rewrite EL, opened_app. cbn. fold (opened L). rewrite OL.
  unfold c_sprintf in Hp. destruct (S (length pa) <=? 200)%nat; [apply ok_inj in Hp; now subst|discriminate Hp].
Qed.

(** ** Trimming *)
Lemma trimend_spec : forall t r b, ~ In 0 t -> trimend (t ++ 0 :: r) = Ok b -> Exists (fun c => ~ white c) t ->
  exists a, c_text b = Ok a /\ trimmed a t /\ length b = length (t ++ 0 :: r).
Proof.
  intros t r b N H X. pose proof (trimend_length _ _ H) as LB. unfold trimend in H. rewrite c_text_nul in H by exact N. cbn [bind] in H. destruct t as [|c t]; [inversion X|].
  apply store_text in H. destruct H as (y & ->). exists (c :: rev (drop_space (rev t))). split; [|split; [apply trim_text; [now right|exact X]|exact LB]].
  apply c_text_nul. intros [K|K]; [apply N; now left|]. apply N. right. apply in_rev in K. apply in_rev. destruct (drop_space_spec (rev t)) as (w & -> & _). apply in_or_app. now right.
Qed.
Lemma trimend_total : forall t r, ~ In 0 t -> t <> [] -> exists b, trimend (t ++ 0 :: r) = Ok b.
Proof.
  intros t r N T. unfold trimend. rewrite c_text_nul by exact N. cbn [bind]. destruct t as [|c t]; [contradiction|]. unfold c_store.
  destruct (drop_space_spec (rev t)) as (w & E & _).
  assert (L: (length (drop_space (rev t)) <= length t)%nat) by (pose proof (f_equal (@length Z) E) as Q; rewrite rev_length, app_length in Q; lia).
  destruct (Nat.leb_spec (S (length (c :: rev (drop_space (rev t))))) (length ((c :: t) ++ 0 :: r))) as [_|K]; [now eexists|].
  exfalso. cbn [length app] in K. rewrite rev_length, app_length in K. cbn [length] in K. lia.
Qed.

(** ** Numbers in requests *)
(** ** Numbers in requests *)
Lemma strtol_shows : forall s n, shows_nat s n -> c_strtol (s ++ [0]) = Ok n.
Proof.
  intros s n (k & ds & -> & Hne & HF & <-). rewrite <- app_assoc. now apply strtol_digits.
Qed.
Lemma plain_code_shows : forall m, 0 <= m < 100000 -> shows_nat (encode_norad m) m.
Proof.
  intros m M. exists O, (encode_norad m). split; [reflexivity|]. unfold encode_norad. destruct (Z.ltb_spec m 100000); [|lia].
  assert (D: forall k, 0 <= dig 10 m k < 10) by (intro k; unfold dig; apply Z.mod_pos_bound; lia).
  assert (S: forall d, 0 <= d < 10 -> sym d = 48 + d).
  { intros d Hd. assert (C: d = 0 \/ d = 1 \/ d = 2 \/ d = 3 \/ d = 4 \/ d = 5 \/ d = 6 \/ d = 7 \/ d = 8 \/ d = 9) by lia.
    repeat (destruct C as [->|C]; [reflexivity|]). rewrite C. reflexivity. }
  cbn [map]. rewrite !S by apply D. split; [discriminate|]. split.
  - repeat constructor; unfold digit; pose proof (D 4); pose proof (D 3); pose proof (D 2); pose proof (D 1); pose proof (D 0); lia.
  - unfold dec. cbn [fold_left]. unfold dig. change (10 ^ 4) with 10000. change (10 ^ 3) with 1000. change (10 ^ 2) with 100. change (10 ^ 1) with 10. change (10 ^ 0) with 1.
    rewrite Z.div_1_r. clear D S. Ltac Zify.zify_post_hook ::= Z.div_mod_to_equations. lia.
Qed.

(** ** Designators *)
Lemma desig_general : forall year number p1 rest, 1957 <= year <= 2056 -> 1 <= number <= 999 -> letter p1 -> (length rest <= 2)%nat ->
  desig_text (desig_field year number (p1 :: rest)) = Ok (firstn 9 (designator year number (p1 :: rest))).
Proof.
  intros year number p1 rest Y N P L. unfold desig_field, designator. cbn [map app].
  set (y3 := dig 10 year 3). set (y2 := dig 10 year 2). set (y1 := dig 10 year 1). set (y0 := dig 10 year 0). set (n2 := dig 10 number 2). set (n1 := dig 10 number 1). set (n0 := dig 10 number 0).
  assert (B: 0 <= y1 < 10 /\ 0 <= y0 < 10 /\ 0 <= n2 < 10 /\ 0 <= n1 < 10 /\ 0 <= n0 < 10) by (repeat split; try (apply Z.mod_pos_bound; lia)).
  set (tl := repeat 32 (3 - length (p1 :: rest))).
  unfold desig_text. unfold rd. cbn [nth_error bind].
  destruct (Z.eqb_spec (48 + y1) 32) as [K|_]; [lia|].
  assert (A: c_atoi ((48 + y1 :: 48 + y0 :: 48 + n2 :: 48 + n1 :: 48 + n0 :: p1 :: rest ++ tl) ++ [0]) = Ok (10000 * y1 + 1000 * y0 + 100 * n2 + 10 * n1 + n0)).
  { change ((48 + y1 :: 48 + y0 :: 48 + n2 :: 48 + n1 :: 48 + n0 :: p1 :: rest ++ tl) ++ [0]) with ([48 + y1; 48 + y0; 48 + n2; 48 + n1; 48 + n0] ++ p1 :: (rest ++ tl) ++ [0]).
    apply atoi_shows; [|cbn; lia|unfold is_digit, letter in *; destruct (Z.leb_spec 48 p1); destruct (Z.leb_spec p1 57); try reflexivity; lia].
    exists O, [48 + y1; 48 + y0; 48 + n2; 48 + n1; 48 + n0]. split; [reflexivity|]. split; [discriminate|]. split.
    - repeat (apply Forall_cons; [unfold digit; lia|]). apply Forall_nil.
    - unfold dec. cbn [fold_left]. lia. }
  rewrite A. cbn [bind]. f_equal.
  assert (V: number = 100 * n2 + 10 * n1 + n0).
  { unfold n2, n1, n0, dig. change (10 ^ 2) with 100. change (10 ^ 1) with 10. change (10 ^ 0) with 1. rewrite Z.div_1_r. clear - N. Ltac Zify.zify_post_hook ::= Z.div_mod_to_equations. lia. }
  assert (YY: year = 1000 * y3 + 100 * y2 + 10 * y1 + y0 /\ 0 <= y2 < 10).
  { unfold y3, y2, y1, y0, dig. change (10 ^ 3) with 1000. change (10 ^ 2) with 100. change (10 ^ 1) with 10. change (10 ^ 0) with 1. rewrite Z.div_1_r. clear - Y. lia. }
  clearbody y3 y2 y1 y0 n2 n1 n0. cbn [firstn skipn app].
  destruct (Z.ltb_spec 57000 (10000 * y1 + 1000 * y0 + 100 * n2 + 10 * n1 + n0)) as [C|C].
  - assert (y3 = 1 /\ y2 = 9) as (-> & ->) by lia. reflexivity.
  - assert (y3 = 2 /\ y2 = 0) as (-> & ->) by lia. reflexivity.
Qed.
Lemma desig_one_letter : forall year number p, 1957 <= year <= 2056 -> 1 <= number <= 999 -> letter p ->
  desig_text (desig_field year number [p]) = Ok (designator year number [p]).
Proof. intros. rewrite desig_general by (assumption || (cbn; lia)). reflexivity. Qed.
