(** Counters, duplicate list and printed text along a run. *)
From Coq Require Import String Ascii ZArith List Bool Lia.
From Verif Require Import CLib FloatModel TleModel IoModel SkymapModel SkymapSpec SkymapProofs1.
Import ListNotations.
Open Scope Z_scope.

Definition entry_text (p : params) (i : item) : list Z :=
  match entry_json (p_geoloc p || single_sat p) (i_name i) (i_desig i) (i_tle i) (i_num i) with Ok en => en | UB _ => [] end.
Definition body (p : params) (l : list item) : list Z :=
  if p_info_only p then [] else match l with [] => [] | _ => fieldsdesc_json ++ q " 'satellites': [" ++ join (map (entry_text p) l) end.

Definition tally (p : params) (out0 : list Z) (s : st) : Prop :=
  s_found s = Z.of_nat (length (listing (s_log s))) /\
  s_sunlit s = Z.of_nat (length (sunlit_items (listing (s_log s)))) /\
  s_out s = out0 ++ body p (listing (s_log s)) /\
  (p_info_only p = false -> Forall (fun i => exists en, entry_json (p_geoloc p || single_sat p) (i_name i) (i_desig i) (i_tle i) (i_num i) = Ok en) (listing (s_log s))).

Lemma listing_app : forall a b, listing (a ++ b) = listing a ++ listing b.
Proof. intros. apply flat_map_app. Qed.
Lemma codes_app : forall a b, entered_codes (a ++ b) = entered_codes a ++ entered_codes b.
Proof. intros. apply flat_map_app. Qed.
Lemma examined_app : forall a b, examined (a ++ b) = examined a ++ examined b.
Proof. intros. apply flat_map_app. Qed.
Lemma opened_app : forall a b, opened (a ++ b) = opened a ++ opened b.
Proof. intros. apply flat_map_app. Qed.
Lemma join_snoc : forall l a, l <> [] -> join (l ++ [a]) = join l ++ [44; 32] ++ a.
Proof.
  induction l as [|x l IH]; intros a N; [congruence|]. destruct l as [|y l]; [reflexivity|].
  change (join ((x :: y :: l) ++ [a])) with (x ++ [44; 32] ++ join ((y :: l) ++ [a])). rewrite IH by discriminate.
  change (join (x :: y :: l)) with (x ++ [44; 32] ++ join (y :: l)). now rewrite <- !app_assoc.
Qed.

(** Events that list nothing. *)
Lemma tally_log : forall p o s s', tally p o s -> listing (s_log s') = listing (s_log s) -> s_found s' = s_found s -> s_sunlit s' = s_sunlit s ->
  s_out s' = s_out s -> tally p o s'.
Proof. intros p o s s' (A & B & C & D) L F S O. unfold tally. rewrite L, F, S, O. tauto. Qed.

Lemma tally_listed : forall p o s en name desig t n, tally p o s ->
  (p_info_only p = false -> entry_json (p_geoloc p || single_sat p) name desig t n = Ok en) ->
  tally p o (listed p en name desig t n (cut16 s)).
Proof.
  intros p o s en name desig t n (F & S & O & J) E. unfold tally.
  assert (L: s_log (listed p en name desig t n (cut16 s)) = s_log s ++ [EvList name desig t n]) by (unfold listed, cut16; destruct (p_info_only p); reflexivity).
  assert (LL: listing (s_log (listed p en name desig t n (cut16 s))) = listing (s_log s) ++ [mk_item name desig t n]) by (rewrite L, listing_app; reflexivity).
  rewrite LL. split; [|split; [|split]].
  - rewrite app_length. cbn [length]. unfold listed, cut16. cbn [set_counts s_found set_lines]. lia.
  - unfold sunlit_items in *. rewrite filter_app, app_length. unfold listed, cut16. cbn [set_counts s_sunlit set_lines filter i_num]. rewrite S. destruct (n_sunlit n); cbn [length]; lia.
  - unfold listed, cut16, body in *. destruct (p_info_only p) eqn:I; cbn [set_counts s_out note set_lines print]; [exact O|].
    rewrite O. unfold lead. cbn [s_found set_lines]. rewrite F. rewrite <- app_assoc. f_equal. specialize (E eq_refl).
    destruct (listing (s_log s)) as [|i0 r] eqn:Li.
    + cbn [length]. change (0 <? Z.of_nat 0) with false. cbn iota. cbn [app map join]. unfold entry_text. cbn [i_name i_desig i_tle i_num]. rewrite E. now rewrite <- app_assoc.
    + replace (0 <? Z.of_nat (length (i0 :: r))) with true by (symmetry; apply Z.ltb_lt; cbn [length]; lia). cbn iota.
      change ((i0 :: r) ++ [mk_item name desig t n]) with (i0 :: (r ++ [mk_item name desig t n])). cbn iota.
      change (i0 :: (r ++ [mk_item name desig t n])) with ((i0 :: r) ++ [mk_item name desig t n]). rewrite map_app.
      change (map (entry_text p) [mk_item name desig t n]) with [entry_text p (mk_item name desig t n)]. rewrite join_snoc by discriminate.
      assert (En: entry_text p (mk_item name desig t n) = en) by (unfold entry_text; cbn [i_name i_desig i_tle i_num]; now rewrite E).
      rewrite En, <- !app_assoc. reflexivity.
  - intro I. apply Forall_app. split; [exact (J I)|]. constructor; [|constructor]. exists en. cbn [i_name i_desig i_tle i_num]. now apply E.
Qed.

(** Output at an error exit in the loop. *)
Definition exit_out (argv : list (list Z)) (il : bool) (status : Z) (msg : list Z) (s s' : st) : Prop :=
  exists t, close_stat argv il status msg (s_found s) 0 (s_sunlit s) = Ok t /\ s' = print t s.
Lemma exit_with_inv : forall e argv il code status msg s f, exit_with e argv il code status msg s = Ok f ->
  (length msg < 128)%nat /\ exists s', f = Exited code s' /\ exit_out argv il status msg s s'.
Proof.
  intros e argv il code status msg s f H. unfold exit_with in H. inv_bind H m H1. inv_bind H t H2. injection H as <-.
  unfold c_sprintf in H1. destruct (Nat.leb_spec (S (length msg)) 128); [|discriminate H1]. injection H1 as <-.
  split; [lia|]. eexists. split; [reflexivity|]. exists t. tauto.
Qed.

(** A path that was opened or tried. *)
Definition known (e : env) (s : st) (path : list Z) : Prop :=
  (exists l, s_log s = l ++ [EvOpen path]) \/ (s_log s = [] /\ exists a, nth_error (e_argv e) (file_arg (e_argv e)) = Some (64 :: a) /\ path = p_tle_path (e_p e) ++ 47 :: a).
(** What leaves the loop. *)
Definition left_ok (e : env) (o : list Z) (argv : list (list Z)) (il : bool) (f : flow) : Prop :=
  match f with
  | Exited code s' => (code = 1 /\ tally (e_p e) o s' /\ exists l c t n, s_log s' = l ++ [EvNew c t n] /\ n_nan n = false /\ n_theta_ok n = false) \/
      exists s status msg, tally (e_p e) o s /\ exit_out argv il status msg s s' /\ s_log s' = s_log s /\
      ((code = 1 /\ status = 2 /\ msg = bytes "Could not decode TLE data" /\ exists l c t n, s_log s = l ++ [EvNew c t n] /\ n_nan n = true) \/
       (code = 2 /\ status = 2 /\ exists path, known e s path /\ msg = bytes "Could not open input file " ++ path) \/
       (code = -2 /\ status = -2 /\ exists path, known e s path /\ msg = bytes "Could not read first TLE line from file " ++ path))
  | _ => tally (e_p e) o (flow_st f)
  end.
Lemma tally_step : forall e argv il o chunk s f, tally (e_p e) o s -> ps e argv il chunk s f ->
  if live f then tally (e_p e) o (flow_st f) else left_ok e o argv il f.
Proof.
  intros e argv il o chunk s f T H.
  assert (M: forall s0 s', tally (e_p e) o s0 -> move s0 s' -> tally (e_p e) o s').
  { intros s0 s' T0 (l1 & nm & -> & _). now apply (tally_log (e_p e) o s0). }
  destruct H as [l2 code t f H0 H1 H2 (s' & -> & H3)|l2 t f0 f H0 H1 H2 H3].
  - cbn [live flow_st]. refine (M _ _ _ H3). now apply (tally_log (e_p e) o s).
  - assert (T0: tally (e_p e) o (note (EvExam t) (set_lines (s_line1 s) l2 s))).
    { apply (tally_log (e_p e) o s); try assumption; try reflexivity. cbn [note s_log set_lines]. rewrite listing_app. cbn [listing flat_map]. now rewrite app_nil_r. }
    set (s0 := note (EvExam t) (set_lines (s_line1 s) l2 s)) in *.
    assert (R: if live f0 then tally (e_p e) o (flow_st f0) else left_ok e o argv il f0).
    { destruct H2 as [code C1 C2|code sf d C1 C2 C3 C4|code sf d C1 C2 C3 C4|code sf d s1 f0 C1 C2 C3 C4 C5 C6 C7]; cbn [live flow_st].
      - exact T0.
      - now apply (tally_log (e_p e) o s0).
      - apply (tally_log (e_p e) o s0); try assumption; try reflexivity. cbn [note s_log set_sfound]. rewrite listing_app. cbn [listing flat_map]. now rewrite app_nil_r.
      - assert (T1: tally (e_p e) o s1).
        { rewrite C5. unfold entered. apply (tally_log (e_p e) o s0); try assumption; try reflexivity. cbn [note s_log set_seen set_sfound]. rewrite listing_app. cbn [listing flat_map]. now rewrite app_nil_r. }
        destruct C7 as [f1 N E|N A|f1 N A R].
        + apply exit_with_inv in E. destruct E as (_ & s' & -> & X). cbn [live left_ok]. right. exists s1, 2, (bytes "Could not decode TLE data").
          split; [exact T1|]. split; [exact X|]. split; [destruct X as (tx & _ & ->); reflexivity|]. left. repeat (split; [reflexivity|]). rewrite C5. unfold entered. cbn [note s_log set_seen set_sfound]. eauto 6.
        + exact T1.
        + destruct R as [R1|R1 R2 R3|desig name en s' f1 R1 R2 R3 R4 R5 R6 R7 R8|R1 R2 R3]; cbn [live flow_st].
          * exact T1.
          * now apply (tally_log (e_p e) o s1).
          * assert (T2: tally (e_p e) o s') by (rewrite R6; now apply tally_listed).
            destruct (s_sfound s1 || (s_found s1 + 1 =? p_max_sats (e_p e))); rewrite R7; exact T2.
          * left. split; [reflexivity|]. split; [now apply (tally_log (e_p e) o s1)|]. rewrite C5. unfold entered, cut16. cbn [note s_log set_seen set_sfound set_lines]. eauto 8. }
    destruct f0 as [s1|s1|s1|k s1]; cbn [live flow_st] in R.
    + destruct H3 as (s' & -> & Mv). exact (M _ _ R Mv).
    + subst f. exact R.
    + subst f. exact R.
    + subst f. exact R.
Qed.

(** Invariants lifted to the whole program. *)
Section Program.
  Variable e0 : env.
  Let e := with_path e0.
  Variable P : st -> Prop.
  Variable Q : list (list Z) -> bool -> flow -> Prop.
  Variable l1 l2 nm : list Z.
  Hypothesis step : forall argv il chunk s f, P s -> ps e argv il chunk s f -> if live f then P (flow_st f) else Q argv il f.
  Hypothesis opens : forall s path, P s -> P (note (EvOpen path) s).
  Hypothesis begins : forall s first l1 nm, P s -> c_store (s_line1 s) first = Ok l1 -> take_name l1 (s_name s) = Ok nm -> P (set_name nm (set_lines l1 (s_line2 s) s)).
  Hypothesis fails : forall argv il s code status msg f, P s -> 
    (code = 2 /\ status = 2 /\ (exists path, known e s path /\ msg = bytes "Could not open input file " ++ path) \/
     code = -2 /\ status = -2 /\ (exists path, known e s path /\ msg = bytes "Could not read first TLE line from file " ++ path)) ->
    exit_with e argv il code status msg s = Ok f -> Q argv il f.
  Lemma one_file_inv2 : forall argv il path s f, P s -> one_file e argv il path s = Ok f -> if live f then P (flow_st f) else Q argv il f.
  Proof.
    intros argv il path s f H R. unfold one_file in R. cbv zeta in R. destruct (e_fs e path) as [contents|].
    - destruct (fgets_seq 99 contents) as [|first rest].
      + assert (L: live f = false) by (apply exit_with_inv in R; destruct R as (_ & s' & -> & _); reflexivity).
        rewrite L. refine (fails argv il _ _ _ _ f (opens s path H) _ R). right. split; [reflexivity|]. split; [reflexivity|]. exists path. split; [|reflexivity]. left. cbn [note s_log]. eauto.
      + inv_bind R k1 R1. inv_bind R k2 R2. refine (passes_inv e argv il P (Q argv il) (step argv il) rest _ f _ R). exact (begins _ first k1 k2 (opens s path H) R1 R2).
    - assert (L: live f = false) by (apply exit_with_inv in R; destruct R as (_ & s' & -> & _); reflexivity).
      rewrite L. refine (fails argv il _ _ _ _ f (opens s path H) _ R). left. split; [reflexivity|]. split; [reflexivity|]. exists path. split; [|reflexivity]. left. cbn [note s_log]. eauto.
  Qed.
  Lemma skymap_inv : forall fin, skymap e0 l1 l2 nm = Ok fin -> (forall out, (out = open_json \/ exists file, out = open_json ++ preamble e file) -> P (start l1 l2 nm out)) ->
    exists argv il f, finish e argv il f = Ok fin /\ if live f then P (flow_st f) else Q argv il f.
  Proof.
    intros fin H B. unfold skymap in H. cbv zeta in H. fold e in H. destruct (nth_error (e_argv e) (file_arg (e_argv e))) as [arg|] eqn:EA; [|discriminate H].
    assert (One: forall a, (path <- c_sprintf 200 (if existsb (Z.eqb 47) a then a else p_tle_path (e_p e) ++ 47 :: a) ;;
       f <- one_file e (e_argv e) false path (start l1 l2 nm (open_json ++ preamble e a)) ;; finish e (e_argv e) false f) = Ok fin ->
       exists argv il f, finish e argv il f = Ok fin /\ if live f then P (flow_st f) else Q argv il f).
    { intros a K. inv_bind K path K1. inv_bind K f K2. exists (e_argv e), false, f. split; [exact K|]. refine (one_file_inv2 _ _ _ _ _ _ K2). apply B. eauto. }
    assert (Lst: forall a, arg = 64 :: a -> (path <- c_sprintf 200 (p_tle_path (e_p e) ++ 47 :: a) ;;
       match e_fs e path with
       | None => f <- exit_with e (set_nth (file_arg (e_argv e)) a (e_argv e)) true 2 2 (bytes "Could not open input file " ++ path) (start l1 l2 nm open_json) ;;
                 finish e (set_nth (file_arg (e_argv e)) a (e_argv e)) true f
       | Some contents => f <- rows e (set_nth (file_arg (e_argv e)) a (e_argv e)) (fgets_seq 63 contents) (start l1 l2 nm (open_json ++ preamble e a)) ;;
                 finish e (set_nth (file_arg (e_argv e)) a (e_argv e)) true f
       end) = Ok fin -> exists argv il f, finish e argv il f = Ok fin /\ if live f then P (flow_st f) else Q argv il f).
    { intros a -> K. inv_bind K path K1. destruct (e_fs e path) as [contents|]; inv_bind K f K2.
      - eexists. exists true, f. split; [exact K|]. refine (rows_inv e _ P (Q _ true) _ _ _ _ _ K2); [intros; eapply one_file_inv2; eauto|]. apply B. eauto.
      - eexists. exists true, f. split; [exact K|].
        assert (L: live f = false) by (apply exit_with_inv in K2; destruct K2 as (_ & s' & -> & _); reflexivity).
        rewrite L. refine (fails _ _ _ _ _ _ f (B open_json (or_introl eq_refl)) _ K2). left. split; [reflexivity|]. split; [reflexivity|]. exists path. split; [|reflexivity]. right. split; [reflexivity|]. exists a. split; [exact EA|].
        unfold c_sprintf in K1. destruct (S (length (p_tle_path (e_p e) ++ 47%Z :: a)) <=? 200)%nat; [apply ok_inj in K1; now symmetry|discriminate K1]. }
    destruct arg as [|c a]; [exact (One [] H)|].
    destruct (Z.eq_dec c 64) as [->|N]; [exact (Lst a eq_refl H)|]. apply (One (c :: a)).
    destruct c as [|c|c]; try exact H. do 7 (destruct c as [c|c|]; try exact H). exfalso. now apply N.
  Qed.
End Program.
