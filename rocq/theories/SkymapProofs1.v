(** What one pass of the record loop can do. *)
From Coq Require Import String Ascii ZArith List Bool Lia.
From Verif Require Import CLib FloatModel TleModel IoModel SkymapModel.
Import ListNotations.
Open Scope Z_scope.

Lemma bind_ok : forall {A B} (m : res A) (k : A -> res B) b, (x <- m ;; k x) = Ok b -> exists a, m = Ok a /\ k a = Ok b.
Proof. intros A B m k b H. destruct m as [a|]; [exists a; split; [reflexivity|exact H]|discriminate H]. Qed.
Lemma ok_inj : forall {A} (a b : A), Ok a = Ok b -> a = b.
Proof. intros A a b H. now injection H. Qed.
Ltac inv_bind H x Hx := apply bind_ok in H; destruct H as (x & Hx & H).

Definition code_of (s : st) : res (list Z) := c <- strncpy_bytes (adv (s_line1 s) 2) 5 ;; c_text (c ++ [0]).

(** State once the satellite is entered in the list of met satellites. *)
Definition entered (e : env) (code : list Z) (t : tle_t) (sf : bool) (s : st) : st :=
  note (EvNew code t (e_num e (processed s) t))
    (set_seen (s_seen s ++ code ++ [44]) (s_use s + 6) (if s_cur s <=? s_use s then s_cur s + 10000 else s_cur s) (set_sfound sf s)).
Definition cut16 (s : st) : st := set_lines (firstn 16 (s_line1 s) ++ 0 :: skipn 17 (s_line1 s)) (s_line2 s) s.

(** State once the satellite is listed. *)
Definition lead (s : st) : list Z := if 0 <? s_found s then bytes ", " else fieldsdesc_json ++ q " 'satellites': [".
Definition listed (p : params) (en name desig : list Z) (t : tle_t) (n : num) (s : st) : st :=
  set_counts (s_found s + 1) (s_sunlit s + (if n_sunlit n then 1 else 0))
    (note (EvList name desig t n) (if p_info_only p then s else print (lead s ++ en) s)).

Inductive rp (e : env) (t : tle_t) (n : num) (desig0 : list Z) (s : st) : flow -> Prop :=
| rp_out : selected (e_p e) n = false -> rp e t n desig0 s (Next s)
| rp_dark : selected (e_p e) n = true -> p_sunlit_only (e_p e) = true -> n_sunlit n = false -> rp e t n desig0 s (Continue (cut16 s))
| rp_list desig name en s' f :
    selected (e_p e) n = true -> (p_sunlit_only (e_p e) = true -> n_sunlit n = true) ->
    (if p_single_i (e_p e) then Ok desig0 else desig_text (tle_intl_desig t)) = Ok desig ->
    c_text (s_name s) = Ok name ->
    (p_info_only (e_p e) = false -> entry_json (p_geoloc (e_p e) || single_sat (e_p e)) name desig t n = Ok en) ->
    s' = listed (e_p e) en name desig t n (cut16 s) ->
    f = (if s_sfound s || (s_found s + 1 =? p_max_sats (e_p e)) then EndChecking s' else Next s') ->
    n_theta_ok n = true -> rp e t n desig0 s f
| rp_stop : selected (e_p e) n = true -> (p_sunlit_only (e_p e) = true -> n_sunlit n = true) -> n_theta_ok n = false ->
    rp e t n desig0 s (Exited 1 (cut16 s)).

Lemma report_rp : forall e t n d s f, report e t n d s = Ok f -> rp e t n d s f.
Proof.
  intros e t n d s f H. unfold report in H. cbv zeta in H. destruct (selected (e_p e) n) eqn:S; [|injection H as <-; now constructor].
  fold (cut16 s) in H. destruct (p_sunlit_only (e_p e) && negb (n_sunlit n)) eqn:D.
  { injection H as <-. apply andb_prop in D. destruct D as [D1 D2]. apply negb_true_iff in D2. now constructor. }
  inv_bind H desig Hd.
  assert (SL: p_sunlit_only (e_p e) = true -> n_sunlit n = true).
  { intro P. rewrite P in D. destruct (n_sunlit n); [reflexivity|discriminate D]. }
  destruct (n_theta_ok n) eqn:TH; cbn [negb] in H; [|injection H as <-; now apply rp_stop].
  inv_bind H name Hn. inv_bind H s' Hs.
  destruct (p_info_only (e_p e)) eqn:I.
  - injection Hs as <-. apply (rp_list e t n d s desig name [] (listed (e_p e) [] name desig t n (cut16 s))); try assumption; try reflexivity.
    + intro K. rewrite I in K. discriminate K.
    + unfold listed. rewrite I. cbn [cut16 set_lines note set_counts s_sfound s_found] in H |- *. destruct (s_sfound s || (s_found s + 1 =? p_max_sats (e_p e))); injection H as <-; reflexivity.
  - inv_bind Hs en He. injection Hs as <-. apply (rp_list e t n d s desig name en (listed (e_p e) en name desig t n (cut16 s))); try assumption; try reflexivity.
    + intros _. exact He.
    + unfold listed. rewrite I. unfold lead. cbn [cut16 set_lines note set_counts print s_sfound s_found] in H |- *. destruct (s_sfound s || (s_found s + 1 =? p_max_sats (e_p e))); injection H as <-; reflexivity.
Qed.

Inductive tn (e : env) (argv : list (list Z)) (il : bool) (t : tle_t) (n : num) (d : list Z) (s1 : st) : flow -> Prop :=
| tn_nan f : n_nan n = true -> exit_with e argv il 1 2 (bytes "Could not decode TLE data") s1 = Ok f -> tn e argv il t n d s1 f
| tn_alt : n_nan n = false -> alt_rejects (e_p e) n = true -> tn e argv il t n d s1 (Continue s1)
| tn_rep f : n_nan n = false -> alt_rejects (e_p e) n = false -> rp e t n d s1 f -> tn e argv il t n d s1 f.
Inductive tf (e : env) (argv : list (list Z)) (il : bool) (t : tle_t) (s : st) : flow -> Prop :=
| tf_filter code : code_of s = Ok code -> selection (e_p e) t code (s_name s) (s_sfound s) = Ok None -> tf e argv il t s (Continue s)
| tf_wait code sf d : code_of s = Ok code -> selection (e_p e) t code (s_name s) (s_sfound s) = Ok (Some (sf, d)) ->
    single_sat (e_p e) = true -> sf = false -> tf e argv il t s (Continue (set_sfound sf s))
| tf_dup code sf d : code_of s = Ok code -> selection (e_p e) t code (s_name s) (s_sfound s) = Ok (Some (sf, d)) ->
    (single_sat (e_p e) = true -> sf = true) -> strstrb (s_seen s) (code ++ [44]) = true ->
    tf e argv il t s (Continue (note (EvDup code) (set_sfound sf s)))
| tf_new code sf d s1 f : code_of s = Ok code -> selection (e_p e) t code (s_name s) (s_sfound s) = Ok (Some (sf, d)) ->
    (single_sat (e_p e) = true -> sf = true) -> strstrb (s_seen s) (code ++ [44]) = false ->
    s1 = entered e code t sf s -> Z.of_nat (length (s_seen s1)) + 1 <= s_cur s1 ->
    tn e argv il t (e_num e (processed s) t) d s1 f -> tf e argv il t s f.

Lemma tle_found_tf : forall e argv il t s f, tle_found e argv il t s = Ok f -> tf e argv il t s f.
Proof.
  intros e argv il t s f H. unfold tle_found in H. cbv zeta in H. inv_bind H c0 H0. inv_bind H code H1. inv_bind H sel H2.
  assert (C: code_of s = Ok code) by (unfold code_of; rewrite H0; exact H1).
  destruct sel as [[sf d]|]; [|injection H as <-; exact (tf_filter _ _ _ _ _ code C H2)].
  destruct (single_sat (e_p e) && negb sf) eqn:W.
  { injection H as <-. apply andb_prop in W. destruct W as [W1 W2]. apply negb_true_iff in W2. exact (tf_wait _ _ _ _ _ code sf d C H2 W1 W2). }
  assert (SF: single_sat (e_p e) = true -> sf = true) by (intro K; rewrite K in W; destruct sf; [reflexivity|discriminate W]).
  change (s_seen (set_sfound sf s)) with (s_seen s) in H. change (s_cur (set_sfound sf s)) with (s_cur s) in H. change (s_use (set_sfound sf s)) with (s_use s) in H.
  change (processed (set_sfound sf s)) with (processed s) in H.
  destruct (strstrb (s_seen s) (code ++ [44])) eqn:D; [injection H as <-; exact (tf_dup _ _ _ _ _ code sf d C H2 SF D)|].
  match type of H with (if ?b then _ else _) = _ => destruct b eqn:B; [discriminate H|] end. apply Z.ltb_ge in B.
  apply (tf_new e argv il t s code sf d (entered e code t sf s) f C H2 SF D eq_refl B).
  unfold entered. destruct (n_nan (e_num e (processed s) t)) eqn:N; [apply tn_nan; assumption|].
  destruct (alt_rejects (e_p e) (e_num e (processed s) t)) eqn:A; [injection H as <-; apply tn_alt; assumption|].
  apply tn_rep; try assumption. now apply report_rp.
Qed.

(** One pass: the record part and then the copy of the line. *)
Definition move (s s' : st) : Prop :=
  exists l1 nm, s' = set_name nm (set_lines l1 (s_line2 s) s) /\
    (exists t2, c_text (s_line2 s) = Ok t2 /\ c_store (s_line1 s) t2 = Ok l1) /\
    (exists c, rd (s_line2 s) 0 = Ok c /\
       ((c <> 49 /\ c <> 50 /\ take_name (s_line2 s) (s_name s) = Ok nm) \/ ((c = 49 \/ c = 50) /\ nm = s_name s))).

Inductive ps (e : env) (argv : list (list Z)) (il : bool) (chunk : list Z) (s : st) : flow -> Prop :=
| ps_line l2 code t f : c_store (s_line2 s) chunk = Ok l2 -> parse_elements (s_line1 s) l2 (e_tle0 e) = Ok (code, t) -> code <> 0 ->
    (exists s', f = Next s' /\ move (set_lines (s_line1 s) l2 s) s') -> ps e argv il chunk s f
| ps_tle l2 t f0 f : c_store (s_line2 s) chunk = Ok l2 -> parse_elements (s_line1 s) l2 (e_tle0 e) = Ok (0, t) ->
    tf e argv il t (note (EvExam t) (set_lines (s_line1 s) l2 s)) f0 ->
    match f0 with Next s0 => exists s', f = Next s' /\ move s0 s' | _ => f = f0 end -> ps e argv il chunk s f.

Lemma move_ok : forall s0 f,
  (t2 <- c_text (s_line2 s0) ;; l1 <- c_store (s_line1 s0) t2 ;;
   let s := set_lines l1 (s_line2 s0) s0 in
   c <- rd (s_line2 s) 0 ;;
   if negb (c =? 49) && negb (c =? 50) then n <- take_name (s_line2 s) (s_name s) ;; Ok (Next (set_name n s)) else Ok (Next s)) = Ok f ->
  exists s', f = Next s' /\ move s0 s'.
Proof.
  intros s0 f H. inv_bind H t2 H1. inv_bind H l1 H2. cbv zeta in H. inv_bind H c H3. cbn [set_lines s_line2 s_name] in H3, H.
  destruct (Z.eqb_spec c 49) as [E1|N1]; destruct (Z.eqb_spec c 50) as [E2|N2]; cbn [negb andb] in H.
  - lia.
  - injection H as <-. eexists. split; [reflexivity|]. exists l1, (s_name s0). split; [reflexivity|]. split; [exists t2; tauto|]. exists c. split; [exact H3|right; tauto].
  - injection H as <-. eexists. split; [reflexivity|]. exists l1, (s_name s0). split; [reflexivity|]. split; [exists t2; tauto|]. exists c. split; [exact H3|right; tauto].
  - inv_bind H n H4. injection H as <-. eexists. split; [reflexivity|]. exists l1, n. split; [reflexivity|]. split; [exists t2; tauto|]. exists c. split; [exact H3|left; tauto].
Qed.

Lemma pass_ps : forall e argv il chunk s f, pass e argv il chunk s = Ok f -> ps e argv il chunk s f.
Proof.
  intros e argv il chunk s f H. unfold pass in H. inv_bind H l2 H0. cbv zeta in H. cbn [set_lines s_line1] in H. inv_bind H r H1. destruct r as [code t].
  inv_bind H f0 H2. fold (set_lines (s_line1 s) l2 s) in H2. destruct (Z.eqb_spec code 0) as [->|N].
  - apply tle_found_tf in H2. apply (ps_tle e argv il chunk s l2 t f0 f H0 H1 H2). destruct f0; try (injection H as <-; reflexivity). now apply move_ok.
  - injection H2 as <-. apply (ps_line e argv il chunk s l2 code t f H0 H1 N). now apply move_ok.
Qed.

(** Any property of the state that survives every pass holds in the end. *)
Definition flow_st (f : flow) : st := match f with Next s | Continue s | EndChecking s | Exited _ s => s end.
Definition live (f : flow) : bool := match f with Next _ | Continue _ => true | _ => false end.

Section Invariant.
  Variable e : env.
  Variable argv : list (list Z).
  Variable il : bool.
  Variable P : st -> Prop.            (* while the loop goes on *)
  Variable Q : flow -> Prop.          (* when it is left *)
  Hypothesis step : forall chunk s f, P s -> ps e argv il chunk s f -> if live f then P (flow_st f) else Q f.
  Lemma passes_inv : forall chunks s f, P s -> passes e argv il chunks s = Ok f -> if live f then P (flow_st f) else Q f.
  Proof.
    induction chunks as [|c r IH]; intros s f H R; cbn [passes] in R.
    - injection R as <-. exact H.
    - inv_bind R f0 R0. apply pass_ps in R0. pose proof (step c s f0 H R0) as S. destruct f0 as [s0|s0|s0|k s0]; cbn [live flow_st] in S.
      + exact (IH s0 f S R).
      + exact (IH s0 f S R).
      + injection R as <-. exact S.
      + injection R as <-. exact S.
  Qed.
  (* Opening a file and its first line. *)
  Hypothesis opens : forall s path, P s -> P (note (EvOpen path) s).
  Hypothesis begins : forall s first l1 nm, P s -> c_store (s_line1 s) first = Ok l1 -> take_name l1 (s_name s) = Ok nm -> P (set_name nm (set_lines l1 (s_line2 s) s)).
  Hypothesis fails : forall s code status msg f, P s -> exit_with e argv il code status msg s = Ok f -> Q f.
  Lemma one_file_inv : forall path s f, P s -> one_file e argv il path s = Ok f -> if live f then P (flow_st f) else Q f.
  Proof.
    intros path s f H R. unfold one_file in R. cbv zeta in R. destruct (e_fs e path) as [contents|].
    - destruct (fgets_seq 99 contents) as [|first rest].
      + assert (L: live f = false) by (unfold exit_with in R; inv_bind R m R1; inv_bind R t R2; injection R as <-; reflexivity).
        rewrite L. exact (fails _ _ _ _ f (opens s path H) R).
      + inv_bind R l1 R1. inv_bind R nm R2. eapply passes_inv; [|exact R]. exact (begins _ first l1 nm (opens s path H) R1 R2).
    - assert (L: live f = false) by (unfold exit_with in R; inv_bind R m R1; inv_bind R t R2; injection R as <-; reflexivity).
      rewrite L. exact (fails _ _ _ _ f (opens s path H) R).
  Qed.
End Invariant.

Section InvariantRows.
  Variable e : env.
  Variable argv : list (list Z).
  Variable P : st -> Prop.
  Variable Q : flow -> Prop.
  Hypothesis file : forall path s f, P s -> one_file e argv true path s = Ok f -> if live f then P (flow_st f) else Q f.
  Lemma rows_inv : forall lines s f, P s -> rows e argv lines s = Ok f -> if live f then P (flow_st f) else Q f.
  Proof.
    induction lines as [|row r IH]; intros s f H R; cbn [rows] in R.
    - injection R as <-. exact H.
    - inv_bind R o R0. destruct o as [name|]; [|exact (IH s f H R)]. inv_bind R path R1. inv_bind R f0 R2.
      pose proof (file path s f0 H R2) as S. destruct f0 as [s0|s0|s0|k s0]; cbn [live flow_st] in S.
      + exact (IH s0 f S R).
      + exact (IH s0 f S R).
      + injection R as <-. exact S.
      + injection R as <-. exact S.
  Qed.
End InvariantRows.
