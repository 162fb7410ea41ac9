(** The printed text: well-formedness and the echoed command line. *)
From Coq Require Import String Ascii ZArith List Bool Lia.
From Flocq Require Import IEEE754.BinarySingleNaN.
From Verif Require Import CLib ListLemmas FloatModel TleModel IoModel JsonSpec JsonAcceptor JsonProofs JsonText SkymapModel SkymapSpec SkymapOutSpec SkymapProofs1 SkymapProofs2 SkymapProofs3.
Import ListNotations.
Open Scope Z_scope.

(** How the program was started and what it printed first. *)
Definition began (e : env) (arg : list Z) (argv : list (list Z)) (il : bool) (out0 : list Z) : Prop :=
  (il = false /\ argv = e_argv e /\ (forall r, arg <> 64 :: r) /\ out0 = open_json ++ preamble (with_path e) arg) \/
  (exists a, arg = 64 :: a /\ il = true /\ argv = set_nth (file_arg (e_argv e)) a (e_argv e) /\ (out0 = open_json \/ out0 = open_json ++ preamble (with_path e) a)).

Lemma skymap_output : forall e0 l1 l2 nm fin, skymap e0 l1 l2 nm = Ok fin ->
  exists arg argv il out0 f, nth_error (e_argv e0) (file_arg (e_argv e0)) = Some arg /\ began e0 arg argv il out0 /\
    finish (with_path e0) argv il f = Ok fin /\
    if live f then tally (e_p (with_path e0)) out0 (flow_st f) else left_ok (with_path e0) out0 argv il f.
Proof.
  intros e0 l1 l2 nm fin H. set (e := with_path e0) in *.
  assert (F1: forall out0 argv il path s f, tally (e_p e) out0 s -> one_file e argv il path s = Ok f -> if live f then tally (e_p e) out0 (flow_st f) else left_ok e out0 argv il f).
  { intros out0. apply (one_file_inv2 e0 (tally (e_p e) out0) (fun argv il f => left_ok e out0 argv il f)).
    - intros argv il chunk s f. apply tally_step.
    - intros s path. apply tally_opens.
    - intros s first k1 k2 K _ _. now apply tally_begins.
    - intros argv il s code status msg f K M E. apply exit_with_inv in E. destruct E as (_ & s' & -> & X). cbn [left_ok]. right. exists s, status, msg.
      split; [exact K|]. split; [exact X|]. split; [destruct X as (t & _ & ->); reflexivity|]. tauto. }
  unfold skymap in H. cbv zeta in H. change (e_argv (with_path e0)) with (e_argv e0) in H. destruct (nth_error (e_argv e0) (file_arg (e_argv e0))) as [arg|] eqn:EA; [|discriminate H]. fold e in H.
  assert (One: (forall r, arg <> 64 :: r) -> (path <- c_sprintf 200 (if existsb (Z.eqb 47) arg then arg else p_tle_path (e_p e) ++ 47 :: arg) ;;
       f <- one_file e (e_argv e0) false path (start l1 l2 nm (open_json ++ preamble e arg)) ;; finish e (e_argv e0) false f) = Ok fin ->
       exists arg0 argv il out0 f, Some arg = Some arg0 /\ began e0 arg0 argv il out0 /\ finish e argv il f = Ok fin /\
         if live f then tally (e_p e) out0 (flow_st f) else left_ok e out0 argv il f).
  { intros NA K. inv_bind K path K1. inv_bind K f K2. exists arg, (e_argv e0), false, (open_json ++ preamble e arg), f. split; [reflexivity|]. split; [left; tauto|]. split; [exact K|].
    exact (F1 _ _ _ _ _ _ (tally_start _ _ _ _ _) K2). }
  destruct arg as [|c a]; [apply One; [discriminate|exact H]|].
  destruct (Z.eq_dec c 64) as [->|N].
  - inv_bind H path K1. destruct (e_fs e path) as [contents|]; inv_bind H f K2.
    + exists (64 :: a), (set_nth (file_arg (e_argv e0)) a (e_argv e0)), true, (open_json ++ preamble e a), f. split; [reflexivity|]. split; [right; exists a; tauto|]. split; [exact H|].
      refine (rows_inv e _ (tally (e_p e) (open_json ++ preamble e a)) (left_ok e _ _ true) _ _ _ _ _ K2); [|apply tally_start]. intros path0 s0 f0. apply F1.
    + exists (64 :: a), (set_nth (file_arg (e_argv e0)) a (e_argv e0)), true, open_json, f. split; [reflexivity|]. split; [right; exists a; tauto|]. split; [exact H|].
      apply exit_with_inv in K2. destruct K2 as (_ & s' & -> & X). cbn [live left_ok]. right. eexists. eexists. eexists. split; [apply tally_start|]. split; [exact X|].
      split; [destruct X as (t & _ & ->); reflexivity|]. right. left. split; [reflexivity|]. split; [reflexivity|]. exists path. split; [|reflexivity]. right. split; [reflexivity|]. exists a. split; [exact EA|].
      unfold c_sprintf in K1. destruct (S (length (p_tle_path (e_p e) ++ 47%Z :: a)) <=? 200)%nat; [apply ok_inj in K1; now symmetry|discriminate K1].
  - apply One; [intros r K; congruence|]. destruct c as [|c|c]; try exact H. do 7 (destruct c as [c|c|]; try exact H). exfalso. now apply N.
Qed.

(** ** Pieces *)
Ltac lit := match goal with |- context [run (?m, ?s) (q ?x ++ ?r)] =>
  let v := eval vm_compute in (run (m, s) (q x)) in
  match v with Some ?y => rewrite (run_lit (q x) r (m, s) y) by (vm_compute; reflexivity) end end.
Ltac lit1 := match goal with |- context [run (?m, ?s) (q ?x)] =>
  let v := eval vm_compute in (run (m, s) (q x)) in
  change (run (m, s) (q x)) with v end.
Lemma ends_q : forall x r, ends (q x) -> ends (q x ++ r).
Proof. intros x r H. destruct (q x) as [|c l]; [contradiction|exact H]. Qed.
Ltac delims := first [apply ends_q|idtac]; vm_compute; tauto.
Ltac num1 := match goal with
  | |- context [run (MV, ?s) (print_f ?w ?p ?x ++ ?r)] => rewrite (run_num (print_f w p x) r s) by first [apply print_f_num; [discriminate|assumption]|delims]
  | |- context [run (MA, ?s) (print_f ?w ?p ?x ++ ?r)] => rewrite (run_numA (print_f w p x) r s) by first [apply print_f_num; [discriminate|assumption]|delims]
  | |- context [run (MV, ?s) (print_d ?w ?x ++ ?r)] => rewrite (run_num (print_d w x) r s) by first [apply print_d_num|delims]
  end.
Ltac txt := match goal with |- context [run (MS ?k, ?s) (?t ++ ?r)] => rewrite (run_clean t r k s) by assumption end.
Ltac pieces := repeat first [lit|num1|txt].
Ltac fin H := repeat match type of H with Forall _ (_ :: _) => let A := fresh "F" in let B := fresh H in inversion H as [|? ? A B]; subst; clear H; rename B into H end.

Lemma open_run : forall l, run (MV, []) (open_json ++ l) = run (MK, [FObj]) l.
Proof. intro l. apply run_lit. vm_compute. reflexivity. Qed.
Lemma params_run : forall file p h ra de l s, clean file -> clean (p_date p) ->
  Forall (fun x : b64 => is_finite x = true) [p_lat p; p_lon p; p_ht p; ra; de; p_radius p; h_lmst h; h_az h; h_alt h; h_parang h; p_mjd p; h_gmst h] ->
  run (MK, FObj :: s) (params_json file p h ra de ++ l) = run (MK, FObj :: s) l.
Proof.
  intros file p h ra de l s C D F. fin F. unfold params_json. rewrite <- !app_assoc. pieces. reflexivity.
Qed.
Lemma sun_run : forall h l s, Forall (fun x : b64 => is_finite x = true) [h_sun_ra h; h_sun_dec h; h_sun_az h; h_sun_alt h; h_sun_lon h; h_sun_parang h; h_sun_sep h] ->
  run (MK, FObj :: s) (sun_json h ++ l) = run (MK, FObj :: s) l.
Proof. intros h l s F. fin F. unfold sun_json. rewrite <- !app_assoc. pieces. reflexivity. Qed.
Lemma geofields_run : forall l s, run (MK, FObj :: s) (geofieldsdesc_json ++ l) = run (MK, FObj :: s) l.
Proof. intros l s. unfold geofieldsdesc_json. rewrite <- !app_assoc. pieces. reflexivity. Qed.
Lemma fields_run : forall l s, run (MK, FObj :: s) (fieldsdesc_json ++ l) = run (MK, FObj :: s) l.
Proof. intros l s. unfold fieldsdesc_json. rewrite <- !app_assoc. pieces. reflexivity. Qed.
Lemma latlon_run : forall n l s, num_finite n -> run (MK, FObj :: s) (satlatlon_json n ++ l) = run (MK, FObj :: s) l.
Proof. intros n l s F. unfold num_finite in F. fin F. unfold satlatlon_json. rewrite <- !app_assoc. pieces. reflexivity. Qed.
Lemma entry_run : forall b i en l m s, item_clean i -> entry_json b (i_name i) (i_desig i) (i_tle i) (i_num i) = Ok en -> m = MA \/ m = MV ->
  run (m, FArr :: s) (en ++ l) = run (ME, FArr :: s) l.
Proof.
  intros b i en l m s (C1 & C2 & F) H M. unfold entry_json in H. inv_bind H pa H1. apply ok_inj in H. subst en. rewrite <- !app_assoc.
  assert (G: run (MA, FArr :: s) (q "{'name': '" ++ i_name i ++ q "', 'intl_desig': '" ++ i_desig i ++ q "', 'norad_n': " ++ print_d 0 (norad_number (i_tle i)) ++ q ", ") = Some (MK, FObj :: FArr :: s) /\
             run (MV, FArr :: s) (q "{'name': '" ++ i_name i ++ q "', 'intl_desig': '" ++ i_desig i ++ q "', 'norad_n': " ++ print_d 0 (norad_number (i_tle i)) ++ q ", ") = Some (MK, FObj :: FArr :: s)).
  { split; pieces; lit1; reflexivity. }
  replace (q "{'name': '" ++ _) with ((q "{'name': '" ++ i_name i ++ q "', 'intl_desig': '" ++ i_desig i ++ q "', 'norad_n': " ++ print_d 0 (norad_number (i_tle i)) ++ q ", ") ++
    (if b then satlatlon_json (i_num i) else []) ++
      q "'data': [" ++ print_f 8 4 (n_ra (i_num i)) ++ q "," ++ print_f 8 4 (n_dec (i_num i)) ++ q "," ++ print_f 8 4 (n_ra1 (i_num i)) ++ q "," ++
      print_f 8 4 (n_dec1 (i_num i)) ++ q "," ++ print_f 9 2 (n_dist (i_num i)) ++ q "," ++ print_f 6 4 (n_sep (i_num i)) ++ q "," ++
      print_d 3 pa ++ q "," ++ print_f 6 3 (n_speed (i_num i)) ++ q "," ++ print_d 0 (if n_sunlit (i_num i) then 1 else 0) ++ q "," ++
      print_d 0 (n_id (i_num i)) ++ q "]}" ++ l) by (rewrite <- !app_assoc; reflexivity).
  rewrite run_app. destruct G as (G1 & G2).
  assert (E: run (m, FArr :: s) (q "{'name': '" ++ i_name i ++ q "', 'intl_desig': '" ++ i_desig i ++ q "', 'norad_n': " ++ print_d 0 (norad_number (i_tle i)) ++ q ", ") = Some (MK, FObj :: FArr :: s)) by (destruct M as [->| ->]; assumption).
  rewrite E. clear E G1 G2.
  match goal with |- run _ ((if b then ?x else []) ++ ?r) = _ => assert (E: run (MK, FObj :: FArr :: s) ((if b then x else []) ++ r) = run (MK, FObj :: FArr :: s) r) by (destruct b; [now apply latlon_run|reflexivity]) end.
  rewrite E. clear E. unfold num_finite in F. fin F. pieces. reflexivity.
Qed.

(** ** The whole text *)
Lemma close_run : forall argv il status msg a b c t, Forall clean argv -> clean msg -> close_stat argv il status msg a b c = Ok t -> run (MK, [FObj]) t = Some (ME, []).
Proof.
  intros argv il status msg a b c t C M H. unfold close_stat in H. inv_bind H fs H1. apply ok_inj in H. subst t. rewrite <- ?app_assoc.
  assert (CF: clean fs).
  { destruct il; [|apply ok_inj in H1; subst fs; constructor]. destruct (nth_error argv 1) as [x|] eqn:N; [|discriminate H1]. apply ok_inj in H1. subst fs.
    apply clean_app; [repeat constructor; unfold plain; cbn; lia|]. rewrite Forall_forall in C. apply C. now apply nth_error_In with (n := 1%nat). }
  assert (CA: clean (concat (map (fun a => 32 :: a) (skipn (if il then 2 else 1) argv)))).
  { generalize (if il then 2%nat else 1%nat). intro k. assert (C': Forall clean (skipn k argv)) by (rewrite <- (firstn_skipn k argv) in C; apply Forall_app in C; tauto).
    induction C' as [|x l X L IH]; [constructor|]. cbn [map concat]. apply clean_app; [|exact IH]. constructor; [unfold plain; lia|exact X]. }
  assert (CP: clean progname) by (repeat constructor; unfold plain; cbn; lia).
  pieces. vm_compute. reflexivity.
Qed.
Lemma join_run : forall p l s m rest, Forall item_clean l -> l <> [] -> m = MA \/ m = MV ->
  Forall (fun i => exists en, entry_json (p_geoloc p || single_sat p) (i_name i) (i_desig i) (i_tle i) (i_num i) = Ok en) l ->
  run (m, FArr :: s) (join (map (entry_text p) l) ++ rest) = run (ME, FArr :: s) rest.
Proof.
  intros p l. induction l as [|i l IH]; intros s m rest C N M J; [congruence|]. inversion C as [|? ? Ci Cl]; subst. inversion J as [|? ? (en & Je) Jl]; subst.
  assert (T: entry_text p i = en) by (unfold entry_text; now rewrite Je).
  destruct l as [|i' l].
  - cbn [map join]. rewrite T. now apply (entry_run _ i en rest m s Ci Je).
  - change (join (map (entry_text p) (i :: i' :: l))) with (entry_text p i ++ [44; 32] ++ join (map (entry_text p) (i' :: l))). rewrite T, <- !app_assoc.
    rewrite (entry_run _ i en _ m s Ci Je M). rewrite (run_lit [44; 32] _ (ME, FArr :: s) (MV, FArr :: s)) by reflexivity. apply IH; try assumption; [discriminate|tauto].
Qed.
(** Is the array of satellites open? *)
Definition opens_array (p : params) (l : list item) : bool := negb (p_info_only p) && match l with [] => false | _ => true end.
Lemma body_run : forall p l rest, Forall item_clean l ->
  (p_info_only p = false -> Forall (fun i => exists en, entry_json (p_geoloc p || single_sat p) (i_name i) (i_desig i) (i_tle i) (i_num i) = Ok en) l) ->
  run (MK, [FObj]) (body p l ++ rest) = if opens_array p l then run (ME, [FArr; FObj]) rest else run (MK, [FObj]) rest.
Proof.
  intros p l rest C J. unfold body, opens_array. destruct (p_info_only p); [reflexivity|]. specialize (J eq_refl). destruct l as [|i l]; [reflexivity|]. cbn [negb andb].
  rewrite <- !app_assoc, fields_run. lit. apply join_run; try assumption; [discriminate|tauto].
Qed.
Lemma preamble_run : forall e file rest, clean file -> clean (p_date (e_p e)) -> hdr_finite e -> run (MK, [FObj]) (preamble e file ++ rest) = run (MK, [FObj]) rest.
Proof.
  intros e file rest C D F. unfold preamble. cbv zeta. rewrite <- !app_assoc. unfold hdr_finite in F. cbv zeta in F. fin F.
  match goal with |- context [params_json _ _ _ ?a ?b] => set (ra := a); set (de := b) end.
  assert (FR: is_finite ra = true) by (unfold ra; match goal with |- is_finite (if ?b then _ else _) = true => destruct b end; assumption).
  assert (FD: is_finite de = true) by (unfold de; match goal with |- is_finite (if ?b then _ else _) = true => destruct b end; assumption).
  assert (X: forall l, run (MK, [FObj]) (params_json file (e_p e) (e_h e) ra de ++ sun_json (e_h e) ++ l) = run (MK, [FObj]) l).
  { intro l. rewrite params_run by (try assumption; repeat (constructor; [assumption|]); constructor). apply sun_run. repeat (constructor; [assumption|]); constructor. }
  destruct (p_geoloc (e_p e) || single_sat (e_p e)); cbn [app]; rewrite ?geofields_run; apply X.
Qed.
Lemma began_run : forall e arg argv il out0 rest, nth_error (e_argv e) (file_arg (e_argv e)) = Some arg -> began e arg argv il out0 -> Forall clean (e_argv e) -> clean (p_date (e_p e)) -> hdr_finite e ->
  run (MV, []) (out0 ++ rest) = run (MK, [FObj]) rest /\ Forall clean argv.
Proof.
  intros e arg argv il out0 rest EA B C D F.
  assert (CA: clean arg) by (rewrite Forall_forall in C; apply C; now apply nth_error_In with (n := file_arg (e_argv e))).
  destruct B as [(_ & -> & _ & ->)|(a & -> & _ & -> & O)].
  - rewrite <- app_assoc, open_run. split; [now apply preamble_run|exact C].
  - assert (Ca: clean a) by (now inversion CA). split.
    + destruct O as [->| ->]; [apply open_run|]. rewrite <- app_assoc, open_run. now apply preamble_run.
    + unfold set_nth. apply Forall_app. split; [|constructor; [exact Ca|]].
      * rewrite <- (firstn_skipn (file_arg (e_argv e)) (e_argv e)) in C. apply Forall_app in C. tauto.
      * rewrite <- (firstn_skipn (S (file_arg (e_argv e))) (e_argv e)) in C. apply Forall_app in C. tauto.
Qed.
Lemma to_object : forall l, run (MV, []) l = Some (ME, []) -> (exists r, l = 123 :: r) -> json_object l.
Proof. intros l H (r & ->). apply json_brace. apply accepts_json. unfold accepts. now rewrite H. Qed.
Lemma began_brace : forall e arg argv il out0 l, began e arg argv il out0 -> exists r, out0 ++ l = 123 :: r.
Proof.
  intros e arg argv il out0 l B. assert (O: exists r, open_json = 123 :: r) by (eexists; reflexivity). destruct O as (r & E).
  destruct B as [(_ & _ & _ & ->)|(a & _ & _ & _ & [->| ->])]; rewrite E; eexists; reflexivity.
Qed.

Lemma json_normal : forall e l1 l2 nm fin, skymap e l1 l2 nm = Ok fin -> f_code fin = 0 ->
  Forall clean (e_argv e) -> clean (p_date (e_p e)) -> hdr_finite e -> Forall item_clean (listing (f_log fin)) -> json_object (f_out fin).
Proof.
  intros e l1 l2 nm fin H K C D F I. destruct (skymap_output _ _ _ _ _ H) as (arg & argv & il & out0 & f & EA & B & Fi & T).
  apply finish_counts in Fi. destruct Fi as (_ & _ & FL & Fi).
  assert (G: live f = true \/ (exists s, f = EndChecking s) \/ exists c s, f = Exited c s) by (destruct f; [now left|now left|right; left; eauto|right; right; eauto]).
  assert (T': (exists c s, f = Exited c s) \/ tally (e_p (with_path e)) out0 (flow_st f)) by (destruct f; cbn [live left_ok flow_st] in T; try (right; exact T); left; eauto).
  destruct T' as [(c & s & ->)|(T1 & T2 & T3 & T4)].
  - exfalso. destruct Fi as (Kc & _). cbn [live left_ok] in T. rewrite Kc in K. subst c. destruct T as [(X & _)|(s0 & status & msg & _ & _ & _ & X)]; [discriminate X|]. destruct X as [(X & _)|[(X & _)|(X & _)]]; discriminate X.
  - assert (N: exists msg t, close_stat argv il 0 msg (s_found (flow_st f)) (f_nsats fin) (s_sunlit (flow_st f)) = Ok t /\ (msg = [] \/ msg = bytes "Requested satellite not found in TLE file") /\
        f_out fin = s_out (flow_st f) ++ (if negb (p_info_only (e_p (with_path e))) && (0 <? s_found (flow_st f)) then bytes "]," else []) ++ t).
    { destruct f as [s|s|s|c s]; try (destruct Fi as (_ & _ & msg & t & X1 & X2 & _ & X3); exists msg, t; tauto).
      exfalso. destruct Fi as (Kc & _). cbn [live left_ok] in T. rewrite Kc in K. subst c. destruct T as [(X & _)|(s0 & status & msg & _ & _ & _ & X)]; [discriminate X|]. destruct X as [(X & _)|[(X & _)|(X & _)]]; discriminate X. }
    destruct N as (msg & t & CS & M & O). rewrite O, T3. rewrite FL in I. rewrite <- app_assoc.
    apply to_object; [|now apply (began_brace e arg argv il)].
    destruct (began_run e arg argv il out0 (body (e_p (with_path e)) (listing (s_log (flow_st f))) ++ (if negb (p_info_only (e_p (with_path e))) && (0 <? s_found (flow_st f)) then bytes "]," else []) ++ t) EA B C D F) as (R & CA).
    rewrite R, body_run by assumption. unfold opens_array. rewrite T1.
    assert (CR: run (MK, [FObj]) t = Some (ME, [])).
    { apply (close_run _ _ _ _ _ _ _ _ CA) with (2 := CS). destruct M as [->| ->]; [constructor|]. repeat (constructor; [unfold plain; cbn; lia|]). constructor. }
    destruct (p_info_only (e_p (with_path e))); [exact CR|]. destruct (listing (s_log (flow_st f))) as [|i0 r]; [exact CR|]. cbn [negb andb].
    replace (0 <? Z.of_nat (length (i0 :: r))) with true by (symmetry; apply Z.ltb_lt; cbn [length]; lia).
    rewrite (run_lit (bytes "],") t (ME, [FArr; FObj]) (MK, [FObj])) by reflexivity. exact CR.
Qed.

(** Error exits in the loop: well-formed exactly when the array of satellites was not yet opened and the trailer was printed. *)
Lemma not_stopped : forall l ev, match ev with EvNew _ _ n => n_nan n = true \/ n_theta_ok n = true | _ => True end -> ~ stopped (l ++ [ev]).
Proof. intros l ev H (l' & c & t & n & E & N & T). apply app_inj_tail in E. destruct E as [_ ->]. destruct H; congruence. Qed.
Lemma json_error : forall e l1 l2 nm fin, skymap e l1 l2 nm = Ok fin -> f_code fin <> 0 ->
  Forall clean (e_argv e) -> clean (p_date (e_p e)) -> hdr_finite e -> Forall item_clean (listing (f_log fin)) ->
  clean (p_tle_path (e_p (with_path e))) -> Forall clean (opened (f_log fin)) ->
  (json (f_out fin) <-> ~ stopped (f_log fin) /\ (p_info_only (e_p e) = true \/ listing (f_log fin) = [])).
Proof.
  intros e l1 l2 nm fin H K C D F I CP CO. destruct (skymap_output _ _ _ _ _ H) as (arg & argv & il & out0 & f & EA & B & Fi & T).
  apply finish_counts in Fi. destruct Fi as (_ & _ & FL & Fi). change (p_info_only (e_p e)) with (p_info_only (e_p (with_path e))).
  destruct f as [s|s|s|c s]; try (destruct Fi as (Kc & _); congruence). destruct Fi as (Kc & O & _). cbn [live left_ok flow_st] in *.
  destruct T as [(_ & (T1 & T2 & T3 & T4) & ST)|T].
  { rewrite FL in *. rewrite O, T3.
    destruct (began_run e arg argv il out0 (body (e_p (with_path e)) (listing (s_log s)) ++ []) EA B C D F) as (R & CA). rewrite app_nil_r in R.
    rewrite <- accepts_iff. unfold accepts. rewrite R, <- (app_nil_r (body _ _)), body_run by assumption.
    split; [|intros (N & _); exfalso; exact (N ST)].
    destruct (opens_array (e_p (with_path e)) (listing (s_log s))); discriminate. }
  destruct T as (s0 & status & msg & (T1 & T2 & T3 & T4) & (t & CS & E) & LG & X). rewrite FL, LG in *. rewrite O, E. cbn [print s_out]. rewrite T3, <- ?app_assoc.
  destruct (began_run e arg argv il out0 (body (e_p (with_path e)) (listing (s_log s0)) ++ t) EA B C D F) as (R & CA).
  assert (KN: forall path, known (with_path e) s0 path -> clean path).
  { intros path [(l & L)|(_ & a & Ea & ->)]; [rewrite Forall_forall in CO; apply CO; rewrite L, opened_app; apply in_or_app; right; now left|]. apply clean_app; [exact CP|]. constructor; [unfold plain; lia|].
    change (e_argv (with_path e)) with (e_argv e) in Ea. rewrite Forall_forall in C. apply nth_error_In in Ea. apply C in Ea. now inversion Ea. }
  assert (CM: clean msg).
  { destruct X as [(_ & _ & -> & _)|[(_ & _ & path & Kp & ->)|(_ & _ & path & Kp & ->)]]; [|apply clean_app; [|now apply KN]|apply clean_app; [|now apply KN]];
      repeat (constructor; [unfold plain; cbn; lia|]); constructor. }
  assert (NS: ~ stopped (s_log s0)).
  { assert (KS: forall path, known (with_path e) s0 path -> ~ stopped (s_log s0)).
    { intros path [(l & L)|(L & _)]; rewrite L; [now apply not_stopped|]. intros (l & c0 & t0 & n & E0 & _). destruct l; discriminate E0. }
    destruct X as [(_ & _ & _ & l & c0 & t0 & n & L & N)|[(_ & _ & path & Kp & _)|(_ & _ & path & Kp & _)]]; [|now apply (KS path)|now apply (KS path)].
    rewrite L. apply not_stopped. now left. }
  rewrite <- accepts_iff. unfold accepts. rewrite R, body_run by assumption.
  pose proof (close_run _ _ _ _ _ _ _ _ CA CM CS) as CR. unfold opens_array.
  destruct (p_info_only (e_p (with_path e))); [cbn [negb andb]; rewrite CR; cbn; tauto|]. destruct (listing (s_log s0)) as [|i0 r]; cbn [negb andb]; [rewrite CR; cbn; tauto|].
  assert (BAD: run (ME, [FArr; FObj]) t = None).
  { unfold close_stat in CS. inv_bind CS fs H1. apply ok_inj in CS. subst t. reflexivity. }
  rewrite BAD. cbn. split; [discriminate|]. intros (_ & [Q|Q]); discriminate Q.
Qed.

(** ** The echoed command line *)
Lemma close_echo : forall argv status msg a b c t, close_stat argv false status msg a b c = Ok t ->
  exists post, t = q " 'run_command': '" ++ progname ++ concat (map (fun a => 32 :: a) (skipn 1 argv)) ++ q "', 'status': " ++ post.
Proof. intros argv status msg a b c t H. unfold close_stat in H. inv_bind H fs H1. apply ok_inj in H1. subst fs. apply ok_inj in H. subst t. eexists. reflexivity. Qed.
Lemma close_echo_list : forall x y rest status msg a b c t, close_stat (x :: y :: rest) true status msg a b c = Ok t ->
  exists post, t = q " 'run_command': '" ++ progname ++ concat (map (fun a => 32 :: a) ((64 :: y) :: rest)) ++ q "', 'status': " ++ post.
Proof.
  intros x y rest status msg a b c t H. unfold close_stat in H. inv_bind H fs H1. apply ok_inj in H1. subst fs. apply ok_inj in H. subst t. eexists.
  cbn [skipn map concat]. change (bytes " @" ++ y) with (32 :: 64 :: y). rewrite <- !app_assoc. reflexivity.
Qed.
Lemma echo : forall e l1 l2 nm fin, skymap e l1 l2 nm = Ok fin -> f_code fin = 0 \/ ~ stopped (f_log fin) ->
  (forall a, nth_error (e_argv e) (file_arg (e_argv e)) = Some (64 :: a) -> file_arg (e_argv e) = 1%nat) ->
  exists pre post, f_out fin = pre ++ q " 'run_command': '" ++ command (e_argv e) ++ q "', 'status': " ++ post.
Proof.
  intros e l1 l2 nm fin H RS NL. destruct (skymap_output _ _ _ _ _ H) as (arg & argv & il & out0 & f & EA & B & Fi & T).
  assert (CS: exists pre status msg a b c t, close_stat argv il status msg a b c = Ok t /\ f_out fin = pre ++ t).
  { apply finish_counts in Fi. destruct Fi as (_ & _ & FL & Fi). destruct f as [s|s|s|c s];
      try (destruct Fi as (_ & _ & msg & t & X1 & _ & _ & X3); rewrite X3, app_assoc; eexists; eexists; eexists; eexists; eexists; eexists; eexists; split; [exact X1|reflexivity]).
    destruct Fi as (Kc & O & _). cbn [live left_ok flow_st] in T, FL. destruct T as [(Kc1 & _ & ST)|(s0 & status & msg & _ & (t & CS & E) & _)].
    { exfalso. rewrite FL in RS. destruct RS as [RS|RS]; [rewrite Kc, Kc1 in RS; discriminate RS|exact (RS ST)]. }
    rewrite O, E. cbn [print s_out].
    eexists; eexists; eexists; eexists; eexists; eexists; eexists; split; [exact CS|reflexivity]. }
  destruct CS as (pre & status & msg & a & b & c & t & CS & O). unfold command.
  destruct B as [(-> & -> & _ & _)|(a0 & -> & -> & -> & _)].
  - apply close_echo in CS. destruct CS as (post & ->). exists pre, post. rewrite O, <- ?app_assoc. reflexivity.
  - pose proof (NL a0 EA) as N1. rewrite N1 in EA, CS. clear NL N1. destruct (e_argv e) as [|x [|y rest]]; try discriminate EA. cbn [nth_error] in EA. assert (y = 64 :: a0) as -> by congruence.
    change (set_nth 1 a0 (x :: (64 :: a0) :: rest)) with (x :: a0 :: rest) in CS. apply close_echo_list in CS. destruct CS as (post & ->). exists pre, post. rewrite O, <- ?app_assoc. reflexivity.
Qed.
