(** Concrete runs of sat_visibility, used as counterexamples and as examples. *)
From Coq Require Import String Ascii ZArith List Bool Lia Reals Lra.
From Flocq Require Import Core IEEE754.BinarySingleNaN.
From Verif Require Import CLib FloatModel FloatLemmas CalendarModel CalendarProofs2 CalendarProofs5 TleModel TleSpec IoModel SkymapModel SkymapSpec SkymapProofs9 SkymapExamples SkymapRuns CliModel CliSpec CliProofs1 CliProofs2 CliRuns VisCliModel VisCliSpec VisModel VisSpec VisFindSpec VisProofs1 VisProofs5 VisProofs7 VisProofs9.
Import ListNotations.
Open Scope Z_scope.

Definition vargv (l : list string) : list (list Z) := bytes "sat_visibility" :: map bytes l.
(** A library with a satellite whose zenith distance is 10000 degrees per day away from [peak] (a JD) and that is in the shadow after [dark]. *)
Definition zero_v : vec := mk_vec (of_int 0) (of_int 0) (of_int 0).
Definition zero_s : sun := mk_sun (of_int 0) (of_int 0) (of_int 0) (of_int 0) (of_int 0) (of_int 0) (of_int 0).
Definition zero_g : geo := mk_geo (of_int 0) (of_int 0) (of_int 400) (of_int 0).
Definition ex_lib (peak dark : b64) : lib :=
  mk_lib (fun _ => (of_int 0, of_int 0)) (fun _ => false) (fun _ => of_int 0) (fun _ _ _ _ => zero_v) (fun _ _ => zero_g)
    (fun t => mk_vec t (of_int 0) (of_int 0)) (fun o _ => (vx o, of_int 0, of_int 1000))
    (fun _ _ ra _ => let d := fsub ra peak in fmul (of_int 10000) (if flt d (of_int 0) then fsub (of_int 0) d else d))
    (fun _ _ _ _ => of_int 0) (fun _ => of_int 10) (fun _ _ _ _ => zero_s) (fun t => mk_vec t (of_int 0) (of_int 0))
    (fun _ s => flt dark (vx s)) (fun _ _ => (of_int 0, of_int 0, of_int 0)) (fun _ ra dec => (ra, dec)).
Definition sky0 : sky := mk_sky 0 (of_int 0) (of_int 0) (of_int 0) zero_v zero_v
  (mk_sat [] (of_int 0) (of_int 0) (of_int 0) (of_int 0) (of_int 0) (of_int 0) (of_int 0) (of_int 0) (of_int 0)) zero_s zero_g.
Definition venv_of (L : lib) (files : list (string * list Z)) : venv :=
  mk_venv L (fun path => match List.find (fun x => same path (bytes (fst x))) files with Some (_, c) => Some c | None => None end) tle0 sky0 z100 z100 z25.
(** A JD given in units of 0.0001 day after MJD 60441. *)
Definition after_begin (n : Z) : b64 := lit (24604415000 + n) 10000.
Definition ex_venv (peak dark : Z) : venv := venv_of (ex_lib (after_begin peak) (after_begin dark)) [("./s.txt"%string, ex_file)].
(** -l44,11,23 -s 25544 -r5 -t30 on ./s.txt *)
Definition ex_line (range : string) : list (list Z) := vargv ["s.txt"; "-l44,11,23"; "-s"; "25544"; "-r5"; "-t30"; range]%string.

Definition param_of (c : res (parsed vparams)) : vparams := match c with Ok (Done p) => p | _ => vis_defaults end.
Lemma parsed_ok : forall c, match c with Ok (Done _) => true | _ => false end = true -> c = Ok (Done (param_of c)).
Proof. intros [[p|]|]; cbn; congruence. Qed.
Lemma vran : forall e fuel argv p (f : vfinal -> bool), match visibility e fuel argv p with Ok fin => f fin | UB _ => false end = true ->
  exists fin, visibility e fuel argv p = Ok fin /\ f fin = true.
Proof. intros e fuel argv p f H. destruct (visibility e fuel argv p) as [fin|]; [now exists fin|discriminate H]. Qed.

Definition lit_flags (fin : vfinal) : list Z := map (fun m => match m_lit m with Some true => 1 | Some false => 0 | None => -1 end) (samples (vf_log fin)).
Definition event_names (fin : vfinal) : list (list Z) := map (fun x => let '(n, _, _, _) := x in n) (events (vf_log fin)).
Definition event_dates (fin : vfinal) : list (list Z) := map (fun x => let '(_, _, _, s) := x in sa_date s) (events (vf_log fin)).
(** The date of the printed MJD. *)
Definition mjd_dates (fin : vfinal) : list (list Z) := map (fun x => let '(_, _, _, s) := x in match date_of (sa_mjd s) with Ok d => d | _ => [] end) (events (vf_log fin)).
Definition prints (t : list Z) (fin : vfinal) : bool := strstrb (vf_out fin) t.
Definition lists_eqb (a b : list (list Z)) : bool := if list_eq_dec (list_eq_dec Z.eq_dec) a b then true else false.
Lemma lists_eq : forall a b, lists_eqb a b = true -> a = b.
Proof. intros a b. unfold lists_eqb. destruct (list_eq_dec _ a b); [auto|discriminate]. Qed.

Definition long_line : list (list Z) := ex_line "-j60441,60441.002"%string.
Definition long_p : vparams := param_of (vis_command_line dec_reader 10 long_line).
Definition short_line : list (list Z) := ex_line "-j60441,60441.0008"%string.
Definition short_p : vparams := param_of (vis_command_line dec_reader 10 short_line).

Ltac vgo t := match goal with |- exists fin, visibility ?e ?n ?a ?p = Ok fin /\ _ => destruct (vran e n a p t ltac:(vm_compute; reflexivity)) as (fin & H & T) end; match goal with H : visibility _ _ _ _ = Ok ?fin |- _ => exists fin; split; [exact H|] end; repeat (match goal with T : (_ && _)%bool = true |- _ => apply andb_prop in T; destruct T end).
Ltac vclose := repeat match goal with K : same _ _ = true |- _ => apply same_eq in K | K : lists_eqb _ _ = true |- _ => apply lists_eq in K | K : (_ =? _) = true |- _ => apply Z.eqb_eq in K end.

Lemma long_ok : vis_command_line dec_reader 10 long_line = Ok (Done long_p).
Proof. apply parsed_ok. vm_compute. reflexivity. Qed.
Lemma short_ok : vis_command_line dec_reader 10 short_line = Ok (Done short_p).
Proof. apply parsed_ok. vm_compute. reflexivity. Qed.

(** Three runs with two visible samples, at 00:00:30 and 00:01:00: in the shadow, outside the radius, at the end of the range afterwards. *)
Lemma shadow_run : exists fin, visibility (ex_venv 6 7) 100 long_line long_p = Ok fin /\ vf_code fin = 0 /\ lit_flags fin = [-1; 1; 1; 0] /\
  event_names fin = map bytes ["start"; "end"; "mid"; "max"]%string /\
  event_dates fin = map bytes ["2024-05-11T00:00:30"; "2024-05-11T00:01:30"; "2024-05-11T00:01:30"; "2024-05-11T00:01:00"]%string /\
  mjd_dates fin = map bytes ["2024-05-11T00:00:30"; "2024-05-11T00:01:30"; "2024-05-11T00:01:30"; "2024-05-11T00:01:30"]%string /\
  prints (q "'sunlit_duration_minutes': 1.00, ") fin = true.
Proof.
  vgo (fun fin => (vf_code fin =? 0) && same (lit_flags fin) [-1; 1; 1; 0] && lists_eqb (event_names fin) (map bytes ["start"; "end"; "mid"; "max"]%string) &&
    lists_eqb (event_dates fin) (map bytes ["2024-05-11T00:00:30"; "2024-05-11T00:01:30"; "2024-05-11T00:01:30"; "2024-05-11T00:01:00"]%string) &&
    lists_eqb (mjd_dates fin) (map bytes ["2024-05-11T00:00:30"; "2024-05-11T00:01:30"; "2024-05-11T00:01:30"; "2024-05-11T00:01:30"]%string) &&
    prints (q "'sunlit_duration_minutes': 1.00, ") fin). vclose. repeat split; assumption.
Qed.
Lemma left_run : exists fin, visibility (ex_venv 5 100) 100 long_line long_p = Ok fin /\ vf_code fin = 0 /\ lit_flags fin = [-1; 1; 1; -1] /\
  prints (q "'sunlit_duration_minutes': 0.50, ") fin = true.
Proof. vgo (fun fin => (vf_code fin =? 0) && same (lit_flags fin) [-1; 1; 1; -1] && prints (q "'sunlit_duration_minutes': 0.50, ") fin). vclose. repeat split; assumption. Qed.
Lemma range_run : exists fin, visibility (ex_venv 5 100) 100 short_line short_p = Ok fin /\ vf_code fin = 0 /\ lit_flags fin = [-1; 1; 1] /\
  prints (q "'sunlit_duration_minutes': 0.00, ") fin = true.
Proof. vgo (fun fin => (vf_code fin =? 0) && same (lit_flags fin) [-1; 1; 1] && prints (q "'sunlit_duration_minutes': 0.00, ") fin). vclose. repeat split; assumption. Qed.
(** Visible only at the last sample of the range. *)
Lemma negative_run : exists fin, visibility (ex_venv 11 100) 100 short_line short_p = Ok fin /\ vf_code fin = 0 /\ lit_flags fin = [-1; -1; 1] /\
  prints (q "'sunlit_duration_minutes': -0.50, ") fin = true.
Proof. vgo (fun fin => (vf_code fin =? 0) && same (lit_flags fin) [-1; -1; 1] && prints (q "'sunlit_duration_minutes': -0.50, ") fin). vclose. repeat split; assumption. Qed.
(** Never visible: nothing is reported. *)
Lemma unseen_run : exists fin, visibility (ex_venv 100 200) 100 short_line short_p = Ok fin /\ vf_code fin = 0 /\ lit_flags fin = [-1; -1; -1] /\ event_names fin = [] /\
  prints (q "'n_sats_found': 0}") fin = true.
Proof. vgo (fun fin => (vf_code fin =? 0) && same (lit_flags fin) [-1; -1; -1] && lists_eqb (event_names fin) [] && prints (q "'n_sats_found': 0}") fin). vclose. repeat split; assumption. Qed.

(** A fraction of a second in the first date: the end of the range is lost. *)
Definition frac_line : list (list Z) := ex_line "-d2024-05-11T00:00:00.5,2024-05-11T00:05:00"%string.
Definition frac_p : vparams := param_of (vis_command_line dec_reader 10 frac_line).
Lemma frac_ok : vis_command_line dec_reader 10 frac_line = Ok (Done frac_p) /\ feq (v_mjd0 frac_p) (of_int 60441) = true /\ feq (v_mjd1 frac_p) (of_int 0) = true.
Proof. split; [apply parsed_ok; vm_compute; reflexivity|]. split; vm_compute; reflexivity. Qed.
Lemma frac_run : exists fin, visibility (ex_venv 5 100) 100 frac_line frac_p = Ok fin /\ vf_code fin = 0 /\ samples (vf_log fin) = [].
Proof.
  vgo (fun fin => (vf_code fin =? 0) && same (lit_flags fin) []). vclose. split; [assumption|]. unfold lit_flags in *. destruct (samples (vf_log fin)); [reflexivity|discriminate].
Qed.
(** The same range without the fraction. *)
Definition plain_pieces : list vpiece :=
  [VFile (bytes "s.txt"); VJoined (bytes "44,11,23") (VLocation (of_int 44) (of_int 11) (of_int 23)); VApart (bytes "25544") (VNumber 25544); VJoined (bytes "5") (VRadius (of_int 5));
   VJoined (bytes "30") (VStep 30); VJoined (bytes "2024-05-11T00:00:00,2024-05-11T00:05:00") (VDates (bytes "2024-05-11T00:00:00") (bytes "2024-05-11T00:05:00"))].
Lemma plain_written : bytes "sat_visibility" :: vall_written plain_pieces = ex_line "-d2024-05-11T00:00:00,2024-05-11T00:05:00"%string.
Proof. vm_compute. reflexivity. Qed.
Lemma plain_stamp : forall t, (length t =? 19)%nat && forallb (fun c => negb (is_space c)) t = true -> stamp t.
Proof.
  intros t H. apply andb_prop in H. destruct H as (A & B). split; [now apply Nat.eqb_eq|]. rewrite forallb_forall in B. apply Forall_forall. intros c Hc. specialize (B c Hc). now destruct (is_space c).
Qed.
Lemma plain_proper : Forall (vproper dec_reader) plain_pieces.
Proof.
  unfold plain_pieces. apply Forall_cons; [split; [nonul|vm_compute; discriminate]|].
  apply Forall_cons; [split; [nonul|]; split; [discriminate|]; split; [nums|split; vm_compute; reflexivity]|].
  apply Forall_cons; [split; [nonul|]; decim|].
  apply Forall_cons; [split; [nonul|]; split; [discriminate|]; reflexivity|].
  apply Forall_cons; [split; [nonul|]; split; [discriminate|]; vm_compute; reflexivity|].
  apply Forall_cons; [|constructor]. split; [nonul|]. split; [discriminate|]. split; [apply plain_stamp; vm_compute; reflexivity|]. split; [apply plain_stamp; vm_compute; reflexivity|].
  split; [vm_compute; tauto|]. exists []. vm_compute. reflexivity.
Qed.

(** -t 0.5: the step becomes 0. *)
Definition still_line : list (list Z) := vargv ["s.txt"; "-l44,11,23"; "-s"; "25544"; "-t0.5"; "-j60441,60441.002"]%string.
Definition still_p : vparams := param_of (vis_command_line dec_reader 10 still_line).
Definition dark_lib : lib :=
  let L := ex_lib (of_int 0) (of_int 0) in
  mk_lib (l_lmst L) (l_deep L) (l_epoch L) (l_propagate L) (l_geo L) (l_observer L) (l_radec L) (l_skysep L) (l_pa L) (l_sun_alt L) (l_sun L) (l_sun_vec L)
    (fun _ _ => true) (l_dechalat L) (l_precess L).
Definition still_env : venv := venv_of dark_lib [("./s.txt"%string, ex_file)].
Lemma still_ok : vis_command_line dec_reader 10 still_line = Ok (Done still_p).
Proof. apply parsed_ok. vm_compute. reflexivity. Qed.
Lemma still_facts : v_delta_time still_p = 0 /\ v_altrng still_p = false /\ v_skip still_p = false /\ v_single_n still_p = true /\ v_tle_path still_p = bytes "." /\
  fle (range_begin still_p) (range_end still_p) = true.
Proof. repeat split; vm_compute; reflexivity. Qed.
Definition start_scan : fst_ := mk_f z100 z100 z25 (bytes "none") tle0 false.
Definition still_scan : res find := scan_file still_p (n_fs still_env) still_line false (bytes "./s.txt") start_scan.
Definition still_set : fst_ := match still_scan with Ok (Found s) => s | _ => start_scan end.
Lemma still_found : still_scan = Ok (Found still_set).
Proof. unfold still_set. assert (H: match still_scan with Ok (Found _) => true | _ => false end = true) by (vm_compute; reflexivity). destruct still_scan as [[s|s|c o]|]; try discriminate. reflexivity. Qed.
Lemma still_name : c_text (f_name still_set) = Ok (bytes "ISS (ZARYA)").
Proof. vm_compute. reflexivity. Qed.
Lemma still_visibility : forall fuel, visibility still_env fuel still_line still_p = vis_found still_env fuel still_line false still_p (bytes "s.txt") still_set.
Proof.
  intro fuel. destruct still_facts as (_ & _ & _ & S & P & _). unfold visibility. replace (nth_error still_line (file_arg still_line)) with (Some (bytes "s.txt")) by (vm_compute; reflexivity).
  cbv zeta. replace (match bytes "s.txt" with 64 :: _ => true | _ => false end) with false by (vm_compute; reflexivity). cbv iota. cbn [bind]. rewrite S. cbn [negb andb].
  replace (existsb (Z.eqb 47) (bytes "s.txt")) with false by (vm_compute; reflexivity). cbv iota. rewrite P. replace (c_sprintf 200 (bytes "." ++ 47 :: bytes "s.txt")) with (Ok (bytes "./s.txt")) by (vm_compute; reflexivity).
  cbn [bind]. change (mk_f (n_line1 still_env) (n_line2 still_env) (n_name still_env) (bytes "none") (n_tle0 still_env) false) with start_scan. fold still_scan. rewrite still_found. reflexivity.
Qed.
Lemma loop_either : forall (S : Type) sw argv f g i (s : S), opt_loop sw f argv i s = UB Stuck \/ opt_loop sw g argv i s = UB Stuck \/ opt_loop sw f argv i s = opt_loop sw g argv i s.
Proof.
  intros S sw argv. induction f as [|f IH]; intros g i s.
  - cbn [opt_loop]. destruct (i <? length argv)%nat eqn:L; [now left|]. right. right. destruct g; cbn [opt_loop]; now rewrite L.
  - destruct g as [|g]; cbn [opt_loop]; destruct (i <? length argv)%nat; try (right; right; reflexivity); [now right; left|].
    destruct (one_arg sw argv i s) as [[i' s'|c o]|u]; cbn [bind]; [apply IH|right; right; reflexivity..].
Qed.
Lemma line_either : forall r argv f g, vis_command_line r f argv = UB Stuck \/ vis_command_line r g argv = UB Stuck \/ vis_command_line r f argv = vis_command_line r g argv.
Proof.
  intros r argv f g. unfold vis_command_line. destruct (length argv <? 2)%nat; [right; right; reflexivity|].
  destruct (loop_either _ (vis_switch r argv) argv f g 1%nat vis_defaults) as [E|[E|E]]; rewrite E; [left; reflexivity|right; left; reflexivity|right; right; reflexivity].
Qed.
Lemma ordered_range : forall p, fin (range_begin p) -> fin (range_end p) -> fle (range_begin p) (range_end p) = true -> (toR (range_begin p) <= toR (range_end p))%R.
Proof. intros p F0 F1 R. apply fle_R in R; assumption. Qed.
Lemma still_stuck : forall fuel, sat_visibility dec_reader still_env fuel still_line = UB Stuck.
Proof.
  intro fuel. destruct still_facts as (D & A & K & _ & _ & R). destruct (accepted _ _ _ _ still_ok) as ([O1 O2 O3] & _).
  assert (V: visibility still_env fuel still_line still_p = UB Stuck).
  { rewrite still_visibility. apply (found_never_ends _ _ _ _ _ _ _ (bytes "ISS (ZARYA)")).
    - rewrite D. lia.
    - exact A.
    - exact K.
    - exact (proj1 O1).
    - exact (proj1 O2).
    - exact (ordered_range still_p (proj1 O1) (proj1 O2) R).
    - intros n t. right. reflexivity.
    - exact still_name. }
  unfold sat_visibility. destruct (line_either dec_reader still_line fuel 10) as [E|[E|E]].
  - rewrite E. reflexivity.
  - pose proof still_ok. congruence.
  - rewrite E, still_ok. exact V.
Qed.

(** A list with a comment and an empty line. *)
Definition list_line : list (list Z) := vargv ["@list.txt"; "-l44,11,23"; "-s"; "25544"; "-j60441,60441.002"]%string.
Definition list_p : vparams := param_of (vis_command_line dec_reader 10 list_line).
Definition list_rows : list (list Z) := [bytes "# no files today"; []].
Definition list_env : venv := venv_of dark_lib [("./list.txt"%string, flat_map (fun t => t ++ [10]) list_rows)].
Lemma list_ok : vis_command_line dec_reader 10 list_line = Ok (Done list_p).
Proof. apply parsed_ok. vm_compute. reflexivity. Qed.
Lemma rows_good : Forall good_row list_rows.
Proof. repeat constructor; try (vm_compute; lia); try (vm_compute; discriminate); intro H; vm_compute in H; repeat (destruct H as [H|H]; [discriminate H|]); exact H. Qed.
Lemma list_null : forall fuel, visibility list_env fuel list_line list_p = UB NullDeref.
Proof.
  intro fuel. apply (empty_list _ _ _ _ (bytes "list.txt") (bytes "./list.txt") (flat_map (fun t => t ++ [10]) list_rows) list_rows).
  - vm_compute. reflexivity.
  - vm_compute. reflexivity.
  - vm_compute. lia.
  - left. vm_compute. reflexivity.
  - vm_compute. reflexivity.
  - left. reflexivity.
  - exact rows_good.
  - vm_compute. reflexivity.
Qed.
(** sat_visibility s.txt -NT *)
Definition nt_argv : list (list Z) := vargv ["s.txt"; "-NT"]%string.
Lemma nt_forever : forall r fuel, vis_command_line r fuel nt_argv = UB Stuck.
Proof.
  intros r fuel. change nt_argv with (bytes "sat_visibility" :: vall_written [VFile (bytes "s.txt")] ++ bytes "-NT" :: []). apply vnever_ends.
  - apply Forall_cons; [split; [nonul|vm_compute; discriminate]|constructor].
  - nonul.
  - exists VSwN, 84, []. split; [discriminate|vm_compute; reflexivity].
Qed.

Lemma four_samples : exists fin, visibility (ex_venv 6 7) 100 long_line long_p = Ok fin /\ length (samples (vf_log fin)) = 4%nat.
Proof. destruct shadow_run as (fin & H & _ & F & _). exists fin. split; [exact H|]. assert (L: length (lit_flags fin) = 4%nat) by (rewrite F; reflexivity). unfold lit_flags in L. rewrite map_length in L. exact L. Qed.
Lemma top_run : exists fin, visibility (ex_venv 6 7) 100 long_line long_p = Ok fin /\ vf_code fin = 0 /\ lit_flags fin = [-1; 1; 1; 0] /\
  nth 3 (event_names fin) [] = bytes "max" /\ nth 3 (event_dates fin) [] = bytes "2024-05-11T00:01:00".
Proof. destruct shadow_run as (fin & H & C & F & N & D & _). exists fin. rewrite N, D. repeat split; assumption. Qed.
Lemma three_durations : exists e1 e2 argv1 argv2 p1 p2 fin1 fin2 fin3,
  visibility e1 100 argv1 p1 = Ok fin1 /\ visibility e2 100 argv1 p1 = Ok fin2 /\ visibility e2 100 argv2 p2 = Ok fin3 /\
  lit_flags fin1 = [-1; 1; 1; 0] /\ lit_flags fin2 = [-1; 1; 1; -1] /\ lit_flags fin3 = [-1; 1; 1] /\
  prints (q "'sunlit_duration_minutes': 1.00, ") fin1 = true /\ prints (q "'sunlit_duration_minutes': 0.50, ") fin2 = true /\
  prints (q "'sunlit_duration_minutes': 0.00, ") fin3 = true.
Proof.
  destruct shadow_run as (f1 & H1 & _ & F1 & _ & _ & _ & P1). destruct left_run as (f2 & H2 & _ & F2 & P2). destruct range_run as (f3 & H3 & _ & F3 & P3).
  exists (ex_venv 6 7), (ex_venv 5 100), long_line, short_line, long_p, short_p, f1, f2, f3. repeat split; assumption.
Qed.
Lemma stamped_run : exists fin, visibility (ex_venv 6 7) 100 long_line long_p = Ok fin /\
  firstn 2 (event_names fin) = map bytes ["start"; "end"]%string /\ firstn 2 (event_dates fin) = map bytes ["2024-05-11T00:00:30"; "2024-05-11T00:01:30"]%string /\ firstn 2 (mjd_dates fin) = firstn 2 (event_dates fin).
Proof. destruct shadow_run as (fin & H & _ & _ & N & D & M & _). exists fin. rewrite N, D, M. repeat split. exact H. Qed.
Lemma stale_mjd : exists r e argv p fin g u s, vis_command_line r 10 argv = Ok (Done p) /\ visibility e 100 argv p = Ok fin /\
  In (bytes "max", g, u, s) (events (vf_log fin)) /\ sa_date s = bytes "2024-05-11T00:01:00" /\ date_of (sa_mjd s) = Ok (bytes "2024-05-11T00:01:30").
Proof.
  destruct shadow_run as (fin & H & _ & _ & N & D & M & _). unfold event_names, event_dates, mjd_dates in *.
  destruct (events (vf_log fin)) as [|x1 [|x2 [|x3 [|(((n4 & g4) & u4) & s4) r]]]] eqn:Ev; try discriminate N.
  exists dec_reader, (ex_venv 6 7), long_line, long_p, fin, g4, u4, s4. split; [exact long_ok|]. split; [exact H|]. cbn [map] in N, D, M.
  apply (f_equal (fun l => nth 3 l [])) in N. apply (f_equal (fun l => nth 3 l [])) in D. apply (f_equal (fun l => nth 3 l [])) in M. cbv beta iota zeta delta [nth] in N, D, M.
  rewrite Ev. split; [rewrite <- N; cbn; tauto|]. split; [exact D|]. destruct (date_of (sa_mjd s4)); [now rewrite M|vm_compute in M; discriminate].
Qed.
Lemma plain_range : exists p, vis_command_line dec_reader 20 (bytes "sat_visibility" :: vall_written plain_pieces) = Ok (Done p) /\
  feq (v_mjd0 p) (of_int 60441) = true /\ flt (of_int 60441) (v_mjd1 p) = true.
Proof.
  exists (param_of (vis_command_line dec_reader 20 (bytes "sat_visibility" :: vall_written plain_pieces))). split; [apply parsed_ok; vm_compute; reflexivity|]. split; vm_compute; reflexivity.
Qed.

(** The second satellite of the file is asked for. *)
Definition second_line : list (list Z) := vargv ["s.txt"; "-l44,11,23"; "-s"; "49044"; "-r5"; "-t30"; "-j60441,60441.002"]%string.
Definition second_p : vparams := param_of (vis_command_line dec_reader 10 second_line).
Lemma second_ok : vis_command_line dec_reader 10 second_line = Ok (Done second_p).
Proof. apply parsed_ok. vm_compute. reflexivity. Qed.
Lemma second_run : exists fin, visibility (ex_venv 6 7) 100 second_line second_p = Ok fin /\ vf_code fin = 0 /\ lit_flags fin = [-1; 1; 1; 0] /\
  prints (q "'satellite': {'name': 'ISS (NAUKA)', ") fin = true /\ prints (q "'norad_n': 49044, ") fin = true.
Proof. vgo (fun fin => (vf_code fin =? 0) && same (lit_flags fin) [-1; 1; 1; 0] && prints (q "'satellite': {'name': 'ISS (NAUKA)', ") fin && prints (q "'norad_n': 49044, ") fin). vclose. repeat split; assumption. Qed.
Lemma second_request : request second_p /\ run_paths (ex_venv 6 7) second_line second_p [bytes "./s.txt"] /\ element_files (ex_venv 6 7) (fun _ => ex_blocks) [bytes "./s.txt"] /\
  Forall (fun r => recognisable second_p (snd r)) (file_records (fun _ => ex_blocks) [bytes "./s.txt"]) /\
  map (fun r => e_number (snd r)) (file_records (fun _ => ex_blocks) [bytes "./s.txt"]) = [25544; 49044].
Proof.
  assert (S: v_single_n second_p = true) by (vm_compute; reflexivity).
  split; [left; exact S|]. split; [|split; [|split; [|reflexivity]]].
  - intros arg H. assert (arg = bytes "s.txt") as -> by (vm_compute in H; injection H as <-; reflexivity). split; [intros name K; discriminate K|]. intros _.
    assert (P: v_tle_path second_p = bytes ".") by (apply same_eq; vm_compute; reflexivity). rewrite P. reflexivity.
  - intros p c [<-|[]] E. assert (N: n_fs (ex_venv 6 7) (bytes "./s.txt") = Some ex_file) by (vm_compute; reflexivity). assert (c = ex_file) as -> by congruence. exact ex_file_good.
  - unfold recognisable. rewrite S. repeat (apply Forall_cons; [cbn; lia|]). apply Forall_nil.
Qed.
(** A satellite with a number above 99999 is not found. *)
Definition alpha_venv : venv := venv_of (ex_lib (after_begin 6) (after_begin 7)) [("./s.txt"%string, alpha_file)].
Definition alpha_line : list (list Z) := vargv ["s.txt"; "-l44,11,23"; "-s"; "100001"; "-r5"; "-t30"; "-j60441,60441.002"]%string.
Definition alpha_p : vparams := param_of (vis_command_line dec_reader 10 alpha_line).
Lemma alpha_ok : vis_command_line dec_reader 10 alpha_line = Ok (Done alpha_p) /\ v_norad_n alpha_p = 100001.
Proof. split; [apply parsed_ok; vm_compute; reflexivity|]. vm_compute. reflexivity. Qed.
Lemma alpha_run_v : exists fin, visibility alpha_venv 100 alpha_line alpha_p = Ok fin /\ vf_code fin = 1 /\ samples (vf_log fin) = [] /\ prints (bytes "Satellite not found in ./s.txt") fin = true.
Proof.
  vgo (fun fin => (vf_code fin =? 1) && match samples (vf_log fin) with [] => true | _ => false end && prints (bytes "Satellite not found in ./s.txt") fin). vclose. repeat split; try assumption.
  destruct (samples (vf_log fin)); [reflexivity|discriminate].
Qed.
Definition alpha_blocks : list block := [Note (bytes "ALPHA"); Pair (el_line1 (bytes "A0001") d1) (el_line2 (bytes "A0001")) (elems 100001 d1)].
Lemma alpha_good : good_file alpha_file alpha_blocks /\ map (fun r => e_number (snd r)) (records None alpha_blocks) = [100001].
Proof.
  split; [|reflexivity]. split; [left; reflexivity|].
  assert (G: forall s, forallb (fun c => negb (c =? 10) && negb (c =? 0)) (bytes s) = true -> (length (bytes s) <= 98)%nat -> good_text (bytes s)).
  { intros s F L. split; [|split; [|exact L]]; intro K; rewrite forallb_forall in F; apply F in K; discriminate K. }
  repeat apply Forall_cons; [| |apply Forall_nil].
  - split; [apply G; [reflexivity|cbn; lia]|discriminate].
  - apply good_pair; try reflexivity; [unfold norad_count; lia| |]; repeat (apply Forall_cons; [cbn; lia|]); apply Forall_nil.
Qed.
Lemma alpha_lost : exists e argv p bs c fin, vis_command_line dec_reader 10 argv = Ok (Done p) /\ v_norad_n p = 100001 /\
  n_fs e (bytes "./s.txt") = Some c /\ good_file c bs /\ map (fun r => e_number (snd r)) (records None bs) = [100001] /\
  visibility e 100 argv p = Ok fin /\ vf_code fin = 1 /\ samples (vf_log fin) = [] /\ prints (bytes "Satellite not found in ./s.txt") fin = true.
Proof.
  destruct alpha_run_v as (fin & R & C & S & P). exists alpha_venv, alpha_line, alpha_p, alpha_blocks, alpha_file, fin.
  split; [exact (proj1 alpha_ok)|]. split; [exact (proj2 alpha_ok)|]. split; [vm_compute; reflexivity|]. split; [exact (proj1 alpha_good)|]. split; [exact (proj2 alpha_good)|]. tauto.
Qed.
