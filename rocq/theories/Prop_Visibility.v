(** Property theorems C66-C72, and C60 and C62 for sat_visibility. *)
From Coq Require Import String Ascii ZArith List Bool Reals.
From Flocq Require Import Core IEEE754.BinarySingleNaN.
From Verif Require Import CLib FloatModel CalendarModel TleModel TleSpec IoModel SkymapModel SkymapSpec SkymapRuns CliModel CliSpec CliRuns VisCliModel VisCliSpec VisModel VisSpec VisFindSpec VisProofs1 VisProofs5 VisProofs7 VisProofs9 VisProofs10 VisRuns.
Import ListNotations.
Open Scope Z_scope.

(** C60 for sat_visibility: refuted, "sat_visibility s.txt -NT" never gets past the option loop ... *)
Theorem C60_visibility_refuted : exists argv, forall r fuel, vis_command_line r fuel argv = UB Stuck.
Proof. exact (ex_intro _ nt_argv nt_forever). Qed.
Print Assumptions C60_visibility_refuted.
Theorem C60_visibility_glued_switch : forall r prog l a post, Forall (vproper r) l -> no_nul a -> vglued_switch a ->
  forall fuel, vis_command_line r fuel (prog :: vall_written l ++ a :: post) = UB Stuck.
Proof. exact vnever_ends. Qed.
Print Assumptions C60_visibility_glued_switch.
(** ... while without a switch glued to further text at most argc turns are made. *)
Theorem C60_visibility_otherwise : forall r argv, Forall no_nul argv -> (forall a, In a argv -> ~ vglued_switch a) ->
  forall fuel, (length argv <= fuel)%nat -> vis_command_line r fuel argv <> UB Stuck.
Proof. exact vends. Qed.
Print Assumptions C60_visibility_otherwise.
Example C60_visibility_example : nt_argv = [bytes "sat_visibility"; bytes "s.txt"; bytes "-NT"].
Proof. exact eq_refl. Qed.

(** C62 for sat_visibility: the parameters after parsing are those asked for, for every list of options. *)
Theorem C62_visibility_options : forall r prog l fuel, Forall (vproper r) l -> l <> [] -> (length (vall_written l) <= fuel)%nat ->
  exists p, vasked l p /\ vis_command_line r fuel (prog :: vall_written l) = Ok (if v_in_geopos p then Done p else Exit 0 vis_usage).
Proof. exact voptions. Qed.
Print Assumptions C62_visibility_options.
Example C62_visibility_example : Forall (vproper dec_reader) plain_pieces /\ bytes "sat_visibility" :: vall_written plain_pieces =
  map bytes ["sat_visibility"; "s.txt"; "-l44,11,23"; "-s"; "25544"; "-r5"; "-t30"; "-d2024-05-11T00:00:00,2024-05-11T00:05:00"]%string.
Proof. exact (conj plain_proper plain_written). Qed.

(** C66: refuted for steps below one second: with -t0.5 the step is 0 and the time loop never ends ... *)
Theorem C66_terminates_refuted : exists r e argv p, vis_command_line r 10 argv = Ok (Done p) /\ forall fuel, sat_visibility r e fuel argv = UB Stuck.
Proof. exact (ex_intro _ dec_reader (ex_intro _ still_env (ex_intro _ still_line (ex_intro _ still_p (conj still_ok still_stuck))))). Qed.
Print Assumptions C66_terminates_refuted.
(** ... as with every step <= 0 and satellite that is never visible: no run ends normally ... *)
Theorem C66_no_progress : forall e argv p, -2147483648 <= v_delta_time p <= 0 -> v_altrng p = false -> v_skip p = false ->
  is_finite (range_begin p) = true -> is_finite (range_end p) = true -> (B2R (range_begin p) <= B2R (range_end p))%R ->
  (forall tle n t, flt (v_radius p) (zenith_distance (n_lib e) p tle n t) = true \/ l_blocked (n_lib e) (position (n_lib e) tle n t) (l_sun_vec (n_lib e) t) = true) ->
  forall fuel fin, visibility e fuel argv p = Ok fin -> vf_code fin <> 0 /\ vf_log fin = [].
Proof. exact no_progress. Qed.
Print Assumptions C66_no_progress.
(** ... while with a step of at least one second every accepted command line leads to a run that ends, for every library and files:
    the number of turns is at most the range divided by the step, up to the rounding of the clock. *)
Theorem C66_terminates : forall r f argv p, vis_command_line r f argv = Ok (Done p) -> 1 <= v_delta_time p ->
  forall e fuel, (f <= fuel)%nat -> (B2R (range_end p) - B2R (range_begin p) < (pace p - bpow radix2 (-23)) * INR fuel)%R -> sat_visibility r e fuel argv <> UB Stuck.
Proof. exact terminates. Qed.
Print Assumptions C66_terminates.
Theorem C66_terminates_eventually : forall r f argv p, vis_command_line r f argv = Ok (Done p) -> 1 <= v_delta_time p -> forall e, exists fuel, sat_visibility r e fuel argv <> UB Stuck.
Proof. exact eventually. Qed.
Print Assumptions C66_terminates_eventually.
Theorem C66_number_of_samples : forall e fuel argv p fin E, visibility e fuel argv p = Ok fin -> 15 <= E <= 30 -> 1 <= v_delta_time p <= 2147483647 ->
  bnd E (range_begin p) -> bnd E (range_end p) ->
  (samples (vf_log fin) <> [] -> (INR (length (samples (vf_log fin))) - 1) * (B2R (vstep p) - bpow radix2 (E - 53)) <= B2R (range_end p) - B2R (range_begin p))%R.
Proof. exact how_many. Qed.
Print Assumptions C66_number_of_samples.
Example C66_example : vis_command_line dec_reader 10 long_line = Ok (Done long_p) /\ (v_delta_time long_p = 30 /\ exists fin, visibility (ex_venv 6 7) 100 long_line long_p = Ok fin /\ length (samples (vf_log fin)) = 4%nat).
Proof. exact (conj long_ok (conj eq_refl four_samples)). Qed.

(** C67: the start is the first sample at which the satellite is within the radius and sunlit, and nothing is reported when there is none. *)
Theorem C67_start : forall e fuel argv p fin, visibility e fuel argv p = Ok fin ->
  let l := samples (vf_log fin) in
  (vf_code fin <> 0 /\ vf_log fin = []) \/
  exists tle t0, searched (n_lib e) p tle t0 l /\
  ((Forall (fun m => visible m = false) l /\ events (vf_log fin) = [] /\ (vf_code fin = 0 -> fle (ticks (vstep p) t0 (length l)) (range_end p) = false)) \/
   exists idle m rest g u s more, l = idle ++ m :: rest /\ Forall (fun m => visible m = false) idle /\ visible m = true /\
     events (vf_log fin) = (bytes "start", g, u, s) :: more /\ started_at p m s).
Proof. exact reports_start. Qed.
Print Assumptions C67_start.
Example C67_example : exists fin, visibility (ex_venv 6 7) 100 long_line long_p = Ok fin /\ vf_code fin = 0 /\ lit_flags fin = [-1; 1; 1; 0] /\
  event_names fin = map bytes ["start"; "end"; "mid"; "max"]%string /\
  event_dates fin = map bytes ["2024-05-11T00:00:30"; "2024-05-11T00:01:30"; "2024-05-11T00:01:30"; "2024-05-11T00:01:00"]%string /\
  mjd_dates fin = map bytes ["2024-05-11T00:00:30"; "2024-05-11T00:01:30"; "2024-05-11T00:01:30"; "2024-05-11T00:01:30"]%string /\
  prints (q "'sunlit_duration_minutes': 1.00, ") fin = true.
Proof. exact shadow_run. Qed.
Example C67_example_none : exists fin, visibility (ex_venv 100 200) 100 short_line short_p = Ok fin /\ vf_code fin = 0 /\ lit_flags fin = [-1; -1; -1] /\ event_names fin = [] /\
  prints (q "'n_sats_found': 0}") fin = true.
Proof. exact unseen_run. Qed.

(** C68: the reported highest position is that of a visible sample with the least zenith distance. *)
Theorem C68_highest : forall e fuel argv p fin, visibility e fuel argv p = Ok fin -> vf_code fin = 0 ->
  let l := samples (vf_log fin) in
  Exists (fun m => visible m = true) l -> Forall (fun m => visible m = true -> flt (m_sep m) (of_int 181) = true) l ->
  exists tle t0, searched (n_lib e) p tle t0 l /\
  exists m g u s, highest l m /\ In (bytes "max", g, u, s) (events (vf_log fin)) /\ date_of (fsub (m_t m) JD_OFF) = Ok (sa_date s) /\
    ((forall n n', l_propagate (n_lib e) n = l_propagate (n_lib e) n') -> sa_sep s = m_sep m).
Proof. exact reports_top. Qed.
Print Assumptions C68_highest.
Example C68_example : exists fin, visibility (ex_venv 6 7) 100 long_line long_p = Ok fin /\ vf_code fin = 0 /\ lit_flags fin = [-1; 1; 1; 0] /\
  nth 3 (event_names fin) [] = bytes "max" /\ nth 3 (event_dates fin) [] = bytes "2024-05-11T00:01:00".
Proof. exact top_run. Qed.

(** C69: refuted: a satellite visible only at the last sample of the range has a negative duration ... *)
Theorem C69_nonnegative_refuted : exists r e argv p fin, vis_command_line r 10 argv = Ok (Done p) /\ visibility e 100 argv p = Ok fin /\ vf_code fin = 0 /\
  prints (q "'sunlit_duration_minutes': -0.50, ") fin = true.
Proof. exact (match negative_run with ex_intro _ fin (conj H (conj C (conj _ P))) => ex_intro _ dec_reader (ex_intro _ (ex_venv 11 100) (ex_intro _ short_line (ex_intro _ short_p (ex_intro _ fin (conj short_ok (conj H (conj C P))))))) end). Qed.
Print Assumptions C69_nonnegative_refuted.
(** ... and the same two visible samples have three different durations, according to how the interval ends ... *)
Theorem C69_consistent_refuted : exists e1 e2 argv1 argv2 p1 p2 fin1 fin2 fin3,
  visibility e1 100 argv1 p1 = Ok fin1 /\ visibility e2 100 argv1 p1 = Ok fin2 /\ visibility e2 100 argv2 p2 = Ok fin3 /\
  lit_flags fin1 = [-1; 1; 1; 0] /\ lit_flags fin2 = [-1; 1; 1; -1] /\ lit_flags fin3 = [-1; 1; 1] /\
  prints (q "'sunlit_duration_minutes': 1.00, ") fin1 = true /\ prints (q "'sunlit_duration_minutes': 0.50, ") fin2 = true /\
  prints (q "'sunlit_duration_minutes': 0.00, ") fin3 = true.
Proof. exact three_durations. Qed.
Print Assumptions C69_consistent_refuted.
(** ... in general it is the time from the first to the last visible sample plus one step (shadow), plus nothing (outside the radius) or
    minus one step (end of the range), up to the rounding of the clock and of the float in which the difference is kept. *)
Theorem C69_duration : forall e fuel argv p fin, visibility e fuel argv p = Ok fin -> vf_code fin = 0 ->
  let l := samples (vf_log fin) in
  Exists (fun m => visible m = true) l ->
  exists tle t0, searched (n_lib e) p tle t0 l /\
  exists idle m lit m' en d pre post, l = idle ++ lit ++ last_ones en /\ hd_error lit = Some m /\ last_error lit = Some m' /\
    Forall (fun m => visible m = false) idle /\ Forall (fun m => visible m = true) lit /\ ends_so en /\
    vf_out fin = pre ++ q "'sunlit_duration_minutes': " ++ print_f 0 2 d ++ q ", " ++ post /\
    forall E e, 22 <= E <= 30 -> 1 <= v_delta_time p <= 2147483647 -> bnd E (range_begin p) -> bnd E (range_end p) ->
      -17 <= e <= 31 -> (B2R (m_t m') - B2R (m_t m) + B2R (vstep p) <= bpow radix2 e)%R ->
      is_finite d = true /\ (B2R (m_t m) <= B2R (m_t m'))%R /\
      (Rabs (B2R d - 1440 * (B2R (m_t m') - B2R (m_t m) + extra_steps en * B2R (vstep p))) <= 1440 * (bpow radix2 (E - 48) + bpow radix2 (e - 23)))%R.
Proof. exact reports_duration. Qed.
Print Assumptions C69_duration.
Example C69_example : exists fin, visibility (ex_venv 5 100) 100 long_line long_p = Ok fin /\ vf_code fin = 0 /\ lit_flags fin = [-1; 1; 1; -1] /\
  prints (q "'sunlit_duration_minutes': 0.50, ") fin = true.
Proof. exact left_run. Qed.

(** C70: refuted: with a fraction of a second in the first date the end of the range stays 0 and no sample is taken ... *)
Theorem C70_fraction_refuted : exists r argv e p fin, argv = map bytes ["sat_visibility"; "s.txt"; "-l44,11,23"; "-s"; "25544"; "-r5"; "-t30"; "-d2024-05-11T00:00:00.5,2024-05-11T00:05:00"]%string /\
  vis_command_line r 10 argv = Ok (Done p) /\ feq (v_mjd1 p) (of_int 0) = true /\ visibility e 100 argv p = Ok fin /\ vf_code fin = 0 /\ samples (vf_log fin) = [].
Proof. exact (match frac_ok, frac_run with conj A (conj _ B), ex_intro _ fin (conj C (conj D E)) => ex_intro _ dec_reader (ex_intro _ frac_line (ex_intro _ (ex_venv 5 100) (ex_intro _ frac_p (ex_intro _ fin (conj eq_refl (conj A (conj B (conj C (conj D E)))))))))  end). Qed.
Print Assumptions C70_fraction_refuted.
(** ... as after every list of options: the end of the range is that of an earlier -d, if any ... *)
Theorem C70_fraction_drops_end : forall r prog l a frac b rest fuel, Forall (vproper r) l -> stamp a -> no_nul (a ++ 46 :: frac ++ 44 :: b ++ rest) -> In 45 a ->
  (S (length (vall_written l)) <= fuel)%nat ->
  forall p, vis_command_line r fuel (prog :: vall_written l ++ [45 :: 100 :: a ++ 46 :: frac ++ 44 :: b ++ rest]) = Ok (Done p) ->
  v_mjd0 p = snd (date2mjd_nf a) /\ exists p0, vasked l p0 /\ v_date1 p = v_date1 p0 /\ v_mjd1 p = snd (date2mjd_nf (v_date1 p0)).
Proof. exact fraction_drops_end. Qed.
Print Assumptions C70_fraction_drops_end.
(** ... while two dates of nineteen characters set both ends, whatever the other options.  Missing: a fraction of a second in the second
    date is dropped (the 19 characters before it count), and shorter dates are not covered. *)
Theorem C70_plain_dates_partial : forall r prog l1 v a b k l2 fuel, k = VJoined v (VDates a b) \/ k = VApart v (VDates a b) -> Forall (vproper r) (l1 ++ k :: l2) ->
  Forall (fun k => vis_option (fun o => match o with VDates _ _ | VMjds _ _ _ _ => true | _ => false end) k = false) l2 ->
  Exists (fun k => vis_option (fun o => match o with VLocation _ _ _ => true | _ => false end) k = true) (l1 ++ k :: l2) ->
  (length (vall_written (l1 ++ k :: l2)) <= fuel)%nat ->
  exists p, vis_command_line r fuel (prog :: vall_written (l1 ++ k :: l2)) = Ok (Done p) /\ v_mjd0 p = snd (date2mjd_nf a) /\ v_mjd1 p = snd (date2mjd_nf b).
Proof. exact dates_honoured. Qed.
Print Assumptions C70_plain_dates_partial.
Example C70_example : exists p, vis_command_line dec_reader 20 (bytes "sat_visibility" :: vall_written plain_pieces) = Ok (Done p) /\
  feq (v_mjd0 p) (of_int 60441) = true /\ flt (of_int 60441) (v_mjd1 p) = true.
Proof. exact plain_range. Qed.

(** C71: refuted for "mid" and "max", whose MJD is that of the end ... *)
Theorem C71_max_refuted : exists r e argv p fin g u s, vis_command_line r 10 argv = Ok (Done p) /\ visibility e 100 argv p = Ok fin /\
  In (bytes "max", g, u, s) (events (vf_log fin)) /\ sa_date s = bytes "2024-05-11T00:01:00" /\ date_of (sa_mjd s) = Ok (bytes "2024-05-11T00:01:30").
Proof. exact stale_mjd. Qed.
Print Assumptions C71_max_refuted.
(** ... while at the start and at the end the date is that of the printed MJD. *)
Theorem C71_start_and_end : forall e fuel argv p fin, visibility e fuel argv p = Ok fin ->
  forall nm g u s, In (nm, g, u, s) (events (vf_log fin)) -> nm = bytes "start" \/ nm = bytes "end" -> date_of (sa_mjd s) = Ok (sa_date s).
Proof. exact reports_dates. Qed.
Print Assumptions C71_start_and_end.
Example C71_example : exists fin, visibility (ex_venv 6 7) 100 long_line long_p = Ok fin /\
  firstn 2 (event_names fin) = map bytes ["start"; "end"]%string /\ firstn 2 (event_dates fin) = map bytes ["2024-05-11T00:00:30"; "2024-05-11T00:01:30"]%string /\ firstn 2 (mjd_dates fin) = firstn 2 (event_dates fin).
Proof. exact stamped_run. Qed.

(** C72: refuted: a list with only a comment and an empty line: fclose( NULL) ... *)
Theorem C72_empty_list_refuted : exists r e argv p, vis_command_line r 10 argv = Ok (Done p) /\ forall fuel, visibility e fuel argv p = UB NullDeref.
Proof. exact (ex_intro _ dec_reader (ex_intro _ list_env (ex_intro _ list_line (ex_intro _ list_p (conj list_ok list_null))))). Qed.
Print Assumptions C72_empty_list_refuted.
(** ... as with every list that names no file. *)
Theorem C72_every_empty_list : forall e fuel argv p name path contents rs, nth_error argv (file_arg argv) = Some (64 :: name) ->
  path = v_tle_path p ++ 47 :: name -> (length path < 200)%nat -> v_single_n p = true \/ v_single_i p = true ->
  n_fs e path = Some contents -> lines_of contents rs -> Forall good_row rs -> flat_map (row_paths (v_tle_path p)) rs = [] ->
  visibility e fuel argv p = UB NullDeref.
Proof. exact empty_list. Qed.
Print Assumptions C72_every_empty_list.
Example C72_example : list_rows = [bytes "# no files today"; []] /\ Forall good_row list_rows.
Proof. exact (conj eq_refl rows_good). Qed.

(** C78: the satellite asked for is the one computed: the samples are taken with the element set of the first record, in the order of the
    files and their lines, that has the number (-s) or whose designator begins with the text (-i) given, and the name printed is that of
    its record; the program says that there is none (exit code 1) only when there is none.  For numbers below 100000 and designators of the
    usual form ... *)
Theorem C78_requested_satellite : forall e fuel argv p bl paths fin, visibility e fuel argv p = Ok fin -> request p -> run_paths e argv p paths -> element_files e bl paths ->
  Forall (fun r => recognisable p (snd r)) (file_records bl paths) ->
  (vf_log fin = [] /\ vf_code fin <> 0 /\ (vf_code fin = 1 -> Forall (fun r => ~ asked p (snd r)) (file_records bl paths))) \/
  exists r1 o el r2 tle t0, file_records bl paths = r1 ++ (o, el) :: r2 /\ Forall (fun r => ~ asked p (snd r)) r1 /\ asked p el /\
    describes tle el /\ searched (n_lib e) p tle t0 (samples (vf_log fin)) /\
    (vf_code fin = 0 -> events (vf_log fin) <> [] -> exists pre name desig post, vf_out fin = pre ++ sat_head name desig tle ++ post /\ forall t, o = Some t -> good_name t -> trimmed name t).
Proof. exact right_satellite. Qed.
Print Assumptions C78_requested_satellite.
(** ... while a number above 99999 (written A0001 in the file) is not found: refuted there. *)
Theorem C78_alpha5_refuted : exists e argv p bs c fin, vis_command_line dec_reader 10 argv = Ok (Done p) /\ v_norad_n p = 100001 /\
  n_fs e (bytes "./s.txt") = Some c /\ good_file c bs /\ map (fun r => e_number (snd r)) (records None bs) = [100001] /\
  visibility e 100 argv p = Ok fin /\ vf_code fin = 1 /\ samples (vf_log fin) = [] /\ prints (bytes "Satellite not found in ./s.txt") fin = true.
Proof. exact alpha_lost. Qed.
Print Assumptions C78_alpha5_refuted.
Example C78_example : request second_p /\ run_paths (ex_venv 6 7) second_line second_p [bytes "./s.txt"] /\ element_files (ex_venv 6 7) (fun _ => ex_blocks) [bytes "./s.txt"] /\
  Forall (fun r => recognisable second_p (snd r)) (file_records (fun _ => ex_blocks) [bytes "./s.txt"]) /\
  map (fun r => e_number (snd r)) (file_records (fun _ => ex_blocks) [bytes "./s.txt"]) = [25544; 49044].
Proof. exact second_request. Qed.
Example C78_example_run : exists fin, visibility (ex_venv 6 7) 100 second_line second_p = Ok fin /\ vf_code fin = 0 /\ lit_flags fin = [-1; 1; 1; 0] /\
  prints (q "'satellite': {'name': 'ISS (NAUKA)', ") fin = true /\ prints (q "'norad_n': 49044, ") fin = true.
Proof. exact second_run. Qed.
