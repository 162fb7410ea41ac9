(** Property theorems C60-C62 (and C58 for option errors): the command line of sat_skymap. *)
From Coq Require Import String Ascii ZArith List Bool.
From Verif Require Import CLib FloatModel CalendarModel JsonSpec SkymapModel CliModel CliSpec CliProofs1 CliProofs2 CliProofs3 CliProofs4 CliRuns.
Import ListNotations.
Open Scope Z_scope.

(** C58 for option errors: every exit of the option loop prints the usage text (status 0) or one JSON object. *)
Theorem C58_option_errors_json : forall r fuel argv code out, (2 <= length argv)%nat -> Forall clean argv -> command_line r fuel argv = Ok (Exit code out) ->
  (code = 0 /\ out = usage) \/ (json_object out /\ (code = -1 \/ code = -2)).
Proof. exact exits. Qed.
Print Assumptions C58_option_errors_json.
(** Without arguments the text is not JSON: a raw line feed inside a string. *)
Theorem C58_no_arguments_refuted : forall r fuel, exists out, command_line r fuel [bytes "sat_skymap"] = Ok (Exit 0 out) /\ ~ json out.
Proof. exact no_args_not_json. Qed.
Print Assumptions C58_no_arguments_refuted.

(** C60: refuted.  "sat_skymap s.txt -GH" never gets past the option loop ... *)
Theorem C60_termination_refuted : exists argv, forall r fuel, command_line r fuel argv = UB Stuck.
Proof. exact (ex_intro _ gh_argv gh_forever). Qed.
Print Assumptions C60_termination_refuted.
(** ... and so does every command line in which a switch is followed by more text in its argument ... *)
Theorem C60_glued_switch_diverges : forall r prog l a post, Forall (proper r) l -> no_nul a -> glued_switch a ->
  forall fuel, command_line r fuel (prog :: all_written l ++ a :: post) = UB Stuck.
Proof. exact never_ends. Qed.
Print Assumptions C60_glued_switch_diverges.
(** ... while without such arguments at most argc turns are made. *)
Theorem C60_terminates_otherwise : forall r argv, Forall no_nul argv -> (forall a, In a argv -> ~ glued_switch a) ->
  forall fuel, (length argv <= fuel)%nat -> command_line r fuel argv <> UB Stuck.
Proof. exact ends. Qed.
Print Assumptions C60_terminates_otherwise.
Example C60_example : gh_argv = [bytes "sat_skymap"; bytes "s.txt"; bytes "-GH"] /\ glued_switch (bytes "-GH").
Proof. exact (conj eq_refl (ex_intro _ SwG (ex_intro _ 72 (ex_intro _ [] (conj (fun H => eq_ind 72 (fun z => match z with 72 => True | _ => False end) I 0 H) eq_refl))))). Qed.

(** C61: refuted, whatever the library reads as numbers: a lone "-", a long designator, a long name, a date with microseconds, a large -n. *)
Theorem C61_dash_refuted : forall r fuel, (3 <= fuel)%nat -> command_line r fuel (argv_of ["s.txt"; "-"]%string) = UB OutOfBounds.
Proof. exact dash_bad. Qed.
Print Assumptions C61_dash_refuted.
Theorem C61_designator_refuted : forall r fuel, (3 <= fuel)%nat -> command_line r fuel (argv_of ["s.txt"; "-i"; "1998-067ABCDE"]%string) = UB OutOfBounds.
Proof. exact desig_bad. Qed.
Print Assumptions C61_designator_refuted.
Theorem C61_name_refuted : forall r fuel, (3 <= fuel)%nat -> command_line r fuel (argv_of ["s.txt"; "-S"; "A SATELLITE WITH A LONG NAME"]%string) = UB OutOfBounds.
Proof. exact name_bad. Qed.
Print Assumptions C61_name_refuted.
Theorem C61_date_refuted : forall r fuel, (3 <= fuel)%nat -> command_line r fuel (argv_of ["s.txt"; "-d2020-01-13T12:00:00.000001"]%string) = UB OutOfBounds.
Proof. exact date_bad. Qed.
Print Assumptions C61_date_refuted.
Theorem C61_max_refuted : forall r fuel, (3 <= fuel)%nat -> command_line r fuel (argv_of ["s.txt"; "-n"; "5000000000"]%string) = UB Overflow.
Proof. exact max_bad. Qed.
Print Assumptions C61_max_refuted.
(** An option without its value, a latitude of 1e70 (its message overruns errmsg), an MJD out of range, a time step out of range. *)
Theorem C61_values_refuted : exists r,
  command_line r 5 (argv_of ["s.txt"; "-l44,11,23"; "-r"]%string) = UB NullDeref /\
  command_line r 5 (argv_of ["s.txt"; "-l1e70,11,23"]%string) = UB OutOfBounds /\
  command_line r 5 (argv_of ["s.txt"; "-j2000000000"]%string) = UB NullDeref /\
  command_line r 5 (argv_of ["s.txt"; "-t1e10"]%string) = UB Overflow.
Proof. exact (ex_intro _ dec_reader (conj last_bad (conj lat_bad (conj mjd_bad step_bad)))). Qed.
Print Assumptions C61_values_refuted.
(** Safe for every argument vector without these defects, however wrong otherwise. *)
Theorem C61_memory_safe : forall r prog args fuel, tame r args ->
  (exists x, command_line r fuel (prog :: args) = Ok x) \/ command_line r fuel (prog :: args) = UB Stuck.
Proof. exact stays_inside. Qed.
Print Assumptions C61_memory_safe.
Example C61_example : tame fixed_reader (map bytes ["s.txt"; "-l95,11,23"; "-x"; "foo"]%string).
Proof. exact tame_ex. Qed.

(** C62: the parameters after parsing are those asked for, for every list of options. *)
Theorem C62_options : forall r prog l fuel, Forall (proper r) l -> l <> [] -> (length (all_written l) <= fuel)%nat ->
  exists p, asked l p /\ command_line r fuel (prog :: all_written l) = Ok (if p_in_geopos p then Done p else Exit 0 usage).
Proof. exact options. Qed.
Print Assumptions C62_options.
(** Whatever the arguments, a search is only made with a location, ordered altitudes and coordinates within their ranges. *)
Theorem C62_ranges : forall r fuel argv p, command_line r fuel argv = Ok (Done p) -> ranges p /\ p_in_geopos p = true.
Proof. exact in_ranges. Qed.
Print Assumptions C62_ranges.
(** The usage text says that -j is ignored when a calendar date is given: refuted. *)
Theorem C62_date_precedence_refuted : exists r l p, Forall (proper r) l /\ In (Joined (bytes "2020-04-20T12:43:12") (Date (bytes "2020-04-20T12:43:12"))) l /\
  command_line r 10 (bytes "sat_skymap" :: all_written l) = Ok (Done p) /\ feq (p_mjd p) (of_int 59000) = true /\ feq (p_mjd p) (snd (date2mjd_nf (bytes "2020-04-20T12:43:12"))) = false.
Proof. exact (match dj_run with ex_intro _ p H => ex_intro _ dec_reader (ex_intro _ dj_pieces (ex_intro _ p (conj dj_proper (conj (or_intror (or_intror (or_introl eq_refl))) H)))) end). Qed.
Print Assumptions C62_date_precedence_refuted.
(** It says that -D makes -T ignored: refuted. *)
Theorem C62_directory_precedence_refuted : exists r p, command_line r 10 (argv_of ["s.txt"; "-l44,11,23"; "-D"; "/data"; "-T"]%string) = Ok (Done p) /\
  p_deftledir p = true /\ p_tle_path p = bytes "/data".
Proof. exact (ex_intro _ dec_reader dt_run). Qed.
Print Assumptions C62_directory_precedence_refuted.
(** A comment says that the longitude is brought to [0, 360[: refuted. *)
Theorem C62_longitude_refuted : exists r p, command_line r 10 (argv_of ["s.txt"; "-l44,-400,23"]%string) = Ok (Done p) /\ feq (p_lon p) (of_int (-40)) = true.
Proof. exact (ex_intro _ dec_reader lon_run). Qed.
Print Assumptions C62_longitude_refuted.
(** For "-x foo" the message complains about 'foo'. *)
Theorem C62_message_refuted : exists r out pre post, command_line r 10 (argv_of ["s.txt"; "-x"; "foo"]%string) = Ok (Exit (-2) out) /\
  out = pre ++ q "'errmsg': '" ++ bytes "Unrecognized command-line option 'foo'" ++ post.
Proof. exact (ex_intro _ dec_reader wrong_name). Qed.
Print Assumptions C62_message_refuted.
Example C62_example : Forall (proper dec_reader) ex_pieces /\
  bytes "sat_skymap" :: all_written ex_pieces = argv_of ["stations.txt"; "-H"; "-l44.52804,-11.5,23.5"; "-j58959.53"; "-a"; "600,400"; "-p"; "90.5,-30.3"; "-n5"; "-s"; "25544"]%string /\
  exists p, command_line dec_reader 20 (bytes "sat_skymap" :: all_written ex_pieces) = Ok (Done p) /\
  feq (p_lon p) (lit 3485 10) = true /\ feq (p_alt_min p) (of_int 400) = true /\ feq (p_alt_max p) (of_int 600) = true /\ p_norad_n p = 25544 /\
  p_altrng p = false /\ p_in_region p = false /\ p_max_sats p = 5 /\ p_date p = bytes "2020-04-20T12:43:12" /\ feq (p_radius p) (of_int 20) = true.
Proof. exact (conj ex_proper (conj ex_written ex_values)). Qed.
