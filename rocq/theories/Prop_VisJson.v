(** Property theorems C114-C115: the text printed by sat_visibility. *)
From Coq Require Import String Ascii ZArith List Bool.
From Flocq Require Import IEEE754.BinarySingleNaN.
From Verif Require Import CLib FloatModel IoModel JsonSpec SkymapModel SkymapRuns CliModel CliRuns VisCliModel VisModel VisSpec VisDataSpec VisOutSpec VisProofs12 VisRuns VisRuns3.
Import ListNotations.
Open Scope Z_scope.

(** C114: a run that ends normally prints one JSON object (RFC 8259 grammar), provided the arguments contain no quote, backslash or
    control character, the numbers are finite, the step is positive and the range lies within 2^29 days; if the satellite was seen,
    the announced name and designator must be free of those characters as well.  No condition on dates and durations: the texts of
    the dates are clean and the duration is finite in every such run. *)
Theorem C114_json : forall r f e fuel argv p fin, vis_command_line r f argv = Ok (Done p) -> visibility e fuel argv p = Ok fin -> vf_code fin = 0 ->
  Forall clean argv -> vhead_finite (n_lib e) p -> 1 <= v_delta_time p <= 2147483647 -> bnd 29 (range_begin p) -> bnd 29 (range_end p) ->
  Forall event_finite (events (vf_log fin)) ->
  (events (vf_log fin) = [] -> vsun_finite (sun_of (n_lib e) (range_begin p)) -> json_object (vf_out fin)) /\
  (events (vf_log fin) <> [] -> exists name desig, announces (vf_out fin) name desig /\ (clean name -> clean desig -> json_object (vf_out fin))).
Proof. exact vis_json. Qed.
Print Assumptions C114_json.
(** At an error exit the text is JSON exactly when no event had been reported. *)
Theorem C114_json_on_error : forall r f e fuel argv p fin, vis_command_line r f argv = Ok (Done p) -> visibility e fuel argv p = Ok fin -> vf_code fin <> 0 ->
  Forall clean argv -> vhead_finite (n_lib e) p -> list_clean e argv p -> Forall event_finite (events (vf_log fin)) ->
  (events (vf_log fin) = [] -> json_object (vf_out fin)) /\
  (events (vf_log fin) <> [] -> exists name desig, announces (vf_out fin) name desig /\ (clean name -> clean desig -> ~ json (vf_out fin))).
Proof. exact vis_json_error. Qed.
Print Assumptions C114_json_on_error.
(** An error in the options: the usage text or a JSON object. *)
Theorem C114_option_errors_json : forall r fuel argv code out, (2 <= length argv)%nat -> Forall clean argv -> vis_command_line r fuel argv = Ok (Exit code out) ->
  (code = 0 /\ out = vis_usage) \/ (json_object out /\ (code = -1 \/ code = -2)).
Proof. exact vis_exits. Qed.
Print Assumptions C114_option_errors_json.
(** A satellite that leaves the requested range of altitudes after the start of its visibility: the object "satellite" is left open. *)
Theorem C114_altitude_refuted : exists r e argv p fin, vis_command_line r 10 argv = Ok (Done p) /\ visibility e 100 argv p = Ok fin /\ vf_code fin = 1 /\
  length (events (vf_log fin)) = 1%nat /\ ~ json (vf_out fin).
Proof. exact (ex_intro _ dec_reader (ex_intro _ rising_env (ex_intro _ rising_line (ex_intro _ rising_p (match rising_run with ex_intro _ fin K => ex_intro _ fin (conj rising_ok K) end))))). Qed.
Print Assumptions C114_altitude_refuted.
(** A file of element sets with an empty line in place of the name: the name is a line feed, in a string. *)
Theorem C114_blank_name_refuted : exists r e argv p fin, vis_command_line r 10 argv = Ok (Done p) /\ visibility e 100 argv p = Ok fin /\ vf_code fin = 0 /\
  announces (vf_out fin) [10] (bytes "1998-067A") /\ ~ json (vf_out fin).
Proof. exact (ex_intro _ dec_reader (ex_intro _ blank_env (ex_intro _ long_line (ex_intro _ long_p (match blank_run with ex_intro _ fin K => ex_intro _ fin (conj long_ok K) end))))). Qed.
Print Assumptions C114_blank_name_refuted.
(** A list of files with CR LF line ends: the existing file s.txt is not opened, and the message has a control character. *)
Theorem C114_list_crlf_refuted : exists r e argv p fin, n_fs e (bytes "./s.txt") <> None /\ vis_command_line r 10 argv = Ok (Done p) /\ visibility e 100 argv p = Ok fin /\ vf_code fin = 2 /\ ~ json (vf_out fin).
Proof. exact (ex_intro _ dec_reader (ex_intro _ crlf_env (ex_intro _ list_line (ex_intro _ list_p (match crlf_run with ex_intro _ fin K => ex_intro _ fin (conj crlf_there (conj list_ok K)) end))))). Qed.
Print Assumptions C114_list_crlf_refuted.
(** Without arguments the message contains a line feed inside a string. *)
Theorem C114_no_arguments_refuted : forall r fuel, exists out, vis_command_line r fuel [bytes "sat_visibility"] = Ok (Exit 0 out) /\ ~ json out.
Proof. exact vis_no_args. Qed.
Print Assumptions C114_no_arguments_refuted.
Example C114_example_conditions : (Forall clean long_line /\ vhead_finite (n_lib (ex_venv 6 7)) long_p /\ v_delta_time long_p = 30 /\ vsun_finite (sun_of (n_lib (ex_venv 6 7)) (range_begin long_p))) /\
  bnd 29 (range_begin long_p) /\ bnd 29 (range_end long_p).
Proof. exact (conj long_conditions long_range). Qed.
Example C114_example_seen : exists fin, visibility (ex_venv 6 7) 100 long_line long_p = Ok fin /\ vf_code fin = 0 /\ length (events (vf_log fin)) = 4%nat /\ Forall event_finite (events (vf_log fin)) /\ json (vf_out fin).
Proof. exact seen_json. Qed.
Example C114_example_unseen : exists fin, visibility (ex_venv 100 200) 100 short_line short_p = Ok fin /\ vf_code fin = 0 /\ events (vf_log fin) = [] /\ json (vf_out fin).
Proof. exact unseen_json. Qed.
Example C114_example_error : exists fin, visibility (venv_of (ex_lib (after_begin 6) (after_begin 7)) []) 100 long_line long_p = Ok fin /\ vf_code fin = 2 /\ json (vf_out fin).
Proof. exact VisRuns3.absent_run. Qed.
Example C114_example_option : exists out, vis_command_line dec_reader 10 (vargv ["s.txt"; "-x1"]%string) = Ok (Exit (-2) out) /\ json out.
Proof. exact vis_unknown. Qed.

(** C115: every text printed after the options were accepted echoes the command line as given, provided a list file (if any) is the
    first argument. *)
Theorem C115_echo : forall e fuel argv p fin, visibility e fuel argv p = Ok fin ->
  (forall a, nth_error argv (file_arg argv) = Some (64 :: a) -> file_arg argv = 1%nat) ->
  exists pre post, vf_out fin = pre ++ q "'run_command': '" ++ vis_command argv ++ q "', 'status': " ++ post.
Proof. exact vis_echo. Qed.
Print Assumptions C115_echo.
(** With the list after the options the echo is wrong: the '@' is at the first option. *)
Theorem C115_echo_refuted : exists r e argv p fin, vis_command_line r 10 argv = Ok (Done p) /\ visibility e 100 argv p = Ok fin /\ vf_code fin = 0 /\
  (~ exists pre post, vf_out fin = pre ++ vis_command argv ++ post) /\
  prints (bytes "sat_visibility @-l44,11,23 -s25544 -r5 -t30 -j60441,60441.002 l.txt") fin = true.
Proof. exact (ex_intro _ dec_reader (ex_intro _ late_env (ex_intro _ late_line (ex_intro _ late_p (match late_run with ex_intro _ fin K => ex_intro _ fin (conj late_ok K) end))))). Qed.
Print Assumptions C115_echo_refuted.
Example C115_example : vis_command list_line = bytes "sat_visibility @l.txt -l44,11,23 -s 25544 -r5 -t30 -j60441,60441.002" /\ file_arg list_line = 1%nat /\
  vis_command late_line = bytes "sat_visibility -l44,11,23 -s25544 -r5 -t30 -j60441,60441.002 @l.txt".
Proof. exact (conj eq_refl (conj eq_refl eq_refl)). Qed.
