(** Property theorems C57-C59: the text printed by sat_skymap. *)
From Coq Require Import String Ascii ZArith List Bool.
From Flocq Require Import IEEE754.BinarySingleNaN.
From Verif Require Import CLib FloatModel IoModel JsonSpec JsonAcceptor JsonProofs SkymapModel SkymapSpec SkymapOutSpec SkymapProofs10 SkymapExamples SkymapRuns.
Import ListNotations.
Open Scope Z_scope.

(** C57: a run that completes normally prints one JSON object (RFC 8259 grammar), however many satellites it lists, provided the
    arguments, the date, the names and the designators contain no quote, backslash or control character and the numbers are finite. *)
Theorem C57_json : forall e l1 l2 nm fin, skymap e l1 l2 nm = Ok fin -> f_code fin = 0 ->
  Forall clean (e_argv e) -> clean (p_date (e_p e)) -> hdr_finite e -> Forall item_clean (listing (f_log fin)) -> json_object (f_out fin).
Proof. exact json_normal. Qed.
Print Assumptions C57_json.
(** The grammar is decided by the acceptor that the concrete cases below use. *)
Theorem C57_grammar_decided : forall l, accepts l = true <-> json l.
Proof. exact accepts_iff. Qed.
Print Assumptions C57_grammar_decided.
(** With "-t 0" the speed is never finite, and the text printed is not JSON. *)
Theorem C57_speed_not_finite : forall sep, is_finite (speed_of sep 0) = false.
Proof. exact no_speed. Qed.
Print Assumptions C57_speed_not_finite.
Theorem C57_zero_step_refuted : exists e fin, skymap e z100 z100 z25 = Ok fin /\ p_delta_time (e_p e) = 0 /\ f_code fin = 0 /\ f_found fin = 2 /\ ~ json (f_out fin).
Proof. exact (ex_intro _ no_step_env (match no_step_run with ex_intro _ fin (conj H K) => ex_intro _ fin (conj H (conj eq_refl K)) end)). Qed.
Print Assumptions C57_zero_step_refuted.
Example C57_example : (Forall clean (e_argv ex_env) /\ clean (p_date (e_p ex_env)) /\ hdr_finite ex_env /\ item_clean (mk_item (bytes "ISS (ZARYA)") (bytes "1998-067A") tle0 ex_num)) /\
  exists fin, skymap ex_env z100 z100 z25 = Ok fin /\ f_code fin = 0 /\ json (f_out fin).
Proof. exact (conj ex_printable plain_json). Qed.

(** C58: at an error exit of the loop the text is JSON exactly when no satellite had been printed and the run did not break off in the pixel routine. *)
Theorem C58_json_on_error : forall e l1 l2 nm fin, skymap e l1 l2 nm = Ok fin -> f_code fin <> 0 ->
  Forall clean (e_argv e) -> clean (p_date (e_p e)) -> hdr_finite e -> Forall item_clean (listing (f_log fin)) ->
  clean (p_tle_path (e_p (with_path e))) -> Forall clean (opened (f_log fin)) ->
  (json (f_out fin) <-> ~ stopped (f_log fin) /\ (p_info_only (e_p e) = true \/ listing (f_log fin) = [])).
Proof. exact json_error. Qed.
Print Assumptions C58_json_on_error.
(** A satellite that cannot be propagated after another was listed ... *)
Theorem C58_decode_error_refuted : exists e fin, skymap e z100 z100 z25 = Ok fin /\ f_code fin = 1 /\ f_found fin = 1 /\ ~ json (f_out fin).
Proof. exact (ex_intro _ stop_env stop_run). Qed.
Print Assumptions C58_decode_error_refuted.
(** ... or a missing file after a list entry that worked: the output is truncated JSON. *)
Theorem C58_missing_file_refuted : exists e fin, skymap e z100 z100 z25 = Ok fin /\ f_code fin = 2 /\ f_found fin = 2 /\ ~ json (f_out fin).
Proof. exact (ex_intro _ (list_env gap_rows) gap_run). Qed.
Print Assumptions C58_missing_file_refuted.
(** ... or a satellite whose declination came out beyond the pole. *)
Theorem C58_beyond_pole_refuted : exists e fin, skymap e z100 z100 z25 = Ok fin /\ f_code fin = 1 /\ f_found fin = 1 /\ stopped (f_log fin) /\ ~ json (f_out fin).
Proof. exact (ex_intro _ pole_env pole_run). Qed.
Print Assumptions C58_beyond_pole_refuted.
Example C58_example : exists fin, skymap absent_env z100 z100 z25 = Ok fin /\ f_code fin = 2 /\ json (f_out fin).
Proof. exact absent_run. Qed.

(** C59: the command line is echoed as given, provided a list file (if any) is the first argument and the run did not break off in the pixel routine. *)
Theorem C59_echo : forall e l1 l2 nm fin, skymap e l1 l2 nm = Ok fin -> f_code fin = 0 \/ ~ stopped (f_log fin) ->
  (forall a, nth_error (e_argv e) (file_arg (e_argv e)) = Some (64 :: a) -> file_arg (e_argv e) = 1%nat) ->
  exists pre post, f_out fin = pre ++ q " 'run_command': '" ++ command (e_argv e) ++ q "', 'status': " ++ post.
Proof. exact echo. Qed.
Print Assumptions C59_echo.
(** With the list after the options the echo is wrong: "sat_skymap -l44,11,23 @l.txt" becomes "sat_skymap @-l44,11,23 l.txt". *)
Theorem C59_echo_refuted : exists e fin, skymap e z100 z100 z25 = Ok fin /\ f_code fin = 0 /\
  (~ exists pre post, f_out fin = pre ++ command (e_argv e) ++ post) /\
  exists pre post, f_out fin = pre ++ q "'run_command': '" ++ bytes "sat_skymap @-l44,11,23 l.txt" ++ post.
Proof. exact (ex_intro _ late_list_env late_list_run). Qed.
Print Assumptions C59_echo_refuted.
Example C59_example : command (e_argv ex_env) = bytes "sat_skymap s.txt -l44,11,23" /\ file_arg (e_argv ex_env) = 1%nat /\
  command (e_argv late_list_env) = bytes "sat_skymap -l44,11,23 @l.txt".
Proof. exact (conj eq_refl (conj eq_refl eq_refl)). Qed.
