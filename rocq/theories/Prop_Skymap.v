(** Property theorems C46-C56 and C63-C65: what a run of sat_skymap examines, selects and lists.
    The numerical work (positions, separations, shadow) is an arbitrary function of the element set: the theorems hold whatever it returns. *)
From Coq Require Import String Ascii ZArith List Bool Lia Reals QArith.
From Flocq Require Import IEEE754.BinarySingleNaN.
From Verif Require Import CLib FloatModel TleModel TleSpec IoModel SkymapModel SkymapSpec SkymapProofs3 SkymapProofs4 SkymapProofs5 SkymapProofs7 SkymapProofs8 SkymapProofs9 SkymapExamples SkymapRuns.
Import ListNotations.
Open Scope Z_scope.

(** C46: false.  A satellite whose propagation signalled an error is listed, and the run reports success. *)
Theorem C46_failed_propagation_listed_refuted : exists e fin, skymap e z100 z100 z25 = Ok fin /\ f_code fin = 0 /\
  Exists (fun i => n_code1 (i_num i) <> 0) (listing (f_log fin)).
Proof. exact (ex_intro _ failing_env failing_listed). Qed.
Print Assumptions C46_failed_propagation_listed_refuted.
Example C46_example : n_code1 (e_num failing_env 0%nat tle0) = -5 /\ n_nan (e_num failing_env 0%nat tle0) = false.
Proof. split; reflexivity. Qed.

(** C47: the element sets examined are those of the opened files, each once, in order; all of them unless the run stopped
    early (an error, a found single satellite, or the limit reached). *)
Theorem C47_each_record_once : forall e l1 l2 nm fin bl, arrays l1 l2 nm -> skymap e l1 l2 nm = Ok fin -> readable e bl (opened (f_log fin)) ->
  (exists k, Forall2 describes (examined (f_log fin)) (firstn k (file_elements bl (opened (f_log fin))))) /\
  (f_code fin = 0 -> p_single_n (e_p e) = false -> p_single_i (e_p e) = false -> f_found fin <> p_max_sats (e_p e) ->
   Forall2 describes (examined (f_log fin)) (file_elements bl (opened (f_log fin)))).
Proof. exact run_examined. Qed.
Print Assumptions C47_each_record_once.
Theorem C47_file_opened : forall e l1 l2 nm fin arg, skymap e l1 l2 nm = Ok fin ->
  nth_error (e_argv e) (file_arg (e_argv e)) = Some arg -> (forall name, arg <> 64 :: name) ->
  opened (f_log fin) = [if existsb (Z.eqb 47) arg then arg else p_tle_path (e_p (with_path e)) ++ 47 :: arg].
Proof. exact file_opened. Qed.
Print Assumptions C47_file_opened.
Example C47_example : good_file ex_file ex_blocks /\ readable ex_env (fun _ => ex_blocks) [bytes "./s.txt"] /\
  map e_number (file_elements (fun _ => ex_blocks) [bytes "./s.txt"]) = [25544; 49044] /\
  exists fin, skymap ex_env z100 z100 z25 = Ok fin /\ f_code fin = 0 /\ f_found fin = 2 /\ f_nsunlit fin = 2 /\ f_nsats fin = 2 /\
  numbers fin = [25544; 49044] /\ names fin = [bytes "ISS (ZARYA)"; bytes "ISS (NAUKA)"] /\ opened (f_log fin) = [bytes "./s.txt"] /\
  met_codes (f_log fin) = [bytes "25544"; bytes "49044"].
Proof. exact (conj ex_file_good (conj ex_readable (conj eq_refl plain_run))). Qed.

(** C48: every listed satellite is one of the file, and if the line before its elements is a name, it is listed under that name
    without the white space at its end. *)
Theorem C48_own_name : forall e l1 l2 nm fin bl, arrays l1 l2 nm -> skymap e l1 l2 nm = Ok fin -> readable e bl (opened (f_log fin)) ->
  forall i, In i (listing (f_log fin)) ->
  exists o el, In (o, el) (file_records bl (opened (f_log fin))) /\ describes (i_tle i) el /\ (forall t, o = Some t -> good_name t -> trimmed (i_name i) t).
Proof. exact run_names. Qed.
Print Assumptions C48_own_name.
Example C48_example : good_name (bytes "ISS (NAUKA)") /\
  nth_error (file_records (fun _ => ex_blocks) [bytes "./s.txt"]) 1 = Some (Some (bytes "ISS (NAUKA)"), elems 49044 d2).
Proof. exact (conj ex_name eq_refl). Qed.

(** C49: provided no catalogue code met contains a comma, no code is entered twice, only codes entered before are skipped, and
    a satellite is listed only right after its code was entered. *)
Theorem C49_no_duplicates : forall e l1 l2 nm fin, arrays l1 l2 nm -> skymap e l1 l2 nm = Ok fin -> comma_free (f_log fin) ->
  unique (f_log fin) /\ listed_when_entered (f_log fin).
Proof. exact run_unique. Qed.
Print Assumptions C49_no_duplicates.
(** Without the proviso it is false: codes are matched as substrings of a comma-separated list. *)
Theorem C49_false_duplicate_refuted : exists e fin, skymap e z100 z100 z25 = Ok fin /\
  f_code fin = 0 /\ met_codes (f_log fin) = [bytes "A,BCD"; bytes "E,GHI"; bytes "BCD,E"] /\ entered_codes (f_log fin) = [bytes "A,BCD"; bytes "E,GHI"] /\
  names fin = [bytes "A"; bytes "B"].
Proof. exact (ex_intro _ _ comma_run). Qed.
Print Assumptions C49_false_duplicate_refuted.
Example C49_example : comma_free [EvNew (bytes "25544") tle0 ex_num; EvList [] [] tle0 ex_num; EvDup (bytes "25544")] /\
  unique [EvNew (bytes "25544") tle0 ex_num; EvDup (bytes "25544")] /\ ~ unique [EvDup (bytes "25544")].
Proof.
  split; [|split; [split|]].
  - repeat (apply Forall_cons; [intro K; repeat (destruct K as [K|K]; [discriminate K|]); exact K|]); apply Forall_nil.
  - repeat constructor. intros [].
  - intros [|a0 [|a1 a]] c b E; [discriminate E| |destruct a; discriminate E]. injection E as <- <- _. now left.
  - intros [_ K]. exact (K [] (bytes "25544") [] eq_refl).
Qed.

(** C50: a run without undefined behaviour has entered at most 11666 codes (of 6 bytes, with the final NUL, in 70000 bytes). *)
Theorem C50_buffer_bound : forall e l1 l2 nm fin, arrays l1 l2 nm -> skymap e l1 l2 nm = Ok fin ->
  6 * Z.of_nat (length (entered_codes (f_log fin))) + 1 <= 70000 /\ Forall (fun c => length c = 5%nat) (met_codes (f_log fin)) /\
  (comma_free (f_log fin) -> unique (f_log fin)).
Proof. exact run_dedup. Qed.
Print Assumptions C50_buffer_bound.
(** And every catalogue of more satellites does overrun the buffer: the list is never enlarged in time. *)
Theorem C50_overrun : forall k, 11667 <= Z.of_nat k <= 100000 -> skymap (big_env k) z100 z100 z25 = UB OutOfBounds.
Proof. exact overrun. Qed.
Print Assumptions C50_overrun.
Theorem C50_within_buffer_refuted : exists e, skymap e z100 z100 z25 = UB OutOfBounds /\ e_argv e = [bytes "sat_skymap"; bytes "s.txt"; bytes "-l44,11,23"] /\ (forall k t, e_num e k t = far_num).
Proof. exact overrun_exists. Qed.
Print Assumptions C50_within_buffer_refuted.
Example C50_example : exists fin, skymap (big_env 3) z100 z100 z25 = Ok fin /\ length (entered_codes (f_log fin)) = 3%nat.
Proof.
  destruct (ran (big_env 3) z100 z100 z25 (fun fin => Nat.eqb (length (entered_codes (f_log fin))) 3) ltac:(vm_compute; reflexivity)) as (fin & H & T).
  exists fin. split; [exact H|]. now apply Nat.eqb_eq.
Qed.

(** C51: the limit is respected (and, by C47, if fewer are listed everything was examined). *)
Theorem C51_limit : forall e l1 l2 nm fin, skymap e l1 l2 nm = Ok fin -> 1 <= p_max_sats (e_p e) -> f_found fin <= p_max_sats (e_p e).
Proof. exact limit_respected. Qed.
Print Assumptions C51_limit.
Example C51_example : exists fin, skymap limited_env z100 z100 z25 = Ok fin /\ f_code fin = 0 /\ f_found fin = 1 /\ numbers fin = [25544].
Proof. exact limited_run. Qed.

(** C52: with -s alone at most one satellite is listed and, if its code is a number, it is the requested one. *)
Theorem C52_single_number : forall e l1 l2 nm fin, skymap e l1 l2 nm = Ok fin -> p_single_n (e_p e) = true -> p_sunlit_only (e_p e) = false -> p_altrng (e_p e) = false ->
  ~ In 0 (p_intl_desig (e_p e)) ->
  listing (f_log fin) = [] \/ exists code i, listing (f_log fin) = [i] /\ In (EvNew code (i_tle i) (i_num i)) (f_log fin) /\ (forall m, shows_nat code m -> m = p_norad_n (e_p e)).
Proof. exact run_single. Qed.
Print Assumptions C52_single_number.
(** With -i alone at most one is listed, and its designator begins with the one requested. *)
Theorem C52_single_designator : forall e l1 l2 nm fin, skymap e l1 l2 nm = Ok fin -> p_single_n (e_p e) = false -> p_single_i (e_p e) = true ->
  p_sunlit_only (e_p e) = false -> p_altrng (e_p e) = false -> ~ In 0 (p_intl_desig (e_p e)) ->
  listing (f_log fin) = [] \/ exists i r, listing (f_log fin) = [i] /\ i_desig i = p_intl_desig (e_p e) ++ r.
Proof. exact run_single_desig. Qed.
Print Assumptions C52_single_designator.
(** With -S every listed name begins with the text given. *)
Theorem C52_by_name : forall e l1 l2 nm fin, skymap e l1 l2 nm = Ok fin -> single_sat (e_p e) = false -> p_satname_filter (e_p e) = true -> ~ In 0 (p_satname (e_p e)) ->
  forall i, In i (listing (f_log fin)) -> exists r, i_name i = p_satname (e_p e) ++ r.
Proof. exact run_named. Qed.
Print Assumptions C52_by_name.
(** With -V (likewise -a) it is false: if the requested satellite is filtered out, the next one that is not gets listed. *)
Theorem C52_other_satellite_refuted : exists e fin, skymap e z100 z100 z25 = Ok fin /\ p_single_n (e_p e) = true /\ p_norad_n (e_p e) = 25544 /\
  f_code fin = 0 /\ numbers fin = [49044].
Proof. exact (ex_intro _ dark_request (match dark_request_run with ex_intro _ fin (conj H K) => ex_intro _ fin (conj H (conj eq_refl (conj eq_refl K))) end)). Qed.
Print Assumptions C52_other_satellite_refuted.
Example C52_example_number : exists fin, skymap (request_env 49044 ex_file) z100 z100 z25 = Ok fin /\ f_code fin = 0 /\ numbers fin = [49044].
Proof. exact request_run. Qed.
Example C52_example_designator : exists fin, skymap (desig_env (bytes "2021-066A") ex_file) z100 z100 z25 = Ok fin /\ f_code fin = 0 /\ names fin = [bytes "ISS (NAUKA)"].
Proof. exact desig_run. Qed.
Example C52_example_name : exists fin, skymap (name_env "ISS (N") z100 z100 z25 = Ok fin /\ f_code fin = 0 /\ names fin = [bytes "ISS (NAUKA)"].
Proof. exact name_run. Qed.
(** The help text says "substring": a text from the middle of the name selects nothing. *)
Example C52_example_middle : exists fin, skymap (name_env "NAUKA") z100 z100 z25 = Ok fin /\ f_code fin = 0 /\ names fin = [].
Proof. exact middle_name_run. Qed.

(** C53: for a number below 100000 the code shows that number, and what -s compares with is the number a code shows. *)
Theorem C53_plain_numbers : forall m, 0 <= m < 100000 -> shows_nat (encode_norad m) m.
Proof. exact plain_code_shows. Qed.
Print Assumptions C53_plain_numbers.
Theorem C53_request_reads_code : forall s n, shows_nat s n -> c_strtol (s ++ [0]) = Ok n.
Proof. exact strtol_shows. Qed.
Print Assumptions C53_request_reads_code.
(** False for larger numbers (codes with a letter): the satellite 100001 is examined but not found by -s 100001. *)
Theorem C53_alpha_request_refuted : exists e fin, skymap e z100 z100 z25 = Ok fin /\ p_single_n (e_p e) = true /\ p_norad_n (e_p e) = 100001 /\ f_code fin = 0 /\
  map norad_number (examined (f_log fin)) = [100001] /\ listing (f_log fin) = [].
Proof. exact (ex_intro _ (request_env 100001 alpha_file) (match alpha_run with ex_intro _ fin (conj H K) => ex_intro _ fin (conj H (conj eq_refl (conj eq_refl K))) end)). Qed.
Print Assumptions C53_alpha_request_refuted.
(** It is found by -s 0, as every such satellite is. *)
Theorem C53_alpha_zero_refuted : exists e fin, skymap e z100 z100 z25 = Ok fin /\ p_single_n (e_p e) = true /\ p_norad_n (e_p e) = 0 /\ f_code fin = 0 /\ numbers fin = [100001].
Proof. exact (ex_intro _ (request_env 0 alpha_file) (match alpha_zero_run with ex_intro _ fin (conj H K) => ex_intro _ fin (conj H (conj eq_refl (conj eq_refl K))) end)). Qed.
Print Assumptions C53_alpha_zero_refuted.
Example C53_example : encode_norad 25544 = bytes "25544" /\ encode_norad 100001 = bytes "A0001" /\ c_strtol (bytes "A0001" ++ [0]) = Ok 0.
Proof. repeat split. Qed.

(** C54: the designator reported is the full one for pieces of one letter, and its first nine characters in general. *)
Theorem C54_one_letter : forall year number p, 1957 <= year <= 2056 -> 1 <= number <= 999 -> letter p ->
  desig_text (desig_field year number [p]) = Ok (designator year number [p]).
Proof. exact desig_one_letter. Qed.
Print Assumptions C54_one_letter.
Theorem C54_nine_characters : forall year number p1 rest, 1957 <= year <= 2056 -> 1 <= number <= 999 -> letter p1 -> (length rest <= 2)%nat ->
  desig_text (desig_field year number (p1 :: rest)) = Ok (firstn 9 (designator year number (p1 :: rest))).
Proof. exact desig_general. Qed.
Print Assumptions C54_nine_characters.
(** Hence false for longer pieces: -i 1998-067AB does not find that object ... *)
Theorem C54_piece_not_found_refuted : exists fin, skymap (desig_env (bytes "1998-067AB") pieces_file) z100 z100 z25 = Ok fin /\ f_code fin = 0 /\ listing (f_log fin) = [].
Proof. exact piece_ab_run. Qed.
Print Assumptions C54_piece_not_found_refuted.
(** ... and -i 1998-067A finds it instead of 1998-067A, which follows in the file. *)
Theorem C54_wrong_piece_refuted : exists fin, skymap (desig_env (bytes "1998-067A") pieces_file) z100 z100 z25 = Ok fin /\ f_code fin = 0 /\ names fin = [bytes "PIECE AB"].
Proof. exact piece_a_run. Qed.
Print Assumptions C54_wrong_piece_refuted.
Example C54_example : designator 1998 67 (bytes "A") = bytes "1998-067A" /\ desig_field 1998 67 (bytes "AB") = bytes "98067AB " /\ letter 65.
Proof. repeat split; discriminate. Qed.

(** C55: the counts are the numbers of listed and of listed sunlit satellites. *)
Theorem C55_counts : forall e l1 l2 nm fin, skymap e l1 l2 nm = Ok fin ->
  f_found fin = Z.of_nat (length (listing (f_log fin))) /\ f_nsunlit fin = Z.of_nat (length (sunlit_items (listing (f_log fin)))).
Proof. exact counters. Qed.
Print Assumptions C55_counts.
Theorem C55_sunlit_at_most_found : forall l, (length (sunlit_items l) <= length l)%nat.
Proof. exact sunlit_le. Qed.
Print Assumptions C55_sunlit_at_most_found.
Theorem C55_total : forall e l1 l2 nm fin, skymap e l1 l2 nm = Ok fin -> f_code fin = 0 ->
  (single_sat (e_p e) = false -> f_nsats fin = f_found fin) /\
  (single_sat (e_p e) = true -> 0 <= f_found fin <= f_nsats fin /\ f_nsats fin <= 1).
Proof. exact nsats_found. Qed.
Print Assumptions C55_total.
(** For single requests the total may differ from the number found. *)
Theorem C55_total_differs_refuted : exists e fin, skymap e z100 z100 z25 = Ok fin /\ f_code fin = 0 /\ f_nsats fin = 1 /\ f_found fin = 0.
Proof. exact (ex_intro _ dark_alone dark_alone_run). Qed.
Print Assumptions C55_total_differs_refuted.
Example C55_example : exists fin, skymap sunlit_env z100 z100 z25 = Ok fin /\ f_code fin = 0 /\ numbers fin = [49044].
Proof. exact sunlit_run. Qed.

(** C56: a listed satellite passes the filters in force; one that is entered, has proper coordinates and passes them is listed, unless it has no pixel and so ends the run. *)
Theorem C56_filters : forall e l1 l2 nm fin, skymap e l1 l2 nm = Ok fin ->
  (forall i, In i (listing (f_log fin)) -> ordinary (e_p e) (i_num i) -> passes_filters (e_p e) (i_num i)) /\
  (forall c t n, In (EvNew c t n) (f_log fin) -> n_nan n = false -> ordinary (e_p e) n -> passes_filters (e_p e) n -> n_theta_ok n = true \/ f_code fin = 0 ->
   exists i, In i (listing (f_log fin)) /\ i_tle i = t /\ i_num i = n).
Proof. exact run_filters. Qed.
Print Assumptions C56_filters.
(** One that passes them and has no pixel ends the run, with status 1. *)
Theorem C56_no_pixel : forall e l1 l2 nm fin, skymap e l1 l2 nm = Ok fin ->
  forall c t n, In (EvNew c t n) (f_log fin) -> n_nan n = false -> ordinary (e_p e) n -> passes_filters (e_p e) n -> n_theta_ok n = false ->
  f_code fin = 1 /\ stopped (f_log fin).
Proof. exact run_stops. Qed.
Print Assumptions C56_no_pixel.
(** A satellite whose altitude is not a number passes any altitude filter. *)
Theorem C56_nan_altitude_refuted : exists e fin, skymap e z100 z100 z25 = Ok fin /\ p_altrng (e_p e) = true /\ f_code fin = 0 /\
  Exists (fun i => fle (n_alt (i_num i)) (p_alt_max (e_p e)) = false) (listing (f_log fin)).
Proof. exact (ex_intro _ nan_env (match nan_alt_run with ex_intro _ fin (conj H K) => ex_intro _ fin (conj H (conj eq_refl K)) end)). Qed.
Print Assumptions C56_nan_altitude_refuted.
Example C56_example : ordinary ex_params ex_num /\ n_sunlit ex_num = true /\ n_sunlit dark_num = false /\
  exists fin, skymap sunlit_env z100 z100 z25 = Ok fin /\ f_code fin = 0 /\ numbers fin = [49044].
Proof. exact (conj (conj eq_refl (conj eq_refl (conj eq_refl (conj eq_refl (conj eq_refl eq_refl))))) (conj eq_refl (conj eq_refl sunlit_run))). Qed.

(** C63: with a list file, the files opened are those its rows name, in order; all of them unless the run stopped early. *)
Theorem C63_list_file : forall e l1 l2 nm fin name contents rs, skymap e l1 l2 nm = Ok fin ->
  nth_error (e_argv e) (file_arg (e_argv e)) = Some (64 :: name) ->
  let dir := p_tle_path (e_p (with_path e)) in
  e_fs e (dir ++ 47 :: name) = Some contents -> lines_of contents rs -> Forall good_row rs ->
  exists k, opened (f_log fin) = firstn k (flat_map (row_paths dir) rs) /\
    (f_code fin = 0 -> single_sat (e_p e) = false -> f_found fin <> p_max_sats (e_p e) -> opened (f_log fin) = flat_map (row_paths dir) rs).
Proof. exact list_opened. Qed.
Print Assumptions C63_list_file.
(** A list with CR LF line ends names files ending in CR. *)
Theorem C63_crlf_refuted : exists fin, skymap (list_env crlf_rows) z100 z100 z25 = Ok fin /\ f_code fin = 2 /\ opened (f_log fin) = [bytes "./s.txt" ++ [13]].
Proof. exact crlf_run. Qed.
Print Assumptions C63_crlf_refuted.
Example C63_example : (lines_of ex_rows [bytes "# mine"; bytes "s.txt"; []; bytes "t.txt"] /\ Forall good_row [bytes "# mine"; bytes "s.txt"; []; bytes "t.txt"]) /\
  exists fin, skymap (list_env ex_rows) z100 z100 z25 = Ok fin /\ f_code fin = 0 /\ opened (f_log fin) = [bytes "./s.txt"; bytes "./t.txt"] /\ numbers fin = [25544; 49044; 20580].
Proof. exact (conj ex_rows_good list_run). Qed.

(** C64: trimming a text that is not all white removes the white space at its end and nothing else. *)
Theorem C64_trimmed : forall t r b, ~ In 0 t -> trimend (t ++ 0 :: r) = Ok b -> Exists (fun c => ~ white c) t ->
  exists a, c_text b = Ok a /\ trimmed a t /\ length b = length (t ++ 0 :: r).
Proof. exact trimend_spec. Qed.
Print Assumptions C64_trimmed.
Theorem C64_total : forall t r, ~ In 0 t -> t <> [] -> exists b, trimend (t ++ 0 :: r) = Ok b.
Proof. exact trimend_total. Qed.
Print Assumptions C64_total.
(** An all-white text keeps its first character, and an empty text is read and written before its beginning. *)
Theorem C64_blank_refuted : exists b, trimend (bytes "   " ++ [0]) = Ok b /\ c_text b = Ok (bytes " ").
Proof. exact (ex_intro _ (bytes " " ++ [0; 32; 0]) (conj eq_refl eq_refl)). Qed.
Print Assumptions C64_blank_refuted.
Theorem C64_empty_refuted : trimend [0] = UB OutOfBounds.
Proof. exact eq_refl. Qed.
Print Assumptions C64_empty_refuted.
Example C64_example : exists b, trimend (bytes "ISS (ZARYA)   " ++ [0; 7]) = Ok b /\ c_text b = Ok (bytes "ISS (ZARYA)").
Proof. eexists. split; reflexivity. Qed.

(** C65: false.  With a file that has no name lines, the name listed depends on memory never written ... *)
Theorem C65_name_from_old_memory_refuted : exists e fin fin', skymap e z100 z100 z25 = Ok fin /\ skymap e z100 z100 (repeat 65 24 ++ [0]) = Ok fin' /\ names fin <> names fin'.
Proof. exact (ex_intro _ bare_env bare_run). Qed.
Print Assumptions C65_name_from_old_memory_refuted.
(** ... and may be read beyond its end. *)
Theorem C65_name_overread_refuted : exists e, skymap e z100 z100 (repeat 65 25) = UB OutOfBounds.
Proof. exact (ex_intro _ bare_env bare_overread). Qed.
Print Assumptions C65_name_overread_refuted.
Example C65_example : length z25 = 25%nat /\ length (repeat 65 24 ++ [0]) = 25%nat /\ two_line_file = el_line1 (bytes "25544") d1 ++ [10] ++ el_line2 (bytes "25544") ++ [10].
Proof. repeat split. Qed.
