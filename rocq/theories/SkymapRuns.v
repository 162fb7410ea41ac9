(** Outcomes of concrete runs, used as counterexamples and as examples. *)
From Coq Require Import String Ascii ZArith List Bool Lia QArith.
From Verif Require Import CLib ListLemmas FloatModel TleModel TleSpec IoModel JsonSpec JsonAcceptor JsonProofs SkymapModel SkymapSpec SkymapOutSpec SkymapProofs3 SkymapProofs8 SkymapProofs9 SkymapExamples.
Import ListNotations.
Open Scope Z_scope.

Definition numbers (fin : final) : list Z := map (fun i => norad_number (i_tle i)) (listing (f_log fin)).
Definition names (fin : final) : list (list Z) := map i_name (listing (f_log fin)).

Ltac go t := match goal with |- exists fin, skymap ?e ?l1 ?l2 ?nm = Ok fin /\ _ => destruct (ran e l1 l2 nm t ltac:(vm_compute; reflexivity)) as (fin & H & T) end; match goal with H : skymap _ _ _ _ = Ok ?fin |- _ => exists fin end; repeat (match goal with T : (_ && _)%bool = true |- _ => apply andb_prop in T; destruct T end).
Ltac close := repeat match goal with K : eqb_list _ _ = true |- _ => apply eqb_list_true in K | K : eqb_lists _ _ = true |- _ => apply eqb_lists_true in K | K : (_ =? _) = true |- _ => apply Z.eqb_eq in K end.

(** Both satellites of the file are listed although the first propagation failed with SXPX_ERR_NEGATIVE_XN. *)
Definition failing_env : env := file_env (opt_params [] [] 0 1000 false false false false false) (fun _ _ => with_codes (-5) 0) ex_file.
Lemma failing_listed : exists fin, skymap failing_env z100 z100 z25 = Ok fin /\ f_code fin = 0 /\
  Exists (fun i => n_code1 (i_num i) <> 0) (listing (f_log fin)).
Proof.
  go (fun fin => (f_code fin =? 0) && existsb (fun i => negb (n_code1 (i_num i) =? 0)) (listing (f_log fin))). close. repeat split; try assumption.
  match goal with X : existsb _ _ = true |- _ => apply existsb_exists in X; destruct X as (i & I & K) end. apply Exists_exists. exists i. split; [exact I|]. intro E. rewrite E in K. discriminate K.
Qed.

(** The plain run. *)
Lemma plain_run : exists fin, skymap ex_env z100 z100 z25 = Ok fin /\ f_code fin = 0 /\ f_found fin = 2 /\ f_nsunlit fin = 2 /\ f_nsats fin = 2 /\
  numbers fin = [25544; 49044] /\ names fin = [bytes "ISS (ZARYA)"; bytes "ISS (NAUKA)"] /\ opened (f_log fin) = [bytes "./s.txt"] /\
  met_codes (f_log fin) = [bytes "25544"; bytes "49044"].
Proof.
  go (fun fin => (f_code fin =? 0) && (f_found fin =? 2) && (f_nsunlit fin =? 2) && (f_nsats fin =? 2) && eqb_list (numbers fin) [25544; 49044] &&
    eqb_lists (names fin) [bytes "ISS (ZARYA)"; bytes "ISS (NAUKA)"] && eqb_lists (opened (f_log fin)) [bytes "./s.txt"] &&
    eqb_lists (met_codes (f_log fin)) [bytes "25544"; bytes "49044"]). close. repeat split; assumption.
Qed.

Lemma comma_run : exists fin, skymap (file_env (opt_params [] [] 0 1000 false false false false false) (fun _ _ => ex_num) comma_file) z100 z100 z25 = Ok fin /\
  f_code fin = 0 /\ met_codes (f_log fin) = [bytes "A,BCD"; bytes "E,GHI"; bytes "BCD,E"] /\ entered_codes (f_log fin) = [bytes "A,BCD"; bytes "E,GHI"] /\
  names fin = [bytes "A"; bytes "B"].
Proof.
  go (fun fin => (f_code fin =? 0) && eqb_lists (met_codes (f_log fin)) [bytes "A,BCD"; bytes "E,GHI"; bytes "BCD,E"] &&
    eqb_lists (entered_codes (f_log fin)) [bytes "A,BCD"; bytes "E,GHI"] && eqb_lists (names fin) [bytes "A"; bytes "B"]). close. repeat split; assumption.
Qed.

Definition limited_env : env := file_env (opt_params [] [] 0 1 false false false false false) (fun _ _ => ex_num) ex_file.
Lemma limited_run : exists fin, skymap limited_env z100 z100 z25 = Ok fin /\ f_code fin = 0 /\ f_found fin = 1 /\ numbers fin = [25544].
Proof. go (fun fin => (f_code fin =? 0) && (f_found fin =? 1) && eqb_list (numbers fin) [25544]). close. repeat split; assumption. Qed.

(** -s 25544 -V, the requested satellite being in the shadow. *)
Definition dark_request : env := file_env (opt_params [] [] 25544 1000 true false true false false) zarya_dark ex_file.
Lemma dark_request_run : exists fin, skymap dark_request z100 z100 z25 = Ok fin /\ f_code fin = 0 /\ numbers fin = [49044].
Proof. go (fun fin => (f_code fin =? 0) && eqb_list (numbers fin) [49044]). close. repeat split; assumption. Qed.
(** The same with only that satellite in the file. *)
Definition dark_alone : env := file_env (opt_params [] [] 25544 1000 true false true false false) zarya_dark (mk_rec "ISS (ZARYA)" "25544" "98067A  ").
Lemma dark_alone_run : exists fin, skymap dark_alone z100 z100 z25 = Ok fin /\ f_code fin = 0 /\ f_nsats fin = 1 /\ f_found fin = 0.
Proof. go (fun fin => (f_code fin =? 0) && (f_nsats fin =? 1) && (f_found fin =? 0)). close. repeat split; assumption. Qed.
(** -s 49044 *)
Definition request_env (n : Z) (file : list Z) : env := file_env (opt_params [] [] n 1000 false false true false false) (fun _ _ => ex_num) file.
Lemma request_run : exists fin, skymap (request_env 49044 ex_file) z100 z100 z25 = Ok fin /\ f_code fin = 0 /\ numbers fin = [49044].
Proof. go (fun fin => (f_code fin =? 0) && eqb_list (numbers fin) [49044]). close. repeat split; assumption. Qed.
(** -s 100001 does not find the satellite with that number, -s 0 does. *)
Lemma alpha_run : exists fin, skymap (request_env 100001 alpha_file) z100 z100 z25 = Ok fin /\ f_code fin = 0 /\
  map norad_number (examined (f_log fin)) = [100001] /\ listing (f_log fin) = [].
Proof.
  go (fun fin => (f_code fin =? 0) && eqb_list (map norad_number (examined (f_log fin))) [100001] && (Z.of_nat (length (listing (f_log fin))) =? 0)). close. repeat split; try assumption.
  destruct (listing (f_log fin)); [reflexivity|cbn [length] in *; lia].
Qed.
Lemma alpha_zero_run : exists fin, skymap (request_env 0 alpha_file) z100 z100 z25 = Ok fin /\ f_code fin = 0 /\ numbers fin = [100001].
Proof. go (fun fin => (f_code fin =? 0) && eqb_list (numbers fin) [100001]). close. repeat split; assumption. Qed.

(** -i *)
Definition desig_env (d : list Z) (file : list Z) : env := file_env (opt_params d [] 0 1000 false true false false false) (fun _ _ => ex_num) file.
Lemma piece_ab_run : exists fin, skymap (desig_env (bytes "1998-067AB") pieces_file) z100 z100 z25 = Ok fin /\ f_code fin = 0 /\ listing (f_log fin) = [].
Proof.
  go (fun fin => (f_code fin =? 0) && (Z.of_nat (length (listing (f_log fin))) =? 0)). close. repeat split; try assumption.
  destruct (listing (f_log fin)); [reflexivity|cbn [length] in *; lia].
Qed.
Lemma piece_a_run : exists fin, skymap (desig_env (bytes "1998-067A") pieces_file) z100 z100 z25 = Ok fin /\ f_code fin = 0 /\ names fin = [bytes "PIECE AB"].
Proof. go (fun fin => (f_code fin =? 0) && eqb_lists (names fin) [bytes "PIECE AB"]). close. repeat split; assumption. Qed.
Lemma desig_run : exists fin, skymap (desig_env (bytes "2021-066A") ex_file) z100 z100 z25 = Ok fin /\ f_code fin = 0 /\ names fin = [bytes "ISS (NAUKA)"].
Proof. go (fun fin => (f_code fin =? 0) && eqb_lists (names fin) [bytes "ISS (NAUKA)"]). close. repeat split; assumption. Qed.

(** -S *)
Definition name_env (s : string) : env := file_env (opt_params [] (bytes s) 0 1000 false false false true false) (fun _ _ => ex_num) ex_file.
Lemma name_run : exists fin, skymap (name_env "ISS (N") z100 z100 z25 = Ok fin /\ f_code fin = 0 /\ names fin = [bytes "ISS (NAUKA)"].
Proof. go (fun fin => (f_code fin =? 0) && eqb_lists (names fin) [bytes "ISS (NAUKA)"]). close. repeat split; assumption. Qed.
Lemma middle_name_run : exists fin, skymap (name_env "NAUKA") z100 z100 z25 = Ok fin /\ f_code fin = 0 /\ names fin = [].
Proof. go (fun fin => (f_code fin =? 0) && eqb_lists (names fin) []). close. repeat split; assumption. Qed.

(** -V and -a *)
Definition sunlit_env : env := file_env (opt_params [] [] 0 1000 true false false false false) zarya_dark ex_file.
Lemma sunlit_run : exists fin, skymap sunlit_env z100 z100 z25 = Ok fin /\ f_code fin = 0 /\ numbers fin = [49044].
Proof. go (fun fin => (f_code fin =? 0) && eqb_list (numbers fin) [49044]). close. repeat split; assumption. Qed.
Definition nan_env : env := file_env (opt_params [] [] 0 1000 false false false false true) (fun _ _ => nan_alt_num) ex_file.
Lemma nan_alt_run : exists fin, skymap nan_env z100 z100 z25 = Ok fin /\ f_code fin = 0 /\
  Exists (fun i => fle (n_alt (i_num i)) (p_alt_max (e_p nan_env)) = false) (listing (f_log fin)).
Proof.
  go (fun fin => (f_code fin =? 0) && existsb (fun i => negb (fle (n_alt (i_num i)) (p_alt_max (e_p nan_env)))) (listing (f_log fin))). close. repeat split; try assumption.
  match goal with X : existsb _ _ = true |- _ => apply existsb_exists in X; destruct X as (i & I & K) end. apply Exists_exists. exists i. split; [exact I|]. now apply negb_true_iff.
Qed.

(** @l.txt *)
Lemma list_run : exists fin, skymap (list_env ex_rows) z100 z100 z25 = Ok fin /\ f_code fin = 0 /\ opened (f_log fin) = [bytes "./s.txt"; bytes "./t.txt"] /\ numbers fin = [25544; 49044; 20580].
Proof. go (fun fin => (f_code fin =? 0) && eqb_lists (opened (f_log fin)) [bytes "./s.txt"; bytes "./t.txt"] && eqb_list (numbers fin) [25544; 49044; 20580]). close. repeat split; assumption. Qed.
Definition crlf_rows : list Z := bytes "s.txt" ++ [13; 10].
Lemma crlf_run : exists fin, skymap (list_env crlf_rows) z100 z100 z25 = Ok fin /\ f_code fin = 2 /\ opened (f_log fin) = [bytes "./s.txt" ++ [13]].
Proof. go (fun fin => (f_code fin =? 2) && eqb_lists (opened (f_log fin)) [bytes "./s.txt" ++ [13]]). close. repeat split; assumption. Qed.

(** A file without names: the last bytes of the name buffer are what they were before the program started. *)
Definition bare_env : env := file_env (opt_params [] [] 0 1000 false false false false false) (fun _ _ => ex_num) two_line_file.
Lemma bare_run : exists fin fin', skymap bare_env z100 z100 z25 = Ok fin /\ skymap bare_env z100 z100 (repeat 65 24 ++ [0]) = Ok fin' /\ names fin <> names fin'.
Proof.
  destruct (ran bare_env z100 z100 z25 (fun fin => eqb_lists (names fin) [bytes "1 25544U 98067A   24132"]) ltac:(vm_compute; reflexivity)) as (fin & H & T).
  destruct (ran bare_env z100 z100 (repeat 65 24 ++ [0]) (fun fin => eqb_lists (names fin) [bytes "1 25544U 98067A   24132A"]) ltac:(vm_compute; reflexivity)) as (fin' & H' & T').
  exists fin, fin'. split; [exact H|]. split; [exact H'|]. close. rewrite T, T'. discriminate.
Qed.
Lemma bare_overread : skymap bare_env z100 z100 (repeat 65 25) = UB OutOfBounds.
Proof. vm_compute. reflexivity. Qed.

(** The blocks of the example file. *)
Definition d1 := bytes "98067A  ". Definition d2 := bytes "21066A  ".
Definition ex_blocks : list block :=
  [Note (bytes "ISS (ZARYA)"); Pair (el_line1 (bytes "25544") d1) (el_line2 (bytes "25544")) (elems 25544 d1);
   Note (bytes "ISS (NAUKA)"); Pair (el_line1 (bytes "49044") d2) (el_line2 (bytes "49044")) (elems 49044 d2)].
Lemma ex_file_good : good_file ex_file ex_blocks.
Proof.
  split; [left; reflexivity|].
  assert (G: forall s, forallb (fun c => negb (c =? 10) && negb (c =? 0)) (bytes s) = true -> (length (bytes s) <= 98)%nat -> good_text (bytes s)).
  { intros s F L. split; [|split; [|exact L]]; intro K; rewrite forallb_forall in F; apply F in K; discriminate K. }
  repeat apply Forall_cons; [| | | |apply Forall_nil].
  - split; [apply G; [reflexivity|cbn; lia]|discriminate].
  - apply good_pair; try reflexivity; [unfold norad_count; lia| |]; repeat (apply Forall_cons; [cbn; lia|]); apply Forall_nil.
  - split; [apply G; [reflexivity|cbn; lia]|discriminate].
  - apply good_pair; try reflexivity; [unfold norad_count; lia| |]; repeat (apply Forall_cons; [cbn; lia|]); apply Forall_nil.
Qed.
Lemma ex_readable : readable ex_env (fun _ => ex_blocks) [bytes "./s.txt"].
Proof. intros p c [<-|[]] E. vm_compute in E. injection E as <-. exact ex_file_good. Qed.
Lemma ex_name : good_name (bytes "ISS (NAUKA)").
Proof.
  split; [cbn; lia|]. split; [intro K; repeat (destruct K as [K|K]; [discriminate K|]); exact K|]. split; [discriminate|]. split; [discriminate|].
  apply Exists_cons_hd. unfold white. cbn. lia.
Qed.
Lemma ex_rows_good : lines_of ex_rows [bytes "# mine"; bytes "s.txt"; []; bytes "t.txt"] /\ Forall good_row [bytes "# mine"; bytes "s.txt"; []; bytes "t.txt"].
Proof.
  split; [left; reflexivity|].
  repeat apply Forall_cons; try apply Forall_nil; (split; [intro K; repeat (destruct K as [K|K]; [discriminate K|]); exact K|split; [intro K; repeat (destruct K as [K|K]; [discriminate K|]); exact K|split; cbn; lia]]).
Qed.

(** ** The printed text *)
Lemma not_json : forall l, accepts l = false -> ~ json l.
Proof. intros l H K. apply accepts_iff in K. congruence. Qed.
(** -t 0: the speed is not a number that JSON has. *)
Definition no_step_params : params :=
  mk_params (bytes "2020-04-20T12:00:00") [] [] (of_int 44) (of_int 11) (of_int 23) x0 x0 (of_int 20)
    (of_int 58959) x0 (of_int 100000) 0 1000 0
    true false false false false false false false false false false true (bytes ".").
Definition no_step_num : num :=
  mk_num 0 0 false x0 x0 (of_int 420) x0 (of_int 5) (of_int 5) true (of_int 185) (of_int (-53)) (of_int 185) (of_int (-53)) (of_int 1436) (of_int 89) (speed_of x0 0) 690893 true.
Definition no_step_env : env := file_env no_step_params (fun _ _ => no_step_num) ex_file.
Lemma no_step_run : exists fin, skymap no_step_env z100 z100 z25 = Ok fin /\ f_code fin = 0 /\ f_found fin = 2 /\ ~ json (f_out fin).
Proof. go (fun fin => (f_code fin =? 0) && (f_found fin =? 2) && negb (accepts (f_out fin))). close. repeat split; try assumption. apply not_json. now apply negb_true_iff. Qed.
Lemma no_speed : forall sep : b64, BinarySingleNaN.is_finite (speed_of sep 0) = false.
Proof. intro sep. unfold speed_of. change (of_int 0) with (BinarySingleNaN.B754_zero false : b64). destruct (fmul sep (of_int 60)) as [s|s| |s m e B]; reflexivity. Qed.
(** The second satellite cannot be propagated. *)
Definition stop_env : env := file_env (opt_params [] [] 0 1000 false false false false false) (fun k _ => if Nat.eqb k 0 then ex_num else nan_num) ex_file.
Lemma stop_run : exists fin, skymap stop_env z100 z100 z25 = Ok fin /\ f_code fin = 1 /\ f_found fin = 1 /\ ~ json (f_out fin).
Proof. go (fun fin => (f_code fin =? 1) && (f_found fin =? 1) && negb (accepts (f_out fin))). close. repeat split; try assumption. apply not_json. now apply negb_true_iff. Qed.
(** The second satellite has a declination beyond the pole. *)
Definition pole_num : num :=
  mk_num 0 0 false x0 x0 (of_int 420) x0 (of_int 5) (of_int 5) true (of_int 185) (fadd (of_int 90) (fdiv (of_int 1) (of_int 10))) (of_int 186) (of_int 89) (of_int 1436) (of_int 89) (of_int 2) 690893 false.
Definition pole_env : env := file_env (opt_params [] [] 0 1000 false false false false false) (fun k _ => if Nat.eqb k 0 then ex_num else pole_num) ex_file.
Lemma pole_run : exists fin, skymap pole_env z100 z100 z25 = Ok fin /\ f_code fin = 1 /\ f_found fin = 1 /\ stopped (f_log fin) /\ ~ json (f_out fin).
Proof.
  go (fun fin => (f_code fin =? 1) && (f_found fin =? 1) && negb (accepts (f_out fin)) && match rev (f_log fin) with EvNew _ _ n :: _ => negb (n_nan n) && negb (n_theta_ok n) | _ => false end).
  close. repeat split; try assumption; [|apply not_json; now apply negb_true_iff].
  match goal with X : match rev ?l with _ => _ end = true |- stopped ?l => rewrite <- (rev_involutive l); destruct (rev l) as [|[] r]; try discriminate X; apply andb_prop in X; destruct X as [X1 X2] end.
  cbn [rev]. apply negb_true_iff in X1, X2. exists (rev r). eauto 6.
Qed.
(** The second file of a list does not exist. *)
Definition gap_rows : list Z := bytes "s.txt" ++ [10] ++ bytes "missing.txt" ++ [10].
Lemma gap_run : exists fin, skymap (list_env gap_rows) z100 z100 z25 = Ok fin /\ f_code fin = 2 /\ f_found fin = 2 /\ ~ json (f_out fin).
Proof. go (fun fin => (f_code fin =? 2) && (f_found fin =? 2) && negb (accepts (f_out fin))). close. repeat split; try assumption. apply not_json. now apply negb_true_iff. Qed.
Definition absent_env : env := mk_env [bytes "sat_skymap"; bytes "no.txt"; bytes "-l44,11,23"] ex_params ex_hdr (fun _ _ => ex_num) (fun _ => None) tle0.
Lemma absent_run : exists fin, skymap absent_env z100 z100 z25 = Ok fin /\ f_code fin = 2 /\ json (f_out fin).
Proof. go (fun fin => (f_code fin =? 2) && accepts (f_out fin)). close. repeat split; try assumption. now apply accepts_iff. Qed.
(** The list given after the options. *)
Definition late_list_env : env :=
  mk_env [bytes "sat_skymap"; bytes "-l44,11,23"; bytes "@l.txt"] ex_params ex_hdr (fun _ _ => ex_num)
    (fun path => if list_eq_dec Z.eq_dec path (bytes "./l.txt") then Some (bytes "s.txt") else if list_eq_dec Z.eq_dec path (bytes "./s.txt") then Some ex_file else None) tle0.
Lemma strstrb_sub : forall a b c, strstrb (a ++ b ++ c) b = true.
Proof.
  assert (P: forall b c, prefixb b (b ++ c) = true) by (induction b as [|x b IH]; intro c; [reflexivity|cbn; rewrite Z.eqb_refl; apply IH]).
  induction a as [|x a IH]; intros b c.
  - cbn [app]. destruct (b ++ c) eqn:E; cbn [strstrb]; rewrite <- E, P; reflexivity.
  - cbn [app strstrb]. rewrite IH. apply orb_true_r.
Qed.
Lemma late_list_run : exists fin, skymap late_list_env z100 z100 z25 = Ok fin /\ f_code fin = 0 /\
  (~ exists pre post, f_out fin = pre ++ command (e_argv late_list_env) ++ post) /\
  exists pre post, f_out fin = pre ++ q "'run_command': '" ++ bytes "sat_skymap @-l44,11,23 l.txt" ++ post.
Proof.
  assert (S: forall n h, strstrb h n = true -> exists pre post, h = pre ++ n ++ post).
  { assert (P: forall n h, prefixb n h = true -> exists r, h = n ++ r).
    { induction n as [|x n IH]; intros h H; [now exists h|]. destruct h as [|y h]; [discriminate H|]. cbn in H. apply andb_prop in H. destruct H as [H1 H2]. apply Z.eqb_eq in H1. subst y.
      apply IH in H2. destruct H2 as (r & ->). now exists r. }
    intros n h. induction h as [|y h IH]; intro H; cbn [strstrb] in H; apply orb_prop in H; destruct H as [H|H].
    - apply P in H. destruct H as (r & H). exists [], r. exact H.
    - discriminate H.
    - apply P in H. destruct H as (r & H). exists [], r. exact H.
    - apply IH in H. destruct H as (pre & post & ->). now exists (y :: pre), post. }
  go (fun fin => (f_code fin =? 0) && negb (strstrb (f_out fin) (command (e_argv late_list_env))) && strstrb (f_out fin) (q "'run_command': '" ++ bytes "sat_skymap @-l44,11,23 l.txt")).
  close. repeat split; try assumption.
  - intros (pre & post & E). match goal with K : negb _ = true |- _ => rewrite E, strstrb_sub in K; discriminate K end.
  - match goal with K : strstrb _ _ = true |- _ => apply S in K; destruct K as (pre & post & E) end. exists pre, post. rewrite E, <- !app_assoc. reflexivity.
Qed.
Lemma plain_json : exists fin, skymap ex_env z100 z100 z25 = Ok fin /\ f_code fin = 0 /\ json (f_out fin).
Proof. go (fun fin => (f_code fin =? 0) && accepts (f_out fin)). close. repeat split; try assumption. now apply accepts_iff. Qed.
Lemma all_clean : forall l, forallb is_plain l = true -> clean l.
Proof. intros l H. apply Forall_forall. intros x Hx. rewrite forallb_forall in H. apply plain_iff. now apply H. Qed.
Lemma ex_printable : Forall clean (e_argv ex_env) /\ clean (p_date (e_p ex_env)) /\ hdr_finite ex_env /\ item_clean (mk_item (bytes "ISS (ZARYA)") (bytes "1998-067A") tle0 ex_num).
Proof.
  split; [repeat (apply Forall_cons; [apply all_clean; reflexivity|]); apply Forall_nil|]. split; [apply all_clean; reflexivity|].
  split; [unfold hdr_finite; cbv zeta; repeat (apply Forall_cons; [vm_compute; reflexivity|]); apply Forall_nil|].
  split; [apply all_clean; reflexivity|]. split; [apply all_clean; reflexivity|]. repeat (apply Forall_cons; [vm_compute; reflexivity|]). apply Forall_nil.
Qed.
