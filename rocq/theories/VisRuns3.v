(** Concrete runs of sat_visibility: the text printed. *)
From Coq Require Import String Ascii ZArith List Bool Lia Reals.
From Flocq Require Import Core IEEE754.BinarySingleNaN.
From Verif Require Import CLib FloatModel FloatLemmas CalendarModel CalendarProofs2 TleModel IoModel JsonSpec JsonAcceptor JsonProofs SkymapModel SkymapSpec SkymapExamples SkymapRuns CliModel CliProofs1 CliRuns VisCliModel VisModel VisSpec VisDataSpec VisOutSpec VisProofs12 VisRuns.
Import ListNotations.
Open Scope Z_scope.

(** The library of VisRuns with a satellite that rises from 400 to 4000 km at [when]. *)
Definition rising_lib (peak dark when : b64) : lib :=
  let L := ex_lib peak dark in
  mk_lib (fun t => (of_int 0, t)) (l_deep L) (l_epoch L) (l_propagate L)
    (fun _ g => mk_geo (of_int 0) (of_int 0) (if flt when g then of_int 4000 else of_int 400) (of_int 0))
    (l_observer L) (l_radec L) (l_skysep L) (l_pa L) (l_sun_alt L) (l_sun L) (l_sun_vec L) (l_blocked L) (l_dechalat L) (l_precess L).
Definition rising_env : venv := venv_of (rising_lib (after_begin 5) (after_begin 100) (after_begin 5)) [("./s.txt"%string, ex_file)].
Definition rising_line : list (list Z) := vargv ["s.txt"; "-l44,11,23"; "-s"; "25544"; "-a300,500"; "-r5"; "-t30"; "-j60441,60441.002"]%string.
Definition rising_p : vparams := param_of (vis_command_line dec_reader 10 rising_line).
Lemma rising_ok : vis_command_line dec_reader 10 rising_line = Ok (Done rising_p).
Proof. apply parsed_ok. vm_compute. reflexivity. Qed.
Definition reported (fin : vfinal) : Z := Z.of_nat (length (events (vf_log fin))).
Lemma reported_one : forall fin, reported fin =? 1 = true -> length (events (vf_log fin)) = 1%nat.
Proof. intros fin H. apply Z.eqb_eq in H. unfold reported in H. lia. Qed.
Lemma rising_run : exists fin, visibility rising_env 100 rising_line rising_p = Ok fin /\ vf_code fin = 1 /\ length (events (vf_log fin)) = 1%nat /\ ~ json (vf_out fin).
Proof.
  vgo (fun fin => (vf_code fin =? 1) && (reported fin =? 1) && negb (accepts (vf_out fin))).
  split; [now apply Z.eqb_eq|]. split; [now apply reported_one|]. apply not_json. now apply negb_true_iff.
Qed.

(** Element sets separated by an empty line, without a line for the name. *)
Definition blank_file : list Z := mk_rec "" "25544" "98067A  ".
Definition blank_env : venv := venv_of (ex_lib (after_begin 5) (after_begin 100)) [("./s.txt"%string, blank_file)].
Lemma blank_run : exists fin, visibility blank_env 100 long_line long_p = Ok fin /\ vf_code fin = 0 /\ announces (vf_out fin) [10] (bytes "1998-067A") /\ ~ json (vf_out fin).
Proof.
  assert (S: forall n h, strstrb h n = true -> exists pre post, h = pre ++ n ++ post).
  { assert (P: forall n h, prefixb n h = true -> exists r, h = n ++ r).
    { induction n as [|x n IH]; intros h H; [now exists h|]. destruct h as [|y h]; [discriminate H|]. cbn in H. apply andb_prop in H. destruct H as [H1 H2]. apply Z.eqb_eq in H1. subst y.
      apply IH in H2. destruct H2 as (r & ->). now exists r. }
    intros n h. induction h as [|y h IH]; intro H; cbn [strstrb] in H; apply orb_prop in H; destruct H as [H|H].
    - apply P in H. destruct H as (r & H). exists [], r. exact H.
    - discriminate H.
    - apply P in H. destruct H as (r & H). exists [], r. exact H.
    - apply IH in H. destruct H as (pre & post & ->). now exists (y :: pre), post. }
  vgo (fun fin => (vf_code fin =? 0) && prints (q "'satellite': {'name': '" ++ [10] ++ q "', 'intl_desig': '" ++ bytes "1998-067A" ++ q "', 'norad_n': ") fin && negb (accepts (vf_out fin))).
  split; [now apply Z.eqb_eq|]. split; [|apply not_json; now apply negb_true_iff].
  match goal with K : prints _ _ = true |- _ => apply S in K; destruct K as (pre & post & Eq) end. exists pre, post. rewrite Eq, <- !app_assoc. reflexivity.
Qed.

(** A run that is seen and one that is not: JSON, and the conditions of the theorem hold. *)
Definition fin64 (l : list b64) : bool := forallb (fun x : b64 => is_finite x) l.
Lemma fin64_ok : forall l, fin64 l = true -> all_finite l.
Proof. intros l H. apply Forall_forall. intros x Hx. unfold fin64 in H. rewrite forallb_forall in H. now apply H. Qed.
Definition event_fin (x : list Z * geo * sun * sat) : bool :=
  let '(_, g, u, s) := x in
  fin64 [g_lat g; g_lon g; g_alt g; g_theta g] && fin64 [u_ra u; u_dec u; u_az u; u_alt u; u_lon u; u_parang u; u_sep u] &&
  fin64 [sa_mjd s; fmul (sa_ra s) RAD2DEG; fmul (sa_dec s) RAD2DEG; sa_az s; sa_alt s; sa_dkm s; sa_sep s; sa_speed s].
Lemma event_fin_ok : forall x, event_fin x = true -> event_finite x.
Proof.
  intros (((n & g) & u) & s) H. unfold event_fin in H. apply andb_prop in H. destruct H as (H & Hs). apply andb_prop in H. destruct H as (Hg & Hu). split; [|split]; apply fin64_ok; assumption.
Qed.
Lemma seen_json : exists fin, visibility (ex_venv 6 7) 100 long_line long_p = Ok fin /\ vf_code fin = 0 /\ length (events (vf_log fin)) = 4%nat /\ Forall event_finite (events (vf_log fin)) /\ json (vf_out fin).
Proof.
  vgo (fun fin => (vf_code fin =? 0) && (reported fin =? 4) && forallb event_fin (events (vf_log fin)) && accepts (vf_out fin)).
  split; [now apply Z.eqb_eq|]. split; [match goal with K : (reported _ =? 4) = true |- _ => apply Z.eqb_eq in K; unfold reported in K; lia end|]. split; [|now apply accepts_iff].
  apply Forall_forall. intros x Hx. apply event_fin_ok. match goal with K : forallb _ _ = true |- _ => rewrite forallb_forall in K; now apply K end.
Qed.
Lemma unseen_json : exists fin, visibility (ex_venv 100 200) 100 short_line short_p = Ok fin /\ vf_code fin = 0 /\ events (vf_log fin) = [] /\ json (vf_out fin).
Proof.
  vgo (fun fin => (vf_code fin =? 0) && (reported fin =? 0) && accepts (vf_out fin)).
  split; [now apply Z.eqb_eq|]. split; [|now apply accepts_iff]. match goal with K : (reported _ =? 0) = true |- _ => apply Z.eqb_eq in K; unfold reported in K end. destruct (events (vf_log fin)); [reflexivity|discriminate].
Qed.
Lemma long_conditions : Forall clean long_line /\ vhead_finite (n_lib (ex_venv 6 7)) long_p /\ v_delta_time long_p = 30 /\ vsun_finite (sun_of (n_lib (ex_venv 6 7)) (range_begin long_p)).
Proof.
  split; [|split; [|split]].
  - assert (K: forallb (forallb is_plain) long_line = true) by (vm_compute; reflexivity). rewrite forallb_forall in K. apply Forall_forall. intros x Hx. apply Forall_forall. intros c Hc. apply plain_iff. specialize (K x Hx). rewrite forallb_forall in K. now apply K.
  - unfold vhead_finite. match goal with |- let '(_, _) := ?x in _ => change x with (of_int 0, of_int 0, of_int 0) end. cbv iota beta. apply fin64_ok. vm_compute. reflexivity.
  - vm_compute. reflexivity.
  - apply fin64_ok. vm_compute. reflexivity.
Qed.

(** A missing file: JSON.  The name of the missing file is the second line of a list with CR LF line ends: not JSON. *)
Lemma absent_run : exists fin, visibility (venv_of (ex_lib (after_begin 6) (after_begin 7)) []) 100 long_line long_p = Ok fin /\ vf_code fin = 2 /\ json (vf_out fin).
Proof. vgo (fun fin => (vf_code fin =? 2) && accepts (vf_out fin)). split; [now apply Z.eqb_eq|]. now apply accepts_iff. Qed.
Definition list_line : list (list Z) := vargv ["@l.txt"; "-l44,11,23"; "-s"; "25544"; "-r5"; "-t30"; "-j60441,60441.002"]%string.
Definition list_p : vparams := param_of (vis_command_line dec_reader 10 list_line).
Definition crlf_env : venv := venv_of (ex_lib (after_begin 6) (after_begin 7)) [("./l.txt"%string, bytes "s.txt" ++ [13; 10]); ("./s.txt"%string, ex_file)].
Lemma crlf_run : exists fin, visibility crlf_env 100 list_line list_p = Ok fin /\ vf_code fin = 2 /\ ~ json (vf_out fin).
Proof. vgo (fun fin => (vf_code fin =? 2) && negb (accepts (vf_out fin))). split; [now apply Z.eqb_eq|]. apply not_json. now apply negb_true_iff. Qed.
Lemma list_ok : vis_command_line dec_reader 10 list_line = Ok (Done list_p).
Proof. apply parsed_ok. vm_compute. reflexivity. Qed.

Lemma vis_no_args : forall r fuel, exists out, vis_command_line r fuel [bytes "sat_visibility"] = Ok (Exit 0 out) /\ ~ json out.
Proof.
  intros r fuel. change (vis_command_line r fuel [bytes "sat_visibility"]) with (vis_command_line dec_reader 0 [bytes "sat_visibility"]).
  assert (K: match vis_command_line dec_reader 0 [bytes "sat_visibility"] with Ok (Exit c o) => (c =? 0) && negb (accepts o) | _ => false end = true) by (vm_compute; reflexivity).
  destruct (vis_command_line dec_reader 0 [bytes "sat_visibility"]) as [[p|c o]|]; try discriminate K. apply andb_prop in K. destruct K as (K1 & K2). apply Z.eqb_eq in K1. subst c. exists o. split; [reflexivity|]. apply not_json. now apply negb_true_iff.
Qed.
Lemma vis_unknown : exists out, vis_command_line dec_reader 10 (vargv ["s.txt"; "-x1"]%string) = Ok (Exit (-2) out) /\ json out.
Proof.
  assert (K: match vis_command_line dec_reader 10 (vargv ["s.txt"; "-x1"]%string) with Ok (Exit c o) => (c =? -2) && accepts o | _ => false end = true) by (vm_compute; reflexivity).
  destruct (vis_command_line dec_reader 10 _) as [[p|c o]|]; try discriminate K. apply andb_prop in K. destruct K as (K1 & K2). apply Z.eqb_eq in K1. subst c. exists o. split; [reflexivity|]. now apply accepts_iff.
Qed.

(** The list after the options. *)
Definition late_line : list (list Z) := vargv ["-l44,11,23"; "-s25544"; "-r5"; "-t30"; "-j60441,60441.002"; "@l.txt"]%string.
Definition late_p : vparams := param_of (vis_command_line dec_reader 10 late_line).
Definition late_env : venv := venv_of (ex_lib (after_begin 6) (after_begin 7)) [("./l.txt"%string, bytes "s.txt" ++ [10]); ("./s.txt"%string, ex_file)].
Lemma late_ok : vis_command_line dec_reader 10 late_line = Ok (Done late_p).
Proof. apply parsed_ok. vm_compute. reflexivity. Qed.
Lemma strstr_in : forall n pre post, strstrb (pre ++ n ++ post) n = true.
Proof.
  assert (P: forall n r, prefixb n (n ++ r) = true) by (induction n as [|x n IH]; intro r; cbn; [reflexivity|]; rewrite Z.eqb_refl; apply IH).
  intros n pre post. induction pre as [|c pre IH]; cbn [app].
  - specialize (P n post). destruct (n ++ post) eqn:E; cbn [strstrb]; rewrite P; reflexivity.
  - cbn [strstrb]. rewrite IH. apply orb_true_r.
Qed.
Lemma late_run : exists fin, visibility late_env 100 late_line late_p = Ok fin /\ vf_code fin = 0 /\ (~ exists pre post, vf_out fin = pre ++ vis_command late_line ++ post) /\
  prints (bytes "sat_visibility @-l44,11,23 -s25544 -r5 -t30 -j60441,60441.002 l.txt") fin = true.
Proof.
  vgo (fun fin => (vf_code fin =? 0) && negb (strstrb (vf_out fin) (vis_command late_line)) && prints (bytes "sat_visibility @-l44,11,23 -s25544 -r5 -t30 -j60441,60441.002 l.txt") fin).
  split; [now apply Z.eqb_eq|]. split; [|assumption]. intros (pre & post & K). match goal with N : negb _ = true |- _ => rewrite K, strstr_in in N; discriminate N end.
Qed.
Lemma bnd_by : forall x : b64, is_finite x && fle x (of_int (2 ^ 29)) && fle (of_int (- 2 ^ 29)) x = true -> bnd 29 x.
Proof.
  intros x H. apply andb_prop in H. destruct H as (H & B). apply andb_prop in H. destruct H as (F & A). split; [exact F|].
  destruct (of_int_R (2 ^ 29) ltac:(lia)) as (Fa & Va). destruct (of_int_R (- 2 ^ 29) ltac:(lia)) as (Fb & Vb).
  apply fle_R in A; [|assumption..]. apply fle_R in B; [|assumption..]. rewrite Va in A. rewrite Vb in B. unfold toR in *. apply Rabs_le. change (bpow radix2 29) with (IZR (2 ^ 29)). split; [|exact A].
  rewrite <- opp_IZR. exact B.
Qed.
Lemma long_range : bnd 29 (range_begin long_p) /\ bnd 29 (range_end long_p).
Proof. split; apply bnd_by; vm_compute; reflexivity. Qed.
Lemma crlf_there : n_fs crlf_env (bytes "./s.txt") <> None.
Proof. discriminate. Qed.
