(** Concrete command lines. *)
From Coq Require Import String Ascii ZArith List Bool Lia.
From Flocq Require Import IEEE754.BinarySingleNaN.
From Verif Require Import CLib FloatModel CalendarModel IoModel JsonSpec JsonAcceptor JsonProofs SkymapModel CliModel CliSpec CliProofs1 CliProofs2.
Import ListNotations.
Open Scope Z_scope.

(** A reader for plain decimal numbers with an optional exponent, as strtod reads them. *)
Fixpoint digits_of (acc k : Z) (t : list Z) : Z * Z * list Z :=
  match t with c :: t' => if is_digit c then digits_of (acc * 10 + (c - 48)) (k + 1) t' else (acc, k, t) | [] => (acc, k, []) end.
Definition dec_scan (t : list Z) : option (b64 * list Z) :=
  let '(neg, t) := match t with c :: t' => if c =? 45 then (true, t') else (false, t) | [] => (false, t) end in
  let '(n, k, t) := digits_of 0 0 t in
  if k =? 0 then None
  else
    let '(n, f, t) := match t with c :: t' => if c =? 46 then digits_of n 0 t' else (n, 0, t) | [] => (n, 0, t) end in
    let '(e, _, t) := match t with c :: t' => if c =? 101 then digits_of 0 0 t' else (0, 0, t) | [] => (0, 0, t) end in
    let v := if neg then - n else n in
    Some (if f =? 0 then of_int (v * 10 ^ e) else lit v (10 ^ f), t).
Definition dec_reader : reader := mk_reader dec_scan (fun t => match dec_scan t with Some (x, _) => x | None => of_int 0 end).

Definition argv_of (l : list string) : list (list Z) := bytes "sat_skymap" :: map bytes l.

(** A command line with most options. *)
Definition ex_pieces : list piece :=
  [File (bytes "stations.txt"); Switch SwH; Joined (bytes "44.52804,-11.5,23.5") (Location (lit 4452804 100000) (lit (-115) 10) (lit 235 10));
   Joined (bytes "58959.53") (Mjd (lit 5895953 100) (bytes "2020-04-20T12:43:12")); Apart (bytes "600,400") (Altitudes (of_int 600) (of_int 400));
   Apart (bytes "90.5,-30.3") (Region (lit 905 10) (lit (-303) 10)); Joined (bytes "5") (MaxSats 5); Apart (bytes "25544") (Number 25544)].
Lemma ex_written : bytes "sat_skymap" :: all_written ex_pieces =
  argv_of ["stations.txt"; "-H"; "-l44.52804,-11.5,23.5"; "-j58959.53"; "-a"; "600,400"; "-p"; "90.5,-30.3"; "-n5"; "-s"; "25544"]%string.
Proof. vm_compute. reflexivity. Qed.
Ltac nonul := unfold no_nul; apply Forall_forall; let x := fresh in let H := fresh in intros x H; vm_compute in H; intuition lia.
Ltac rest_of t := let n := eval vm_compute in (match dec_scan t with Some (_, t') => t' | None => [] end) in n.
Ltac nums := lazymatch goal with
  | |- numbers ?r ?t [?x] => let t' := rest_of t in apply (one_number r t x t'); [reflexivity|vm_compute; discriminate]
  | |- numbers ?r ?t (?x :: ?l) => let t' := rest_of t in let t'' := eval cbv [tl] in (tl t') in apply (more_numbers r t x t'' l); [reflexivity|nums]
  end.
(** What the parameters satisfy, computed. *)
Definition ends_with (c : res (parsed params)) (f : params -> bool) : bool := match c with Ok (Done p) => f p | _ => false end.
Lemma ends_with_ex : forall c f, ends_with c f = true -> exists p, c = Ok (Done p) /\ f p = true.
Proof. intros c f H. unfold ends_with in H. destruct c as [[p|]|]; try discriminate. exists p. split; [reflexivity|exact H]. Qed.
Definition exits_with (c : res (parsed params)) (code : Z) (f : list Z -> bool) : bool := match c with Ok (Exit k o) => (k =? code) && f o | _ => false end.
Lemma exits_with_ex : forall c code f, exits_with c code f = true -> exists o, c = Ok (Exit code o) /\ f o = true.
Proof.
  intros c code f H. unfold exits_with in H. destruct c as [[|k o]|]; try discriminate. apply andb_prop in H. destruct H as (H1 & H2).
  apply Z.eqb_eq in H1. subst k. exists o. now split.
Qed.
Definition same (a b : list Z) : bool := if list_eq_dec Z.eq_dec a b then true else false.
Lemma same_eq : forall a b, same a b = true -> a = b.
Proof. intros a b. unfold same. destruct (list_eq_dec Z.eq_dec a b); [auto|discriminate]. Qed.
Ltac decim := split; [discriminate|]; split; [apply Forall_forall; let x := fresh in let H := fresh in intros x H; vm_compute in H; intuition lia|split; [vm_compute; reflexivity|reflexivity]].
Lemma ex_proper : Forall (proper dec_reader) ex_pieces.
Proof.
  unfold ex_pieces. apply Forall_cons; [split; [nonul|vm_compute; discriminate]|]. apply Forall_cons; [exact I|].
  apply Forall_cons; [split; [nonul|]; split; [discriminate|]; split; [nums|split; vm_compute; reflexivity]|].
  apply Forall_cons; [split; [nonul|]; split; [discriminate|]; split; [reflexivity|vm_compute; reflexivity]|].
  apply Forall_cons; [split; [nonul|]; hnf; nums|].
  apply Forall_cons; [split; [nonul|]; split; [nums|repeat split; vm_compute; reflexivity]|].
  apply Forall_cons; [split; [nonul|]; split; [discriminate|]; decim|].
  apply Forall_cons; [split; [nonul|]; decim|constructor].
Qed.
Lemma ex_values : exists p, command_line dec_reader 20 (bytes "sat_skymap" :: all_written ex_pieces) = Ok (Done p) /\
  feq (p_lon p) (lit 3485 10) = true /\ feq (p_alt_min p) (of_int 400) = true /\ feq (p_alt_max p) (of_int 600) = true /\ p_norad_n p = 25544 /\
  p_altrng p = false /\ p_in_region p = false /\ p_max_sats p = 5 /\ p_date p = bytes "2020-04-20T12:43:12" /\ feq (p_radius p) (of_int 20) = true.
Proof.
  destruct (ends_with_ex (command_line dec_reader 20 (bytes "sat_skymap" :: all_written ex_pieces)) (fun p =>
    feq (p_lon p) (lit 3485 10) && feq (p_alt_min p) (of_int 400) && feq (p_alt_max p) (of_int 600) && (p_norad_n p =? 25544) &&
    negb (p_altrng p) && negb (p_in_region p) && (p_max_sats p =? 5) && same (p_date p) (bytes "2020-04-20T12:43:12") && feq (p_radius p) (of_int 20))) as (p & E & H).
  { vm_compute. reflexivity. }
  exists p. split; [exact E|]. repeat (apply andb_prop in H; destruct H as (H & ?)). repeat split; try assumption;
    try (now apply Z.eqb_eq); try (now apply negb_true_iff); now apply same_eq.
Qed.

(** ** Command lines that do not end *)
Definition gh_argv := argv_of ["s.txt"; "-GH"]%string.
Lemma gh_forever : forall r fuel, command_line r fuel gh_argv = UB Stuck.
Proof.
  intros r fuel. refine (never_ends r (bytes "sat_skymap") [File (bytes "s.txt")] (bytes "-GH") [] _ _ _ fuel).
  - constructor; [|constructor]. split; [nonul|vm_compute; discriminate].
  - nonul.
  - exists SwG, 72, []. split; [lia|reflexivity].
Qed.

(** ** Command lines that leave the program's memory, whatever the reader *)
Definition dash_argv := argv_of ["s.txt"; "-"]%string.
Definition last_argv := argv_of ["s.txt"; "-l44,11,23"; "-r"]%string.
Definition desig_argv := argv_of ["s.txt"; "-i"; "1998-067ABCDE"]%string.
Definition name_argv := argv_of ["s.txt"; "-S"; "A SATELLITE WITH A LONG NAME"]%string.
Definition date_argv := argv_of ["s.txt"; "-d2020-01-13T12:00:00.000001"]%string.
Definition max_argv := argv_of ["s.txt"; "-n"; "5000000000"]%string.
Lemma fuel3 : forall (P : nat -> Prop), (forall f, P (S (S (S f)))) -> forall fuel, (3 <= fuel)%nat -> P fuel.
Proof. intros P H fuel L. destruct fuel as [|[|[|f]]]; try lia. apply H. Qed.
Lemma dash_bad : forall r fuel, (3 <= fuel)%nat -> command_line r fuel dash_argv = UB OutOfBounds.
Proof. intros r. apply fuel3. intros f. reflexivity. Qed.
Lemma desig_bad : forall r fuel, (3 <= fuel)%nat -> command_line r fuel desig_argv = UB OutOfBounds.
Proof. intros r. apply fuel3. intros f. reflexivity. Qed.
Lemma name_bad : forall r fuel, (3 <= fuel)%nat -> command_line r fuel name_argv = UB OutOfBounds.
Proof. intros r. apply fuel3. intros f. reflexivity. Qed.
Lemma date_bad : forall r fuel, (3 <= fuel)%nat -> command_line r fuel date_argv = UB OutOfBounds.
Proof. intros r. apply fuel3. intros f. reflexivity. Qed.
Lemma max_bad : forall r fuel, (3 <= fuel)%nat -> command_line r fuel max_argv = UB Overflow.
Proof. intros r. apply fuel3. intros f. reflexivity. Qed.
Lemma last_bad : command_line dec_reader 5 last_argv = UB NullDeref.
Proof. vm_compute. reflexivity. Qed.
Lemma lat_bad : command_line dec_reader 5 (argv_of ["s.txt"; "-l1e70,11,23"]%string) = UB OutOfBounds.
Proof. vm_compute. reflexivity. Qed.
Lemma mjd_bad : command_line dec_reader 5 (argv_of ["s.txt"; "-j2000000000"]%string) = UB NullDeref.
Proof. vm_compute. reflexivity. Qed.
Lemma step_bad : command_line dec_reader 5 (argv_of ["s.txt"; "-t1e10"]%string) = UB Overflow.
Proof. vm_compute. reflexivity. Qed.

(** A tame vector: wrong options, but no harm. *)
Definition tame_args := map bytes ["s.txt"; "-l95,11,23"; "-x"; "foo"]%string.
Definition fixed_reader : reader := mk_reader (fun _ => Some (of_int 95, [])) (fun _ => of_int 95).
Lemma tame_ex : tame fixed_reader tame_args.
Proof.
  assert (M : modest (of_int 95)) by (vm_compute; discriminate).
  constructor.
  - repeat (apply Forall_cons; [nonul|]). constructor.
  - repeat (apply Forall_cons; [vm_compute; reflexivity|]). constructor.
  - intros H. vm_compute in H. intuition congruence.
  - intros c v H Hv. vm_compute in H. destruct H as [H|[H|[H|[H|[]]]]]; try congruence; injection H as <- <-.
    repeat split; intros K; try lia. intros t x t0 E. change (Some (of_int 95, @nil Z) = Some (x, t0)) in E. assert (Ex : x = of_int 95) by congruence. rewrite Ex. exact M.
  - intros pre c v post H. assert (c = 120) as ->.
    { destruct pre as [|a [|b [|d [|e pre]]]]; vm_compute in H; inversion H; try reflexivity. exfalso. now destruct pre. }
    repeat split; intros K; try lia.
  - intros pre c H. exfalso. destruct pre as [|a [|b [|d [|e pre]]]]; vm_compute in H; inversion H. now destruct pre.
Qed.

(** ** Meaning of repeated and conflicting options *)
(** The usage text says that -j is ignored when a calendar date is given. *)
Definition dj_pieces : list piece :=
  [File (bytes "s.txt"); Joined (bytes "44,11,23") (Location (of_int 44) (of_int 11) (of_int 23)); Joined (bytes "2020-04-20T12:43:12") (Date (bytes "2020-04-20T12:43:12"));
   Joined (bytes "59000") (Mjd (of_int 59000) (bytes "2020-05-31T00:00:00"))].
Lemma dj_proper : Forall (proper dec_reader) dj_pieces.
Proof.
  unfold dj_pieces. apply Forall_cons; [split; [nonul|vm_compute; discriminate]|].
  apply Forall_cons; [split; [nonul|]; split; [discriminate|]; split; [nums|split; vm_compute; reflexivity]|].
  apply Forall_cons; [split; [nonul|]; split; [discriminate|]; split; [reflexivity|vm_compute; reflexivity]|].
  apply Forall_cons; [split; [nonul|]; split; [discriminate|]; split; [reflexivity|vm_compute; reflexivity]|constructor].
Qed.
Lemma dj_run : exists p, command_line dec_reader 10 (bytes "sat_skymap" :: all_written dj_pieces) = Ok (Done p) /\
  feq (p_mjd p) (of_int 59000) = true /\ feq (p_mjd p) (snd (date2mjd_nf (bytes "2020-04-20T12:43:12"))) = false.
Proof.
  destruct (ends_with_ex (command_line dec_reader 10 (bytes "sat_skymap" :: all_written dj_pieces)) (fun p =>
    feq (p_mjd p) (of_int 59000) && negb (feq (p_mjd p) (snd (date2mjd_nf (bytes "2020-04-20T12:43:12")))))) as (p & E & H).
  { vm_compute. reflexivity. }
  exists p. split; [exact E|]. apply andb_prop in H. destruct H as (H1 & H2). split; [exact H1|now apply negb_true_iff].
Qed.
(** It also says that -D makes -T ignored. *)
Definition dt_argv := argv_of ["s.txt"; "-l44,11,23"; "-D"; "/data"; "-T"]%string.
Lemma dt_run : exists p, command_line dec_reader 10 dt_argv = Ok (Done p) /\ p_deftledir p = true /\ p_tle_path p = bytes "/data".
Proof.
  destruct (ends_with_ex (command_line dec_reader 10 dt_argv) (fun p => p_deftledir p && same (p_tle_path p) (bytes "/data"))) as (p & E & H).
  { vm_compute. reflexivity. }
  exists p. split; [exact E|]. apply andb_prop in H. destruct H as (H1 & H2). split; [exact H1|now apply same_eq].
Qed.
(** Longitudes outside [-360, 360[ stay outside [0, 360[. *)
Definition lon_argv := argv_of ["s.txt"; "-l44,-400,23"]%string.
Lemma lon_run : exists p, command_line dec_reader 10 lon_argv = Ok (Done p) /\ feq (p_lon p) (of_int (-40)) = true.
Proof. apply (ends_with_ex (command_line dec_reader 10 lon_argv) (fun p => feq (p_lon p) (of_int (-40)))). vm_compute. reflexivity. Qed.
(** The message about an unknown option names the argument after it. *)
Definition unknown_argv := argv_of ["s.txt"; "-x"; "foo"]%string.
Lemma wrong_name : exists out pre post, command_line dec_reader 10 unknown_argv = Ok (Exit (-2) out) /\
  out = pre ++ q "'errmsg': '" ++ bytes "Unrecognized command-line option 'foo'" ++ post.
Proof.
  destruct (exits_with_ex (command_line dec_reader 10 unknown_argv) (-2) (fun o => same o ((open_json ++ q " 'run_command': 'sat_skymap s.txt -x foo', 'status': -2, ") ++
    q "'errmsg': '" ++ bytes "Unrecognized command-line option 'foo'" ++ q "', 'n_sats_found': 0, 'n_sats': 0, 'n_sunlit_sats': 0}" ++ [10]))) as (o & E & H).
  { vm_compute. reflexivity. }
  exists o, (open_json ++ q " 'run_command': 'sat_skymap s.txt -x foo', 'status': -2, "), (q "', 'n_sats_found': 0, 'n_sats': 0, 'n_sunlit_sats': 0}" ++ [10]).
  split; [exact E|]. now apply same_eq.
Qed.
(** Without arguments the message contains a line feed inside a string. *)
Lemma no_args_not_json : forall r fuel, exists out, command_line r fuel [bytes "sat_skymap"] = Ok (Exit 0 out) /\ ~ json out.
Proof.
  intros r fuel. change (command_line r fuel [bytes "sat_skymap"]) with (command_line dec_reader 0 [bytes "sat_skymap"]).
  destruct (exits_with_ex (command_line dec_reader 0 [bytes "sat_skymap"]) 0 (fun o => negb (accepts o))) as (o & E & H).
  { vm_compute. reflexivity. }
  exists o. split; [exact E|]. intros J. apply accepts_iff in J. rewrite J in H. discriminate.
Qed.
