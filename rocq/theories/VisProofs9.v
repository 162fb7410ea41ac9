(** The whole program. *)
From Coq Require Import String Ascii ZArith List Bool Lia Reals Lra.
From Flocq Require Import Core IEEE754.BinarySingleNaN.
From Verif Require Import CLib ListLemmas FloatModel FloatLemmas CalendarModel CalendarProofs2 TleModel IoModel SkymapModel SkymapSpec SkymapProofs6 SkymapProofs8 CliModel CliSpec CliProofs1 CliProofs2 VisCliModel VisCliSpec VisModel VisSpec VisProofs1 VisProofs2 VisProofs3 VisProofs4 VisProofs5 VisProofs6 VisProofs7 VisProofs8.
Import ListNotations.
Open Scope Z_scope.

Lemma begins_of : forall e fuel p t0, first_sample e fuel p t0 -> begins (n_lib e) p t0.
Proof.
  intros e fuel p t0 H. unfold first_sample in H. unfold begins. destruct (v_skip p); [|exact H]. revert H. generalize (range_begin p). induction fuel as [|n IH]; intros t H; cbn [daytime] in H.
  - destruct (_ || _) eqn:B; [|discriminate]. apply orb_prop in B. assert (t = t0) as -> by congruence. exists O. split; [reflexivity|]. split; [exact B|]. intros i Hi. lia.
  - destruct (_ || _) eqn:B.
    + apply orb_prop in B. assert (t = t0) as -> by congruence. exists O. split; [reflexivity|]. split; [exact B|]. intros i Hi. lia.
    + fold night_step in H. apply orb_false_elim in B. destruct (IH _ H) as (k & E & St & P). rewrite ticks_shift in E. exists (S k). split; [exact E|]. split; [exact St|]. intros [|i] Hi; [exact B|]. rewrite <- ticks_shift. apply P. lia.
Qed.

Lemma quit_code : forall argv il c st m n o r, vis_quit argv il c st m n o = Ok r -> fst r = c.
Proof. intros argv il c st m n o r H. unfold vis_quit in H. step H. step H. assert (r = (c, o ++ a0)) by congruence. subst r. reflexivity. Qed.
Lemma file_quit : forall p fs argv il path s code out, scan_file p fs argv il path s = Ok (Quit code out) -> code <> 0.
Proof.
  intros p fs argv il path s code out H. unfold scan_file in H. destruct (fs path) as [contents|].
  - destruct (fgets_seq 99 contents) as [|c0 rest].
    + unfold find_quit in H. step H. apply quit_code in E. assert (fst a = code) by congruence. subst. lia.
    + step H. step H. exfalso. revert H. generalize (mk_f a (f_line2 s) a0 (f_desig s) (f_tle s) true). induction rest as [|c rest IH]; intros s0 H; cbn [scan_lines] in H; [discriminate|].
      step H. step H. destruct a2 as (cd & t). step H. destruct a2 as (b & d). destruct b; [discriminate|]. step H. step H. step H. step H. exact (IH _ H).
  - unfold find_quit in H. step H. apply quit_code in E. assert (fst a = code) by congruence. subst. lia.
Qed.
Lemma rows_quit : forall p fs argv lines path0 s code out path, scan_rows p fs argv lines path0 s = Ok (Quit code out, path) -> code <> 0.
Proof.
  intros p fs argv lines. induction lines as [|row r IH]; intros path0 s code out path H; cbn [scan_rows] in H; [discriminate|].
  step H. destruct a as [name|]; [|exact (IH _ _ _ _ _ H)]. step H. step H. destruct a0 as [s'|s'|c o].
  - discriminate.
  - exact (IH _ _ _ _ _ H).
  - assert (c = code /\ o = out) as (-> & ->) by (split; congruence). exact (file_quit _ _ _ _ _ _ _ _ E1).
Qed.

Lemma whole : forall e fuel argv p fin, visibility e fuel argv p = Ok fin ->
  (vf_code fin <> 0 /\ vf_log fin = []) \/ exists argv' il file f, vis_found e fuel argv' il p file f = Ok fin.
Proof.
  intros e fuel argv p fin H. unfold visibility in H. cbv zeta in H. destruct (nth_error argv (file_arg argv)) as [ar|]; [|discriminate].
  set (il := match ar with 64 :: _ => true | _ => false end) in *. set (file := if il then tl ar else ar) in *. set (argv' := if il then _ else argv) in *. clearbody il file argv'.
  step H.
  assert (Q: forall code st msg, code <> 0 -> (r <- vis_quit argv' il code st msg 0 vis_open_json ;; Ok (mk_vfinal (fst r) (snd r) [])) = Ok fin -> vf_code fin <> 0 /\ vf_log fin = []).
  { intros code st msg N K. step K. apply quit_code in E0. assert (fin = mk_vfinal (fst a0) (snd a0) []) by congruence. subst fin. cbn [vf_code vf_log]. rewrite E0. split; [exact N|reflexivity]. }
  assert (G: forall fp : res (find * list Z), (forall path code out, fp = Ok (Quit code out, path) -> code <> 0) ->
    (fp <- fp ;; (let '(f, path) := fp in match f with Quit code out => Ok (mk_vfinal code out [])
      | Missing s => if f_open s then r <- vis_quit argv' il 1 1 (bytes "Satellite not found in " ++ path) 0 vis_open_json ;; Ok (mk_vfinal (fst r) (snd r) []) else UB NullDeref
      | Found s => vis_found e fuel argv' il p file s end)) = Ok fin ->
    (vf_code fin <> 0 /\ vf_log fin = []) \/ exists argv' il file f, vis_found e fuel argv' il p file f = Ok fin).
  { intros fp N K. step K. destruct a0 as (f & path). destruct f as [s|s|code out].
    - right. exists argv', il, file, s. exact K.
    - destruct (f_open s); [|discriminate]. left. apply Q in K; [exact K|lia].
    - left. specialize (N path code out E0). assert (fin = mk_vfinal code out []) by congruence. subst fin. split; [exact N|reflexivity]. }
  destruct a as [(path & [contents|])|].
  - destruct (negb _ && _); [left; apply Q in H; [exact H|lia]|]. apply G in H; [exact H|]. intros path' code out K. exact (rows_quit _ _ _ _ _ _ _ _ _ K).
  - left. apply Q in H; [exact H|lia].
  - destruct (negb _ && _); [left; apply Q in H; [exact H|lia]|]. apply G in H; [exact H|]. intros path' code out K. step K. step K. assert (a0 = Quit code out) as -> by congruence. exact (file_quit _ _ _ _ _ _ _ _ E1).
Qed.

(** ** Nothing but the loops can use up the fuel *)
Lemma ns_assert : forall A, not_stuck (UB AssertFail : res A). Proof. intros. unfold not_stuck. congruence. Qed.
Lemma ns_parse : forall l1 l2 t, not_stuck (parse_elements l1 l2 t).
Proof.
  assert (A0: forall p r, not_stuck (get_angle_acc r p)). { induction p as [|c p IH]; intro r; cbn [get_angle_acc]; [apply ns_oob|]. ns; auto using ns_rd, ns_strtol, ns_oob, ns_assert. }
  assert (A1: forall p, not_stuck (get_angle p)). { induction p as [|c p IH]; cbn [get_angle]; [apply ns_oob|]. ns; auto using ns_rd, ns_strtol, ns_oob, ns_assert. }
  assert (A2: forall p, not_stuck (sci p)). { intro p. unfold sci, sci_loop, c_atoi. ns; auto using ns_rd, ns_strtol, ns_oob, ns_assert. }
  assert (A3: forall n r p, not_stuck (high_loop n r p)). { induction n as [|n IH]; intros r p; cbn [high_loop]; ns; auto using ns_rd, ns_strtol, ns_oob, ns_assert. }
  assert (A4: forall p, not_stuck (get_high_value p)). { intro p. unfold get_high_value. ns; auto using ns_rd, ns_strtol, ns_oob, ns_assert. }
  assert (A5: forall p, not_stuck (get_eight_places p)). { intro p. unfold get_eight_places, c_atoi. ns; auto using ns_rd, ns_strtol, ns_oob, ns_assert. }
  assert (A6: forall n r p, not_stuck (checksum_loop n r p)). { induction n as [|n IH]; intros r p; cbn [checksum_loop]; ns; auto using ns_rd, ns_strtol, ns_oob, ns_assert. }
  assert (A7: forall p, not_stuck (get_norad_number p)). { intro p. unfold get_norad_number, c_atoi. ns; auto using ns_rd, ns_strtol, ns_oob, ns_assert. }
  intros l1 l2 t. unfold parse_elements, parse_common, parse_high, parse_mean, tle_checksum, c_atoi. ns; auto using ns_rd, ns_strtol, ns_oob, ns_assert.
  all: unfold c_take; ns; auto using ns_rd, ns_oob.
Qed.
Lemma ns_store : forall b t, not_stuck (c_store b t).
Proof. intros. unfold c_store. ns; auto using ns_oob. Qed.
Lemma ns_take_name : forall l n, not_stuck (take_name l n).
Proof. intros. unfold take_name, c_strncpy, strncpy_bytes, trimend. ns; auto using ns_rd, ns_text, ns_oob, ns_store. Qed.
Lemma ns_requested : forall p t l d, not_stuck (requested p t l d).
Proof. intros. unfold requested, c_memeq, strncpy_bytes. ns; auto using ns_rd, ns_text, ns_oob, ns_strtol, ns_desig. all: unfold c_take; ns; auto using ns_oob. Qed.
Lemma ns_lines : forall p chunks s, not_stuck (scan_lines p chunks s).
Proof.
  intros p chunks. induction chunks as [|c r IH]; intro s; cbn [scan_lines]; [apply ns_ok|]. apply ns_bind; [apply ns_store|]. intro l2. apply ns_bind; [apply ns_parse|]. intros (code, t).
  apply ns_bind; [destruct (code =? 0); [apply ns_requested|apply ns_ok]|]. intros (b, d). destruct b; [apply ns_ok|]. apply ns_bind; [apply ns_text|]. intro t2. apply ns_bind; [apply ns_store|]. intro l1.
  apply ns_bind; [apply ns_rd|]. intro c0. apply ns_bind; [destruct (_ && _); [apply ns_take_name|apply ns_ok]|]. intro n. apply IH.
Qed.
Lemma ns_find_quit : forall argv il c st m, not_stuck (find_quit argv il c st m).
Proof. intros. unfold find_quit. apply ns_bind; [apply ns_quit|intros; apply ns_ok]. Qed.
Lemma ns_file : forall p fs argv il path s, not_stuck (scan_file p fs argv il path s).
Proof.
  intros. unfold scan_file. destruct (fs path) as [c|]; [|apply ns_find_quit]. destruct (fgets_seq 99 c) as [|f r]; [apply ns_find_quit|].
  apply ns_bind; [apply ns_store|]. intro. apply ns_bind; [apply ns_take_name|]. intro. apply ns_lines.
Qed.
Lemma ns_row : forall r, not_stuck (row_name r).
Proof. intro r. unfold row_name. ns; auto using ns_store, ns_rd, ns_text, ns_oob. Qed.
Lemma ns_rows : forall p fs argv lines path s, not_stuck (scan_rows p fs argv lines path s).
Proof.
  intros p fs argv lines. induction lines as [|c r IH]; intros path s; cbn [scan_rows]; [apply ns_ok|]. apply ns_bind; [apply ns_row|]. intros [n|]; [|apply IH].
  apply ns_bind; [apply ns_sprintf|]. intro pa. apply ns_bind; [apply ns_file|]. intros [s'|s'|? ?]; [apply ns_ok|apply IH|apply ns_ok].
Qed.
Lemma ns_visibility : forall e fuel argv p, (forall argv' il file f, not_stuck (vis_found e fuel argv' il p file f)) -> not_stuck (visibility e fuel argv p).
Proof.
  intros e fuel argv p H. unfold visibility. cbv zeta. destruct (nth_error argv (file_arg argv)) as [ar|]; [|apply ns_null].
  assert (Q: forall a b c d m, not_stuck (r <- vis_quit a b c d m 0 vis_open_json ;; Ok (mk_vfinal (fst r) (snd r) []))). { intros. apply ns_bind; [apply ns_quit|intros; apply ns_ok]. }
  apply ns_bind. { ns. } intros rows.
  assert (G: forall (fp : res (find * list Z)) a b file, not_stuck fp -> not_stuck (fp <- fp ;; (let '(f, path) := fp in match f with Quit code out => Ok (mk_vfinal code out [])
      | Missing s => if f_open s then r <- vis_quit a b 1 1 (bytes "Satellite not found in " ++ path) 0 vis_open_json ;; Ok (mk_vfinal (fst r) (snd r) []) else UB NullDeref
      | Found s => vis_found e fuel a b p file s end))).
  { intros fp a b file N. apply ns_bind; [exact N|]. intros (f, path). destruct f as [s|s|c o]; [apply H|destruct (f_open s); [apply Q|apply ns_null]|apply ns_ok]. }
  destruct rows as [(path, [c|])|]; [| apply Q |]; (destruct (negb _ && _); [apply Q|]); apply G; [apply ns_rows|]. apply ns_bind; [apply ns_sprintf|]. intro. apply ns_bind; [apply ns_file|intro; apply ns_ok].
Qed.

(** ** Termination *)
Lemma line_more : forall r f argv s, vis_command_line r f argv = Ok s -> forall g, (f <= g)%nat -> vis_command_line r g argv = Ok s.
Proof.
  intros r f argv s H g Hg. unfold vis_command_line in *. destruct (length argv <? 2)%nat; [exact H|]. step H. now rewrite (more_fuel _ _ f _ _ _ _ E g Hg).
Qed.
Open Scope R_scope.
Theorem terminates : forall r f argv p, vis_command_line r f argv = Ok (Done p) -> (1 <= v_delta_time p)%Z ->
  forall e fuel, (f <= fuel)%nat -> toR (range_end p) - toR (range_begin p) < (pace p - bpow radix2 (-23)) * INR fuel -> sat_visibility r e fuel argv <> UB Stuck.
Proof.
  intros r f argv p H Hd e fuel Hf Hm. destruct (accepted _ _ _ _ H) as ([O1 O2 O3] & _). change (not_stuck (sat_visibility r e fuel argv)). unfold sat_visibility. rewrite (line_more _ _ _ _ H _ Hf). cbn [bind].
  apply ns_visibility. intros argv' il file s. apply (found_ends 30); [lia|lia|exact (proj1 O1)|exact (proj1 O2)|exact (proj2 O1)|exact (proj2 O2)|exact Hm].
Qed.
Theorem eventually : forall r f argv p, vis_command_line r f argv = Ok (Done p) -> (1 <= v_delta_time p)%Z -> forall e, exists fuel, sat_visibility r e fuel argv <> UB Stuck.
Proof.
  intros r f argv p H Hd e. destruct (accepted _ _ _ _ H) as ([O1 O2 O3] & _). destruct (step_pos p ltac:(lia)) as (_ & _ & Bs).
  assert (P: / 200000 <= pace p - bpow radix2 (-23)).
  { rewrite bpow_neg. change (2 ^ 23)%Z with 8388608%Z. unfold pace. change (B2R (vstep p)) with (toR (vstep p)). destruct (v_skip p); [|lra]. unfold Rmin. destruct (Rle_dec _ _); lra. }
  destruct (archimed ((toR (range_end p) - toR (range_begin p)) * 200000)) as (A & _). set (z := up _) in A.
  exists (f + Z.to_nat z)%nat. apply (terminates r f argv p H Hd); [lia|].
  assert (Z: IZR z <= INR (f + Z.to_nat z)). { rewrite INR_IZR_INZ. apply IZR_le. lia. }
  pose proof (pos_INR (f + Z.to_nat z)) as Pn. apply (Rlt_le_trans _ (/ 200000 * INR (f + Z.to_nat z))); [lra|]. apply Rmult_le_compat_r; assumption.
Qed.

(** The number of samples. *)
Theorem how_many : forall e fuel argv p fin E, visibility e fuel argv p = Ok fin -> (15 <= E <= 30)%Z -> (1 <= v_delta_time p <= 2147483647)%Z -> bnd E (range_begin p) -> bnd E (range_end p) ->
  (samples (vf_log fin) <> [] -> (INR (length (samples (vf_log fin))) - 1) * (toR (vstep p) - bpow radix2 (E - 53)) <= toR (range_end p) - toR (range_begin p)).
Proof.
  intros e fuel argv p fin E H HE Hd B0 B1 Ne. apply whole in H. destruct H as [(_ & H)|(argv' & il & file & f & H)]; [rewrite H in Ne; cbn in Ne; congruence|].
  destruct (run_facts _ _ _ _ _ _ _ _ H) as (t0 & Fi & T & _ & In & _). cbv zeta in *. set (l := samples (vf_log fin)) in *.
  destruct (first_at E e fuel p t0 HE B0 B1 Fi) as (F0 & L0 & C).
  assert (B: Rabs (toR t0) <= bpow radix2 E).
  { destruct C as [C|C]; [exact C|]. exfalso. assert (K: fle (ticks (vstep p) t0 0) (range_end p) = true) by (apply (grid _ _ _ _ T In); destruct l; [congruence|cbn; lia]). cbn [ticks] in K. apply fle_R in K; [lra|exact F0|exact (proj1 B1)]. }
  pose proof (count E HE p Hd t0 (range_end p) F0 (proj1 B1) B (proj2 B1) l T In Ne). lra.
Qed.

(** ** The program reports ... *)
Theorem reports_start : forall e fuel argv p fin, visibility e fuel argv p = Ok fin ->
  let l := samples (vf_log fin) in
  (vf_code fin <> 0%Z /\ vf_log fin = []) \/
  exists tle t0, searched (n_lib e) p tle t0 l /\
  ((Forall (fun m => visible m = false) l /\ events (vf_log fin) = [] /\ (vf_code fin = 0%Z -> fle (ticks (vstep p) t0 (length l)) (range_end p) = false)) \/
   exists idle m rest g u s more, l = idle ++ m :: rest /\ Forall (fun m => visible m = false) idle /\ visible m = true /\
     events (vf_log fin) = (bytes "start", g, u, s) :: more /\ started_at p m s).
Proof.
  intros e fuel argv p fin H l. apply whole in H. destruct H as [H|(argv' & il & file & f & H)]; [left; exact H|right].
  destruct (starts _ _ _ _ _ _ _ _ H) as (t0 & Fi & T & Fa & In & C). exists (f_tle f), t0. split; [split; [exact (begins_of _ _ _ _ Fi)|exact T|exact Fa|exact In]|].
  destruct C as [C|(idle & m & rest & g & u & s & more & C1 & C2 & C3 & C4 & C5)]; [left; exact C|right]. exists idle, m, rest, g, u, s, more. repeat (split; [assumption|]). exact C5.
Qed.
Theorem reports_top : forall e fuel argv p fin, visibility e fuel argv p = Ok fin -> vf_code fin = 0%Z ->
  let l := samples (vf_log fin) in
  Exists (fun m => visible m = true) l -> Forall (fun m => visible m = true -> flt (m_sep m) (of_int 181) = true) l ->
  exists tle t0, searched (n_lib e) p tle t0 l /\
  exists m g u s, highest l m /\ In (bytes "max", g, u, s) (events (vf_log fin)) /\ date_of (fsub (m_t m) JD_OFF) = Ok (sa_date s) /\
    ((forall n n', l_propagate (n_lib e) n = l_propagate (n_lib e) n') -> sa_sep s = m_sep m).
Proof.
  intros e fuel argv p fin H C0 l Ex Sm. apply whole in H. destruct H as [(H & _)|(argv' & il & file & f & H)]; [congruence|].
  destruct (starts _ _ _ _ _ _ _ _ H) as (t0 & Fi & T & Fa & In & _). exists (f_tle f), t0. split; [split; [exact (begins_of _ _ _ _ Fi)|exact T|exact Fa|exact In]|].
  exact (tops _ _ _ _ _ _ _ _ H C0 Ex Sm).
Qed.
Theorem reports_duration : forall e fuel argv p fin, visibility e fuel argv p = Ok fin -> vf_code fin = 0%Z ->
  let l := samples (vf_log fin) in
  Exists (fun m => visible m = true) l ->
  exists tle t0, searched (n_lib e) p tle t0 l /\
  exists idle m lit m' en d pre post, l = idle ++ lit ++ last_ones en /\ hd_error lit = Some m /\ last_error lit = Some m' /\
    Forall (fun m => visible m = false) idle /\ Forall (fun m => visible m = true) lit /\ ends_so en /\
    vf_out fin = pre ++ q "'sunlit_duration_minutes': " ++ print_f 0 2 d ++ q ", " ++ post /\
    forall E e, (22 <= E <= 30)%Z -> (1 <= v_delta_time p <= 2147483647)%Z -> bnd E (range_begin p) -> bnd E (range_end p) ->
      (-17 <= e <= 31)%Z -> toR (m_t m') - toR (m_t m) + toR (vstep p) <= bpow radix2 e ->
      is_finite d = true /\ toR (m_t m) <= toR (m_t m') /\
      Rabs (toR d - 1440 * (toR (m_t m') - toR (m_t m) + extra_steps en * toR (vstep p))) <= 1440 * (bpow radix2 (E - 48) + bpow radix2 (e - 23)).
Proof.
  intros e fuel argv p fin H C0 l Ex. apply whole in H. destruct H as [(H & _)|(argv' & il & file & f & H)]; [congruence|].
  destruct (starts _ _ _ _ _ _ _ _ H) as (t0 & Fi & T & Fa & In & _). exists (f_tle f), t0. split; [split; [exact (begins_of _ _ _ _ Fi)|exact T|exact Fa|exact In]|].
  exact (lasts _ _ _ _ _ _ _ _ H C0 Ex).
Qed.
Theorem reports_dates : forall e fuel argv p fin, visibility e fuel argv p = Ok fin ->
  forall nm g u s, In (nm, g, u, s) (events (vf_log fin)) -> nm = bytes "start" \/ nm = bytes "end" -> date_of (sa_mjd s) = Ok (sa_date s).
Proof.
  intros e fuel argv p fin H nm g u s I N. apply whole in H. destruct H as [(_ & H)|(argv' & il & file & f & H)]; [rewrite H in I; destruct I|exact (dates _ _ _ _ _ _ _ _ H nm g u s I N)].
Qed.

(** ** A list that names no file *)
Lemma nothing_named : forall dir r c, good_row r -> chunk_of r c -> c <> [] -> row_paths dir r = [] -> row_name c = Ok None.
Proof.
  intros dir r c (N1 & N0 & Le & La) C Ne P. unfold row_name, c_store. rewrite repeat_length.
  assert (LC: (length c <= 63)%nat) by (destruct C as [->| ->]; [rewrite app_length; cbn; lia|lia]).
  destruct r as [|a r].
  - destruct C as [->| ->]; [|congruence]. reflexivity.
  - assert (a = 35%Z) as ->. { destruct (Z.eq_dec a 35) as [E|E]; [exact E|]. exfalso. unfold row_paths in P. destruct a as [|a|a]; try discriminate P. do 6 (destruct a as [a|a|]; try discriminate P). apply E. reflexivity. }
    destruct c as [|c0 c]; [congruence|]. assert (c0 = 35%Z) as -> by (destruct C as [E|E]; cbn in E; congruence).
    destruct (_ <=? _)%nat eqn:K; [|apply Nat.leb_gt in K; lia]. reflexivity.
Qed.
Theorem empty_list : forall e fuel argv p name path contents rs, nth_error argv (file_arg argv) = Some (64%Z :: name) ->
  path = v_tle_path p ++ 47%Z :: name -> (length path < 200)%nat -> v_single_n p = true \/ v_single_i p = true ->
  n_fs e path = Some contents -> lines_of contents rs -> Forall good_row rs -> flat_map (row_paths (v_tle_path p)) rs = [] ->
  visibility e fuel argv p = UB NullDeref.
Proof.
  intros e fuel argv p name path contents rs HA -> Hl Hs Hfs LN G Em. unfold visibility. rewrite HA. cbv zeta. cbn [tl]. unfold c_sprintf. replace (S (length (v_tle_path p ++ 47%Z :: name)) <=? 200)%nat with true by (symmetry; apply Nat.leb_le; lia). cbn [bind]. rewrite Hfs.
  replace (negb (v_single_n p) && negb (v_single_i p)) with false by (destruct Hs as [-> | ->]; [reflexivity|destruct (v_single_n p); reflexivity]).
  assert (SH: Forall (short 63) rs) by (eapply Forall_impl; [|exact G]; intros r (A & _ & B & _); split; [exact A|lia]).
  destruct (fgets_either 63 rs contents SH LN) as (ts & C & E).
  assert (GT: Forall good_row ts) by (destruct E as [<-|E]; [exact G|]; rewrite E in G; apply Forall_app in G; tauto).
  assert (EQ: flat_map (row_paths (v_tle_path p)) ts = []) by (destruct E as [<-|E]; [exact Em|]; rewrite E, flat_map_app in Em; apply app_eq_nil in Em; tauto).
  pose proof (fgets_go_nonempty 63 contents 63 [] ltac:(lia)) as NE. fold (fgets_seq 63 contents) in NE. clear E LN Em G SH.
  assert (K: forall a s, scan_rows p (n_fs e) a (fgets_seq 63 contents) [] s = Ok (Missing s, [])).
  { intros a s. induction C as [|r c ts' cs Cr C' IH]; [reflexivity|]. cbn [scan_rows]. inversion GT as [|? ? Gr GT']; subst. inversion NE as [|? ? NEc NE']; subst. cbn [flat_map] in EQ. apply app_eq_nil in EQ. destruct EQ as (E1 & E2).
    rewrite (nothing_named _ r c Gr Cr NEc E1). cbn [bind]. apply IH; assumption. }
  rewrite K. reflexivity.
Qed.

(** ** Steps that make no progress *)
Theorem no_progress : forall e argv p, (-2147483648 <= v_delta_time p <= 0)%Z -> v_altrng p = false -> v_skip p = false ->
  fin (range_begin p) -> fin (range_end p) -> toR (range_begin p) <= toR (range_end p) ->
  (forall tle n t, flt (v_radius p) (zenith_distance (n_lib e) p tle n t) = true \/ l_blocked (n_lib e) (position (n_lib e) tle n t) (l_sun_vec (n_lib e) t) = true) ->
  forall fuel fin, visibility e fuel argv p = Ok fin -> vf_code fin <> 0%Z /\ vf_log fin = [].
Proof.
  intros e argv p Hd Ha Hs F0 F1 Hr Dark fuel fin H. apply whole in H. destruct H as [H|(argv' & il & file & f & H)]; [exact H|exfalso].
  destruct (c_text (f_name f)) as [name|u] eqn:En.
  - rewrite (found_never_ends _ _ _ _ _ _ _ name Hd Ha Hs F0 F1 Hr (Dark (f_tle f)) En) in H. discriminate.
  - unfold vis_found in H. cbv zeta in H. destruct (l_dechalat _ _ _) as ((alt & az) & pa). rewrite En in H. discriminate.
Qed.

(** ** Plain dates *)
Lemma last_nothing : forall (A : Type) (f : vpiece -> option A) l d, Forall (fun k => f k = None) l -> vlast_of f l d = d.
Proof. intros A f l d H. unfold vlast_of. revert d. induction H as [|k l Hk H IH]; intro d; [reflexivity|]. cbn [fold_left]. rewrite Hk. apply IH. Qed.
Theorem dates_honoured : forall r prog l1 v a b k l2 fuel, k = VJoined v (VDates a b) \/ k = VApart v (VDates a b) -> Forall (vproper r) (l1 ++ k :: l2) ->
  Forall (fun k => vis_option (fun o => match o with VDates _ _ | VMjds _ _ _ _ => true | _ => false end) k = false) l2 ->
  Exists (fun k => vis_option (fun o => match o with VLocation _ _ _ => true | _ => false end) k = true) (l1 ++ k :: l2) ->
  (length (vall_written (l1 ++ k :: l2)) <= fuel)%nat ->
  exists p, vis_command_line r fuel (prog :: vall_written (l1 ++ k :: l2)) = Ok (Done p) /\ v_mjd0 p = snd (date2mjd_nf a) /\ v_mjd1 p = snd (date2mjd_nf b).
Proof.
  intros r prog l1 v a b k l2 fuel Hk HP HN HL Hf. destruct (voptions r prog (l1 ++ k :: l2) fuel HP ltac:(destruct l1; discriminate) Hf) as (p & A & E).
  assert (G: v_in_geopos p = true). { rewrite (va_in_geopos _ _ A). apply existsb_exists. apply Exists_exists in HL. exact HL. }
  rewrite G in E. exists p. split; [exact E|]. pose proof (va_range _ _ A) as R. unfold vlast_of in R. rewrite fold_left_app in R. cbn [fold_left] in R.
  match type of R with _ = fold_left _ l2 ?x => replace x with (snd (date2mjd_nf a), snd (date2mjd_nf b), (a, b)) in R by (destruct Hk as [-> | ->]; reflexivity) end.
  match type of R with _ = fold_left (fun a k => match ?f k with _ => _ end) l2 ?x => fold (vlast_of f l2 x) in R; rewrite (last_nothing _ f l2 x) in R end.
  - split; congruence.
  - eapply Forall_impl; [|exact HN]. intros [t|s|w o|w o] Ho; cbn in *; try reflexivity; destruct o; try reflexivity; discriminate Ho.
Qed.
