(** The command line of sat_visibility: the parameters asked for, date ranges, termination. *)
From Coq Require Import String Ascii ZArith List Bool Lia.
From Flocq Require Import IEEE754.BinarySingleNaN.
From Verif Require Import CLib FloatModel CalendarModel IoModel SkymapModel CliModel CliSpec CliProofs1 CliProofs2 VisCliModel VisModel VisCliSpec VisProofs1 VisProofs4.
Import ListNotations.
Open Scope Z_scope.

(** ** Dates *)
Lemma word_exact : forall w a r, length a = w -> Forall (fun c => is_space c = false) a -> word w (a ++ r) = (a, r).
Proof.
  induction w as [|w IH]; intros a r L H; destruct a as [|c a]; try discriminate L; cbn [word app]; [now destruct r|].
  inversion H as [|? ? Hc Ha]; subst. rewrite Hc. rewrite IH by (try assumption; now injection L). reflexivity.
Qed.
Lemma scan_stamp : forall a r, stamp a -> scan_word 19 (a ++ r) = Some (a, r).
Proof.
  intros a r (L & H). unfold scan_word. destruct a as [|c a]; [discriminate L|]. pose proof (Forall_inv H) as Hc. cbn beta in Hc. cbn [app c_skip_space]. rewrite Hc. change (c :: a ++ r) with ((c :: a) ++ r). rewrite word_exact by assumption. reflexivity.
Qed.
Lemma two_dates : forall a b rest x y, stamp a -> stamp b -> scan_dates (a ++ 44 :: b ++ rest) x y = (a, b).
Proof. intros a b rest x y Ha Hb. unfold scan_dates. rewrite scan_stamp by exact Ha. change (44 =? 44) with true. cbv iota. rewrite scan_stamp by exact Hb. reflexivity. Qed.
(** After the first nineteen characters anything but a comma ends the scan. *)
Lemma one_date : forall a c rest x y, stamp a -> c <> 44 -> scan_dates (a ++ c :: rest) x y = (a, y).
Proof. intros a c rest x y Ha Hc. unfold scan_dates. rewrite scan_stamp by exact Ha. destruct (Z.eqb_spec c 44); [contradiction|reflexivity]. Qed.
Lemma dash_in : forall t, In 45 t -> existsb (Z.eqb 45) t = true.
Proof. intros t H. apply existsb_exists. exists 45. split; [exact H|reflexivity]. Qed.
Lemma dash_out : forall t, ~ In 45 t -> existsb (Z.eqb 45) t = false.
Proof. intros t H. destruct (existsb (Z.eqb 45) t) eqn:E; [|reflexivity]. apply existsb_exists in E. destruct E as (x & Hx & Ex). apply Z.eqb_eq in Ex. subst x. contradiction. Qed.

(** ** One option *)
Definition vapply_switch (s : vswitch_) (p : vparams) : vparams := match s with VSwN => put_skip true p | VSwT => put_deftledir true p end.
Definition vapply_option (o : voption_) (p : vparams) : vparams :=
  match o with
  | VAltitudes x y => let '(lo, hi) := if flt y x then (y, x) else (x, y) in put_altrng true (put_alt_min lo (put_alt_max hi p))
  | VDates a b => put_mjd1 (snd (date2mjd_nf b)) (put_mjd0 (snd (date2mjd_nf a)) (put_date0 a (put_date1 b p)))
  | VDirectory t => put_deftledir false (put_tle_path t p)
  | VDesignator t => put_altrng false (put_single_i true (put_intl_desig t p))
  | VMjds x y a b => put_date1 b (put_date0 a (put_mjd0 x (put_mjd1 y p)))
  | VLocation lat lon ht => put_in_geopos true (put_lat lat (put_lon (if flt lon (of_int 0) then fadd lon (of_int 360) else lon) (put_ht ht p)))
  | VRadius x => put_radius x p
  | VNumber n => put_altrng false (put_single_n true (put_norad_n n p))
  | VStep n => put_delta_time n p
  end.
Definition vapply_piece (k : vpiece) (p : vparams) : vparams :=
  match k with VFile _ => p | VSwitch s => vapply_switch s p | VJoined _ o | VApart _ o => vapply_option o p end.

Lemma voption_applied : forall r argv v o cur p, vmeans r v o -> vis_switch r argv (voption_char o) (Ok v) cur p = Ok (Go false (vapply_option o p)).
Proof.
  intros r argv v o cur p H. destruct o; cbn [voption_char vmeans vapply_option] in *; unfold vis_switch; cbn [Z.eqb Pos.eqb bind].
  - rewrite (scan2 r v x y H). unfold assigned. cbn [nth]. destruct (flt y x); reflexivity.
  - destruct H as (Ha & Hb & Hi & rest & Hv). rewrite (dash_in v Hi). rewrite Hv at 1. rewrite two_dates by assumption. reflexivity.
  - destruct H as (-> & H). rewrite (sprintf_fits 128 t H). reflexivity.
  - destruct H as (-> & H). rewrite (sprintf_fits 12 t H). reflexivity.
  - destruct H as (H & Hi & Hx & Hy). rewrite (dash_out v Hi). rewrite (scan2 r v x y H). unfold assigned, date_of. cbn [nth]. cbv zeta. rewrite Hx, Hy. cbn [bind]. rewrite (date_fits _ _ Hx), (date_fits _ _ Hy). reflexivity.
  - destruct H as (H & H1 & H2). rewrite (scan3 r v lat lon ht H). unfold assigned. cbn [nth]. cbv zeta. rewrite H1, H2. reflexivity.
  - now rewrite H.
  - unfold strtol, wrap_int. destruct (scan_decimal v n H) as (-> & B).
    replace (Z.max (- long_max - 1) (Z.min long_max n)) with n by (unfold long_max; lia).
    replace ((n + 2147483648) mod 4294967296 - 2147483648) with n; [reflexivity|]. rewrite Z.mod_small by lia. lia.
  - rewrite H. reflexivity.
Qed.
Lemma vswitch_applied : forall r argv s val cur p, vis_switch r argv (vswitch_char s) val cur p = Ok (Go true (vapply_switch s p)).
Proof. intros. destruct s; reflexivity. Qed.

(** ** All options *)
Definition vall_written (l : list vpiece) : list (list Z) := concat (map vwritten l).
Lemma voption_char_nz : forall o, voption_char o <> 0.
Proof. now destruct o. Qed.
Lemma vone_piece : forall r pre k post argv p, vproper r k -> argv = pre ++ vwritten k ++ post ->
  one_arg (vis_switch r argv) argv (length pre) p = Ok (Again (length (pre ++ vwritten k)) (vapply_piece k p)).
Proof.
  intros r pre k post argv p H E. rewrite app_length. destruct k; cbn [vwritten app vproper vapply_piece length] in *.
  - destruct H as (_ & H). rewrite E at 2. rewrite one_file by exact H. now rewrite Nat.add_1_r.
  - rewrite E at 2. rewrite (proj1 (one_bare _ pre _ post p tt)). rewrite vswitch_applied. cbn [bind]. do 2 f_equal. lia.
  - destruct H as (H1 & H2 & H3). destruct v as [|x v]; [congruence|]. rewrite E at 2.
    rewrite one_joined by (constructor; [apply voption_char_nz|exact H1]). rewrite voption_applied by exact H3. cbn [bind]. do 2 f_equal. lia.
  - destruct H as (H1 & H3). rewrite E at 2. rewrite one_apart by exact H1. rewrite voption_applied by exact H3. cbn [bind]. do 2 f_equal. lia.
Qed.
Lemma vwritten_pos : forall k, (0 < length (vwritten k))%nat.
Proof. destruct k; cbn; lia. Qed.
Definition vafter_pieces (l : list vpiece) (p : vparams) : vparams := fold_left (fun p k => vapply_piece k p) l p.
Lemma vpieces_then : forall r l f argv pre post p, Forall (vproper r) l -> argv = pre ++ vall_written l ++ post ->
  opt_loop (vis_switch r argv) (length l + f) argv (length pre) p =
  opt_loop (vis_switch r argv) f argv (length (pre ++ vall_written l)) (vafter_pieces l p).
Proof.
  intros r l. induction l as [|k l IH]; intros f argv pre post p H E.
  - unfold vall_written. cbn. now rewrite app_nil_r.
  - inversion H as [|? ? Hk Hl]; subst x l0. unfold vall_written in E. cbn [map concat] in E. fold (vall_written l) in E. rewrite <- app_assoc in E.
    cbn [length Nat.add]. rewrite loop_step by (rewrite E, !app_length; pose proof (vwritten_pos k); lia).
    rewrite (vone_piece r pre k (vall_written l ++ post) argv p Hk E). cbn [bind].
    rewrite (IH f argv (pre ++ vwritten k) post _ Hl) by (rewrite <- app_assoc; exact E).
    unfold vall_written, vafter_pieces. cbn [map concat fold_left]. fold (vall_written l). now rewrite app_assoc.
Qed.
Lemma vpieces_length : forall l, (length l <= length (vall_written l))%nat.
Proof. induction l as [|k l IH]; [apply Nat.le_0_l|]. unfold vall_written in *. cbn [map concat length]. rewrite app_length. pose proof (vwritten_pos k). lia. Qed.

Lemma vafter_last : forall (A : Type) (proj : vparams -> A) f,
  (forall k p, proj (vapply_piece k p) = match f k with Some x => x | None => proj p end) -> forall l p, proj (vafter_pieces l p) = vlast_of f l (proj p).
Proof. intros A proj f H l. unfold vafter_pieces, vlast_of. induction l as [|k l IH]; intros p; [reflexivity|]. cbn [fold_left]. now rewrite IH, H. Qed.
Lemma vafter_has : forall (proj : vparams -> bool) f, (forall k p, proj (vapply_piece k p) = proj p || f k) -> forall l p, proj (vafter_pieces l p) = proj p || existsb f l.
Proof. intros proj f H l. unfold vafter_pieces. induction l as [|k l IH]; intros p; [now rewrite orb_false_r|]. cbn [fold_left existsb]. now rewrite IH, H, orb_assoc. Qed.
Ltac veach := intros k p; destruct k as [t|s|v o|v o]; [|destruct s|destruct o|destruct o];
  cbn [vapply_piece vapply_switch vapply_option vopt_of vis_option vswitch_char orb];
  try (match goal with |- context [if ?b then (_, _) else _] => destruct b end);
  cbn; rewrite ?orb_false_r, ?orb_true_r; reflexivity.
Definition finish (p : vparams) : vparams := put_tle_path (if v_deftledir p then DEF_TLEDIR else v_tle_path p) p.
Lemma vasked_after : forall l, vasked l (finish (vafter_pieces l vis_defaults)).
Proof.
  intros l. constructor.
  - apply (vafter_last _ v_radius). veach.
  - apply (vafter_last _ (fun p => (v_lat p, v_lon p, v_ht p))). veach.
  - apply (vafter_last _ (fun p => (v_alt_min p, v_alt_max p))). veach.
  - apply (vafter_last _ (fun p => (v_mjd0 p, v_mjd1 p, (v_date0 p, v_date1 p)))). veach.
  - apply (vafter_last _ v_delta_time). veach.
  - apply (vafter_last _ v_norad_n). veach.
  - apply (vafter_last _ v_intl_desig). veach.
  - change (v_tle_path (finish (vafter_pieces l vis_defaults))) with (if v_deftledir (vafter_pieces l vis_defaults) then DEF_TLEDIR else v_tle_path (vafter_pieces l vis_defaults)).
    rewrite (vafter_last _ v_deftledir (fun k => match k with VSwitch VSwT => Some true | VJoined _ (VDirectory _) | VApart _ (VDirectory _) => Some false | _ => None end)) by veach.
    rewrite (vafter_last _ v_tle_path (vopt_of (fun o => match o with VDirectory t => Some t | _ => None end))) by veach. reflexivity.
  - refine (vafter_has v_skip _ _ l vis_defaults). veach.
  - refine (vafter_has v_single_n _ _ l vis_defaults). veach.
  - refine (vafter_has v_single_i _ _ l vis_defaults). veach.
  - apply (vafter_last _ v_altrng). veach.
  - refine (vafter_has v_in_geopos _ _ l vis_defaults). veach.
Qed.
Theorem voptions : forall r prog l fuel, Forall (vproper r) l -> l <> [] -> (length (vall_written l) <= fuel)%nat ->
  exists p, vasked l p /\ vis_command_line r fuel (prog :: vall_written l) = Ok (if v_in_geopos p then Done p else Exit 0 vis_usage).
Proof.
  intros r prog l fuel H Hl Hf. exists (finish (vafter_pieces l vis_defaults)). split; [apply vasked_after|].
  unfold vis_command_line. replace (length (prog :: vall_written l) <? 2)%nat with false.
  2:{ symmetry. apply Nat.ltb_ge. cbn [length]. pose proof (vpieces_length l). destruct l; [congruence|]. cbn [length] in *. lia. }
  rewrite (more_fuel _ _ (length l) _ _ _ (Done (vafter_pieces l vis_defaults))) with (g := fuel).
  - cbn [bind]. change (v_in_geopos (finish (vafter_pieces l vis_defaults))) with (v_in_geopos (vafter_pieces l vis_defaults)). now destruct (v_in_geopos (vafter_pieces l vis_defaults)).
  - pose proof (vpieces_then r l 0 (prog :: vall_written l) [prog] [] vis_defaults H) as E. rewrite Nat.add_0_r in E.
    change (length [prog]) with 1%nat in E. rewrite E by (rewrite app_nil_r; reflexivity). apply loop_end.
  - pose proof (vpieces_length l). lia.
Qed.

(** ** Fractions of a second in the first date *)
Theorem fraction_drops_end : forall r prog l a frac b rest fuel, Forall (vproper r) l -> stamp a -> no_nul (a ++ 46 :: frac ++ 44 :: b ++ rest) -> In 45 a ->
  (S (length (vall_written l)) <= fuel)%nat ->
  forall p, vis_command_line r fuel (prog :: vall_written l ++ [45 :: 100 :: a ++ 46 :: frac ++ 44 :: b ++ rest]) = Ok (Done p) ->
  v_mjd0 p = snd (date2mjd_nf a) /\ exists p0, vasked l p0 /\ v_date1 p = v_date1 p0 /\ v_mjd1 p = snd (date2mjd_nf (v_date1 p0)).
Proof.
  intros r prog l a frac b rest fuel H Ha Hn Hi Hf p E. set (v := a ++ 46 :: frac ++ 44 :: b ++ rest) in *. set (argv := prog :: vall_written l ++ [45 :: 100 :: v]) in *.
  unfold vis_command_line in E. replace (length argv <? 2)%nat with false in E. 2:{ symmetry. apply Nat.ltb_ge. unfold argv. cbn [length]. rewrite app_length. cbn [length]. lia. }
  rewrite (more_fuel _ _ (length l + 1)%nat _ _ _ (Done (put_mjd1 (snd (date2mjd_nf (v_date1 (vafter_pieces l vis_defaults)))) (put_mjd0 (snd (date2mjd_nf a)) (put_date0 a (put_date1 (v_date1 (vafter_pieces l vis_defaults)) (vafter_pieces l vis_defaults))))))) with (g := fuel) in E.
  - cbn [bind] in E. match type of E with (if ?c then _ else _) = _ => destruct c; [|discriminate E] end.
    match type of E with Ok (Done ?x) = _ => assert (Ep: p = x) by congruence end. rewrite Ep. split; [reflexivity|]. exists (finish (vafter_pieces l vis_defaults)). split; [apply vasked_after|]. split; reflexivity.
  - pose proof (vpieces_then r l 1 argv [prog] [45 :: 100 :: v] vis_defaults H eq_refl) as X. change (length [prog]) with 1%nat in X. rewrite X.
    rewrite loop_step by (unfold argv; cbn [length app]; rewrite !app_length; cbn [length]; lia).
    unfold argv at 2. change (prog :: vall_written l ++ [45 :: 100 :: v]) with (([prog] ++ vall_written l) ++ [45 :: 100 :: v]).
    assert (V: exists x w, v = x :: w) by (unfold v; destruct a as [|x a]; [destruct Ha as (Ha & _); discriminate Ha|cbn; eauto]). destruct V as (x & w & V). rewrite V at 1. rewrite one_joined by (constructor; [discriminate|rewrite <- V; exact Hn]). rewrite <- V.
    unfold vis_switch. cbn [Z.eqb Pos.eqb bind]. rewrite dash_in by (unfold v; apply in_or_app; left; exact Hi). unfold v. rewrite one_date by (try assumption; discriminate). cbn [bind].
    replace (S (length ([prog] ++ vall_written l))) with (length argv) by (unfold argv; cbn [length app]; rewrite app_length; cbn [length]; lia). apply loop_end.
  - pose proof (vpieces_length l). lia.
Qed.

(** ** Termination *)
Lemma vgo_true : forall r argv opt val cur p s', vis_switch r argv opt val cur p = Ok (Go true s') -> exists s, opt = vswitch_char s.
Proof.
  intros r argv opt val cur p s' H. unfold vis_switch in H.
  repeat match type of H with
         | (if ?a =? ?b then Ok (Go true _) else _) = _ => destruct (Z.eqb_spec a b) as [->|?]; [first [now exists VSwN|now exists VSwT]|]
         | (if ?b then Ok (Leave _ _) else _) = _ => destruct b; [congruence|]
         | (if ?b then _ else _) = _ => destruct b
         | vis_error _ _ _ = _ => exfalso; unfold vis_error in H; step H; step H; discriminate H
         | bind ?m _ = _ => destruct m; cbn [bind] in H; [|congruence]
         | (let _ := _ in _) = _ => cbv zeta in H
         | (let '(_, _) := ?x in _) = _ => destruct x
         | match ?x with _ => _ end = _ => destruct x
         end; try congruence.
Qed.
Lemma vmoves_on : forall r argv i p i' p', (i < length argv)%nat -> (forall a, nth_error argv i = Some a -> ~ vglued_switch a) -> Forall no_nul argv ->
  (1 <= i)%nat -> one_arg (vis_switch r argv) argv i p = Ok (Again i' p') -> (i < i')%nat.
Proof.
  intros r argv i p i' p' Hi Hg Hn H1 H. unfold one_arg, arg at 1 in H. destruct (nth_error argv i) as [a|] eqn:E; cbn [bind] in H; [|discriminate].
  specialize (Hg a eq_refl). destruct (rd (a ++ [0]) 0) as [c|r0] eqn:E0; [|discriminate]. cbn [bind] in H.
  destruct (Z.eqb_spec c 45) as [->|]; [|assert (i' = S i) by congruence; lia].
  destruct (rd (a ++ [0]) 1) as [o|] eqn:E1; cbn [bind] in H; [|discriminate].
  destruct (rd (a ++ [0]) 2) as [c2|] eqn:E2; cbn [bind] in H; [|discriminate].
  destruct (Z.eqb_spec c2 0) as [->|N].
  - destruct (vis_switch _ _ _ _ _ _) as [[sw s'|? ?]|]; cbn [bind] in H; try discriminate.
    assert (i' = S (if sw then S i - 1 else S i)%nat) by congruence. destruct sw; lia.
  - destruct (vis_switch _ _ _ _ _ _) as [[sw s'|? ?]|] eqn:Es; cbn [bind] in H; try discriminate.
    assert (i' = S (if sw then i - 1 else i)%nat) by congruence. destruct sw; [|lia]. exfalso.
    destruct (vgo_true _ _ _ _ _ _ _ Es) as (sc & ->). apply Hg. unfold vglued_switch.
    destruct a as [|a0 [|a1 [|a2 a]]]; unfold rd in *; cbn in E0, E1, E2; try congruence.
    exists sc, a2, a. split; [congruence|]. congruence.
Qed.
Lemma ns_verror : forall (S : Type) argv c m, not_stuck (vis_error (S := S) argv c m).
Proof. intros. unfold vis_error. apply ns_bind; [apply ns_sprintf|intros]. apply ns_bind; [apply ns_vclose|intros; apply ns_ok]. Qed.
Lemma ns_vswitch : forall r argv opt val cur p, not_stuck val -> not_stuck cur -> not_stuck (vis_switch r argv opt val cur p).
Proof. intros r argv opt val cur p Hv Hc. unfold vis_switch. ns; try apply ns_verror; apply ns_date_of. Qed.
Lemma ns_vone : forall r argv i p, not_stuck (one_arg (vis_switch r argv) argv i p).
Proof.
  intros. unfold one_arg. apply ns_bind; [apply ns_arg|intros a]. apply ns_bind; [apply ns_rd|intros c]. destruct (c =? 45); [|apply ns_ok].
  apply ns_bind; [apply ns_rd|intros o]. apply ns_bind; [apply ns_rd|intros c2]. destruct (if c2 =? 0 then _ else _) as (j, pos).
  apply ns_bind; [|intros [? ?|? ?]; apply ns_ok]. apply ns_vswitch; (apply ns_bind; [apply ns_arg|intros; apply ns_text]).
Qed.
Theorem vends : forall r argv, Forall no_nul argv -> (forall a, In a argv -> ~ vglued_switch a) ->
  forall fuel, (length argv <= fuel)%nat -> vis_command_line r fuel argv <> UB Stuck.
Proof.
  intros r argv Hn Hg fuel Hf. change (not_stuck (vis_command_line r fuel argv)). unfold vis_command_line.
  destruct (length argv <? 2)%nat; [apply ns_bind; [apply ns_sprintf|intros; apply ns_bind; [apply ns_vclose|intros; apply ns_ok]]|].
  apply ns_bind.
  2:{ intros [p|c o]; [destruct (v_in_geopos p); apply ns_ok|apply ns_ok]. }
  assert (G : forall f i p, (1 <= i)%nat -> (length argv <= f + i)%nat -> not_stuck (opt_loop (vis_switch r argv) f argv i p)).
  { induction f as [|f IH]; intros i p Hi Hl; cbn [opt_loop]; destruct (Nat.ltb_spec i (length argv)) as [L|L]; try apply ns_ok; [lia|].
    pose proof (ns_vone r argv i p) as N. destruct (one_arg (vis_switch r argv) argv i p) as [[i' p'|c o]|rr] eqn:E; cbn [bind].
    - assert (i < i')%nat by (refine (vmoves_on r argv i p i' p' L _ Hn Hi E); intros a Ea; apply Hg; eapply nth_error_In; exact Ea).
      apply IH; lia.
    - apply ns_ok.
    - unfold not_stuck in *. congruence. }
  apply G; lia.
Qed.
Theorem vnever_ends : forall r prog l a post, Forall (vproper r) l -> no_nul a -> vglued_switch a ->
  forall fuel, vis_command_line r fuel (prog :: vall_written l ++ a :: post) = UB Stuck.
Proof.
  intros r prog l a post Hl Hn (s & c & t & Hc & ->) fuel.
  set (argv := prog :: vall_written l ++ (45 :: vswitch_char s :: c :: t) :: post).
  unfold vis_command_line. replace (length argv <? 2)%nat with false.
  2:{ symmetry. apply Nat.ltb_ge. unfold argv. cbn [length]. rewrite app_length. cbn [length]. lia. }
  assert (G : forall f p, opt_loop (vis_switch r argv) f argv (length (prog :: vall_written l)) p = UB Stuck).
  { induction f as [|f IH]; intros p; cbn [opt_loop].
    - replace (length (prog :: vall_written l) <? length argv)%nat with true; [reflexivity|].
      symmetry. apply Nat.ltb_lt. unfold argv. cbn [length]. rewrite app_length. cbn [length]. lia.
    - replace (length (prog :: vall_written l) <? length argv)%nat with true.
      2:{ symmetry. apply Nat.ltb_lt. unfold argv. cbn [length]. rewrite app_length. cbn [length]. lia. }
      unfold argv at 2. change (prog :: vall_written l ++ (45 :: vswitch_char s :: c :: t) :: post) with ((prog :: vall_written l) ++ (45 :: vswitch_char s :: c :: t) :: post).
      rewrite one_joined by (inversion Hn; assumption). rewrite vswitch_applied. cbn [bind].
      replace (S (length (prog :: vall_written l) - 1)) with (length (prog :: vall_written l)) by (cbn [length]; lia). apply IH. }
  assert (W : forall k pre p f, Forall (vproper r) k -> argv = pre ++ vall_written k ++ (45 :: vswitch_char s :: c :: t) :: post ->
    pre ++ vall_written k = prog :: vall_written l -> opt_loop (vis_switch r argv) f argv (length pre) p = UB Stuck).
  { induction k as [|x k IH]; intros pre p f Hk E1 E2.
    - unfold vall_written in E2 at 1. cbn [map concat] in E2. rewrite app_nil_r in E2. rewrite E2. apply G.
    - inversion Hk as [|? ? Hx Hk']; subst x0 l0. unfold vall_written in E1, E2 at 1. cbn [map concat] in E1, E2. fold (vall_written k) in E1, E2.
      assert (L : (length pre <? length argv)%nat = true) by (apply Nat.ltb_lt; rewrite E1, !app_length; pose proof (vwritten_pos x); lia).
      destruct f as [|f]; cbn [opt_loop]; rewrite L; [reflexivity|]. rewrite <- app_assoc in E1.
      rewrite (vone_piece r pre x _ argv p Hx E1). cbn [bind]. apply IH; [exact Hk'|rewrite <- app_assoc; exact E1|rewrite <- app_assoc; exact E2]. }
  change 1%nat with (length [prog]). rewrite (W l [prog] vis_defaults fuel Hl eq_refl eq_refl). reflexivity.
Qed.
