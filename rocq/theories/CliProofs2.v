(** Proofs about the command line: the parameters asked for, termination, memory. *)
From Coq Require Import String Ascii ZArith List Bool Lia.
From Flocq Require Import IEEE754.BinarySingleNaN.
From Verif Require Import CLib FloatModel CalendarModel IoModel SkymapModel CliModel CliSpec CliProofs1.
Import ListNotations.
Open Scope Z_scope.

(* ------------------------------------------------------------------ *)
(** ** The parameters *)
Definition after (l : list piece) (p : params) : params := fold_left (fun p k => apply_piece k p) l p.

Lemma after_last : forall (A : Type) (proj : params -> A) f,
  (forall k p, proj (apply_piece k p) = match f k with Some x => x | None => proj p end) ->
  forall l p, proj (after l p) = last_of f l (proj p).
Proof.
  intros A proj f H l. unfold after, last_of. induction l as [|k l IH]; intros p; [reflexivity|]. cbn [fold_left]. now rewrite IH, H.
Qed.
Lemma after_has : forall (proj : params -> bool) f,
  (forall k p, proj (apply_piece k p) = proj p || f k) -> forall l p, proj (after l p) = proj p || has f l.
Proof.
  intros proj f H l. unfold after, has. induction l as [|k l IH]; intros p; [now rewrite orb_false_r|].
  cbn [fold_left existsb]. now rewrite IH, H, orb_assoc.
Qed.

Ltac each := intros k p; destruct k as [t|s|v o|v o]; [|destruct s|destruct o|destruct o];
  cbn [apply_piece apply_switch apply_option opt_of is_switch is_option switch_char orb];
  try (match goal with |- context [if ?b then (_, _) else _] => destruct b end);
  cbn; rewrite ?orb_false_r, ?orb_true_r; reflexivity.

Lemma asked_after : forall l, asked l (after l defaults).
Proof.
  intros l. constructor.
  - apply (after_last _ p_radius). each.
  - apply (after_last _ (fun p => (p_lat p, p_ht p))). each.
  - apply (after_last _ p_lon). each.
  - apply (after_last _ (fun p => (p_ra p, p_de p))). each.
  - apply (after_last _ (fun p => (p_alt_min p, p_alt_max p))). each.
  - apply (after_last _ (fun p => (p_mjd p, p_date p))). each.
  - apply (after_last _ p_max_sats). each.
  - apply (after_last _ p_delta_time). each.
  - apply (after_last _ p_norad_n). each.
  - apply (after_last _ p_intl_desig). each.
  - apply (after_last _ p_satname). each.
  - apply (after_last _ p_tle_path). each.
  - refine (after_has p_haversine _ _ l defaults). each.
  - refine (after_has p_info_only _ _ l defaults). each.
  - refine (after_has p_sunlit_only _ _ l defaults). each.
  - refine (after_has p_georef _ _ l defaults). each.
  - refine (after_has p_geoloc _ _ l defaults). each.
  - refine (after_has p_single_n _ _ l defaults). each.
  - refine (after_has p_single_i _ _ l defaults). each.
  - refine (after_has p_satname_filter _ _ l defaults). each.
  - apply (after_last _ p_deftledir). each.
  - apply (after_last _ p_altrng). each.
  - apply (after_last _ p_in_region). each.
  - refine (after_has p_in_geopos _ _ l defaults). each.
Qed.

(** Everything about proper command lines. *)
Theorem options : forall r prog l fuel, Forall (proper r) l -> l <> [] -> (length (all_written l) <= fuel)%nat ->
  exists p, asked l p /\ command_line r fuel (prog :: all_written l) = Ok (if p_in_geopos p then Done p else Exit 0 usage).
Proof.
  intros r prog l fuel H Hl Hf. exists (after l defaults). split; [apply asked_after|].
  unfold command_line. replace (length (prog :: all_written l) <? 2)%nat with false.
  2:{ symmetry. apply Nat.ltb_ge. cbn [length]. pose proof (pieces_length l). destruct l; [congruence|]. cbn [length] in *. lia. }
  rewrite (parsed_pieces r prog l fuel H Hf). cbn [bind]. fold (after l defaults). now destruct (p_in_geopos _).
Qed.

(* ------------------------------------------------------------------ *)
(** ** Termination *)
Lemma opt_error_noGo : forall (S : Type) argv c m sw (s : S), opt_error argv c m <> Ok (Go sw s).
Proof.
  intros S argv c m sw s. unfold opt_error. destruct (c_sprintf 128 m); cbn [bind]; [|congruence].
  destruct (close_stat argv false c a 0 0 0); cbn [bind]; congruence.
Qed.
Lemma go_true : forall r argv opt val cur p s', skymap_switch r argv opt val cur p = Ok (Go true s') -> exists s, opt = switch_char s.
Proof.
  intros r argv opt val cur p s' H. unfold skymap_switch in H.
  repeat match type of H with
         | (if ?a =? ?b then Ok (Go true _) else _) = _ => destruct (Z.eqb_spec a b) as [->|?];
             [first [now exists SwE|now exists SwG|now exists SwH|now exists SwI|now exists SwT|now exists SwV]|]
         | (if ?b then Ok (Leave _ _) else _) = _ => destruct b; [congruence|]
         | (if ?b then _ else _) = _ => destruct b
         | bind ?m _ = _ => destruct m; cbn [bind] in H; [|congruence]
         | (let _ := _ in _) = _ => cbv zeta in H
         | (let '(_, _) := ?x in _) = _ => destruct x
         | match ?x with _ => _ end = _ => destruct x
         end; try congruence; try (exfalso; exact (opt_error_noGo _ _ _ _ _ _ H)).
Qed.

Lemma moves_on : forall r argv i p i' p', (i < length argv)%nat -> (forall a, nth_error argv i = Some a -> ~ glued_switch a) -> Forall no_nul argv ->
  (1 <= i)%nat -> one_arg (skymap_switch r argv) argv i p = Ok (Again i' p') -> (i < i')%nat.
Proof.
  intros r argv i p i' p' Hi Hg Hn H1 H. unfold one_arg, arg at 1 in H. destruct (nth_error argv i) as [a|] eqn:E; cbn [bind] in H; [|discriminate].
  specialize (Hg a eq_refl). pose proof (proj1 (Forall_forall no_nul argv) Hn a (nth_error_In _ _ E)) as Ha.
  destruct (rd (a ++ [0]) 0) as [c|r0] eqn:E0.
  2:{ discriminate. }
  cbn [bind] in H.
  destruct (Z.eqb_spec c 45) as [->|]; [|assert (i' = S i) by congruence; lia].
  destruct (rd (a ++ [0]) 1) as [o|] eqn:E1; cbn [bind] in H; [|discriminate].
  destruct (rd (a ++ [0]) 2) as [c2|] eqn:E2; cbn [bind] in H; [|discriminate].
  destruct (Z.eqb_spec c2 0) as [->|N].
  - destruct (skymap_switch _ _ _ _ _ _) as [[sw s'|? ?]|]; cbn [bind] in H; try discriminate.
    assert (i' = S (if sw then S i - 1 else S i)%nat) by congruence. destruct sw; lia.
  - destruct (skymap_switch _ _ _ _ _ _) as [[sw s'|? ?]|] eqn:Es; cbn [bind] in H; try discriminate.
    assert (i' = S (if sw then i - 1 else i)%nat) by congruence. destruct sw; [|lia]. exfalso.
    destruct (go_true _ _ _ _ _ _ _ Es) as (sc & ->). apply Hg. unfold glued_switch.
    destruct a as [|a0 [|a1 [|a2 a]]]; unfold rd in *; cbn in E0, E1, E2; try congruence.
    exists sc, a2, a. split; [congruence|]. congruence.
Qed.

Definition not_stuck {A : Type} (x : res A) : Prop := x <> UB Stuck.
Lemma ns_bind : forall (A B : Type) (m : res A) (k : A -> res B), not_stuck m -> (forall a, not_stuck (k a)) -> not_stuck (bind m k).
Proof. intros A B [a|r] k H K; cbn; [apply K|]. unfold not_stuck in *. congruence. Qed.
Lemma ns_ok : forall (A : Type) (a : A), not_stuck (Ok a).
Proof. intros. unfold not_stuck. congruence. Qed.
Lemma ns_oob : forall A, not_stuck (UB OutOfBounds : res A). Proof. intros. unfold not_stuck. congruence. Qed.
Lemma ns_ovf : forall A, not_stuck (UB Overflow : res A). Proof. intros. unfold not_stuck. congruence. Qed.
Lemma ns_null : forall A, not_stuck (UB NullDeref : res A). Proof. intros. unfold not_stuck. congruence. Qed.
Lemma ns_sprintf : forall n t, not_stuck (c_sprintf n t).
Proof. intros. unfold c_sprintf. destruct (_ <=? _)%nat; [apply ns_ok|apply ns_oob]. Qed.
Lemma ns_int : forall x, not_stuck (to_int x).
Proof. intros. unfold to_int, chk_int. destruct (is_finite x); [destruct (in_int _); [apply ns_ok|apply ns_ovf]|apply ns_ovf]. Qed.
Lemma ns_mjd2date : forall x, not_stuck (mjd2date x).
Proof.
  intros x. unfold mjd2date. apply ns_bind.
  - unfold mjd_split. cbv zeta. destruct (_ || _); [apply ns_ok|]. destruct (if fle x JD_OFF then _ else _) as (d1, d2). apply ns_bind; [|intros; apply ns_ok].
    unfold to_long. destruct (is_finite _); [|apply ns_ovf]. destruct (_ && _); [apply ns_ok|apply ns_ovf].
  - intros [(jd, f)|]; [|apply ns_ok]. destruct (gregorian jd) as ((y, m), d). apply ns_bind.
    + unfold clock. apply ns_bind; [apply ns_int|intros h]. cbv zeta. apply ns_bind; [apply ns_int|intros mm]. cbv zeta.
      apply ns_bind; [apply ns_int|intros ss; apply ns_ok].
    + intros ((h, mm), ss). destruct (_ <? _)%nat; [apply ns_ok|apply ns_oob].
Qed.
Lemma ns_close : forall argv c m, not_stuck (close_stat argv false c m 0 0 0).
Proof. intros. unfold close_stat. cbn [bind]. apply ns_ok. Qed.
Lemma ns_error : forall (S : Type) argv c m, not_stuck (opt_error (S := S) argv c m).
Proof.
  intros. unfold opt_error. apply ns_bind; [apply ns_sprintf|intros]. apply ns_bind; [apply ns_close|intros; apply ns_ok].
Qed.
Lemma ns_text : forall t, not_stuck (c_text t).
Proof. induction t as [|c t IH]; [apply ns_oob|]. cbn. destruct (c =? 0); [apply ns_ok|]. apply ns_bind; [exact IH|intros; apply ns_ok]. Qed.
Lemma ns_arg : forall argv i, not_stuck (arg argv i).
Proof. intros. unfold arg. destruct (nth_error argv i); [apply ns_ok|apply ns_null]. Qed.
Lemma ns_rd : forall p i, not_stuck (rd p i).
Proof. intros. unfold rd. destruct (nth_error p i); [apply ns_ok|apply ns_oob]. Qed.
Ltac ns := repeat match goal with
  | |- forall _, _ => intro
  | |- not_stuck (let _ := _ in _) => cbv zeta
  | |- not_stuck (if ?b then _ else _) => destruct b
  | |- not_stuck (let '(_, _) := ?x in _) => destruct x
  | |- not_stuck (match ?x with _ => _ end) => destruct x
  | |- not_stuck (bind _ _) => apply ns_bind
  | |- not_stuck (Ok _) => apply ns_ok
  | |- not_stuck (UB NullDeref) => apply ns_null
  | |- not_stuck (UB Overflow) => apply ns_ovf
  | |- not_stuck (c_sprintf _ _) => apply ns_sprintf
  | |- not_stuck (to_int _) => apply ns_int
  | |- not_stuck (mjd2date _) => apply ns_mjd2date
  | |- not_stuck (opt_error _ _ _) => apply ns_error
  | |- not_stuck (chk_int _) => unfold chk_int
  end; auto.
Lemma ns_switch : forall r argv opt val cur p, not_stuck val -> not_stuck cur -> not_stuck (skymap_switch r argv opt val cur p).
Proof. intros r argv opt val cur p Hv Hc. unfold skymap_switch. ns. Qed.
Lemma ns_one : forall r argv i p, not_stuck (one_arg (skymap_switch r argv) argv i p).
Proof.
  intros. unfold one_arg. apply ns_bind; [apply ns_arg|intros a]. apply ns_bind; [apply ns_rd|intros c]. destruct (c =? 45); [|apply ns_ok].
  apply ns_bind; [apply ns_rd|intros o]. apply ns_bind; [apply ns_rd|intros c2]. destruct (if c2 =? 0 then _ else _) as (j, pos).
  apply ns_bind; [|intros [? ?|? ?]; apply ns_ok]. apply ns_switch; (apply ns_bind; [apply ns_arg|intros; apply ns_text]).
Qed.

Theorem ends : forall r argv, Forall no_nul argv -> (forall a, In a argv -> ~ glued_switch a) ->
  forall fuel, (length argv <= fuel)%nat -> command_line r fuel argv <> UB Stuck.
Proof.
  intros r argv Hn Hg fuel Hf. change (not_stuck (command_line r fuel argv)). unfold command_line.
  destruct (length argv <? 2)%nat; [apply ns_bind; [apply ns_sprintf|intros; apply ns_bind; [apply ns_close|intros; apply ns_ok]]|].
  apply ns_bind.
  2:{ intros [p|c o]; [destruct (p_in_geopos p); apply ns_ok|apply ns_ok]. }
  assert (G : forall f i p, (1 <= i)%nat -> (length argv <= f + i)%nat -> not_stuck (opt_loop (skymap_switch r argv) f argv i p)).
  { induction f as [|f IH]; intros i p Hi Hl; cbn [opt_loop]; destruct (Nat.ltb_spec i (length argv)) as [L|L]; try apply ns_ok; [lia|].
    pose proof (ns_one r argv i p) as N. destruct (one_arg (skymap_switch r argv) argv i p) as [[i' p'|c o]|rr] eqn:E; cbn [bind].
    - assert (i < i')%nat by (refine (moves_on r argv i p i' p' L _ Hn Hi E); intros a Ea; apply Hg; eapply nth_error_In; exact Ea).
      apply IH; lia.
    - apply ns_ok.
    - unfold not_stuck in *. congruence. }
  apply G; lia.
Qed.

(** A switch followed by more text in the same argument is read again for ever. *)
Theorem never_ends : forall r prog l a post, Forall (proper r) l -> no_nul a -> glued_switch a ->
  forall fuel, command_line r fuel (prog :: all_written l ++ a :: post) = UB Stuck.
Proof.
  intros r prog l a post Hl Hn (s & c & t & Hc & ->) fuel.
  set (argv := prog :: all_written l ++ (45 :: switch_char s :: c :: t) :: post).
  unfold command_line. replace (length argv <? 2)%nat with false.
  2:{ symmetry. apply Nat.ltb_ge. unfold argv. cbn [length]. rewrite app_length. cbn [length]. lia. }
  assert (G : forall f p, opt_loop (skymap_switch r argv) f argv (length (prog :: all_written l)) p = UB Stuck).
  { induction f as [|f IH]; intros p; cbn [opt_loop].
    - replace (length (prog :: all_written l) <? length argv)%nat with true; [reflexivity|].
      symmetry. apply Nat.ltb_lt. unfold argv. cbn [length]. rewrite app_length. cbn [length]. lia.
    - replace (length (prog :: all_written l) <? length argv)%nat with true.
      2:{ symmetry. apply Nat.ltb_lt. unfold argv. cbn [length]. rewrite app_length. cbn [length]. lia. }
      unfold argv at 2. change (prog :: all_written l ++ (45 :: switch_char s :: c :: t) :: post) with ((prog :: all_written l) ++ (45 :: switch_char s :: c :: t) :: post).
      rewrite one_joined by (inversion Hn; assumption). rewrite switch_applied. cbn [bind].
      replace (S (length (prog :: all_written l) - 1)) with (length (prog :: all_written l)) by (cbn [length]; lia). apply IH. }
  assert (W : forall k pre p f, Forall (proper r) k -> argv = pre ++ all_written k ++ (45 :: switch_char s :: c :: t) :: post ->
    pre ++ all_written k = prog :: all_written l -> opt_loop (skymap_switch r argv) f argv (length pre) p = UB Stuck).
  { induction k as [|x k IH]; intros pre p f Hk E1 E2.
    - unfold all_written in E2 at 1. cbn [map concat] in E2. rewrite app_nil_r in E2. rewrite E2. apply G.
    - inversion Hk as [|? ? Hx Hk']; subst x0 l0. unfold all_written in E1, E2 at 1. cbn [map concat] in E1, E2. fold (all_written k) in E1, E2.
      assert (L : (length pre <? length argv)%nat = true) by (apply Nat.ltb_lt; rewrite E1, !app_length; pose proof (written_pos x); lia).
      destruct f as [|f]; cbn [opt_loop]; rewrite L; [reflexivity|]. rewrite <- app_assoc in E1.
      rewrite (one_piece r pre x _ argv p Hx E1). cbn [bind]. apply IH; [exact Hk'|rewrite <- app_assoc; exact E1|rewrite <- app_assoc; exact E2]. }
  change 1%nat with (length [prog]). rewrite (W l [prog] defaults fuel Hl eq_refl eq_refl). reflexivity.
Qed.
