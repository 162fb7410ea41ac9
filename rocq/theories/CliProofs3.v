(** Proofs about the command line: memory safety of tame argument vectors, ranges after parsing. *)
From Coq Require Import String Ascii ZArith List Bool Lia.
From Flocq Require Import Core IEEE754.BinarySingleNaN.
From Verif Require Import CLib FloatModel CalendarModel IoModel SkymapModel CliModel CliSpec CliProofs1 CliProofs2.
Import ListNotations.
Open Scope Z_scope.

(* ------------------------------------------------------------------ *)
(** ** Length of printed numbers *)
Lemma nat_digits_len : forall n fuel z, 0 <= z < 10 ^ Z.of_nat (S n) -> (length (nat_digits fuel z) <= S n)%nat.
Proof.
  induction n as [|n IH]; intros fuel z H.
  - change (10 ^ Z.of_nat 1) with 10 in H. destruct fuel as [|f]; cbn; [lia|]. destruct (Z.ltb_spec z 10); cbn; lia.
  - destruct fuel as [|f]; cbn [nat_digits length]; [lia|]. destruct (Z.ltb_spec z 10); cbn [length]; [lia|].
    assert (length (nat_digits f (z / 10)) <= S n)%nat; [|lia]. apply IH. split; [apply Z.div_pos; lia|].
    apply Z.div_lt_upper_bound; [lia|]. rewrite (Nat2Z.inj_succ (S n)), Z.pow_succ_r in H by lia. lia.
Qed.
Lemma dec_text_len : forall n z, 0 <= z < 10 ^ Z.of_nat (S n) -> (length (dec_text z) <= S n)%nat.
Proof. intros. unfold dec_text. rewrite rev_length. now apply nat_digits_len. Qed.

Lemma mantissa_small : forall m e, SpecFloat.bounded 53 1024 m e = true -> Z.pos m < 2 ^ 53.
Proof.
  intros m e H. unfold SpecFloat.bounded in H. apply andb_prop in H. destruct H as (H & _).
  unfold SpecFloat.canonical_mantissa, SpecFloat.fexp, SpecFloat.emin in H. apply Zeq_bool_eq in H.
  assert (D : Z.pos (SpecFloat.digits2_pos m) <= 53) by lia.
  rewrite Zpos_digits2_pos in D. destruct (Zdigits_correct radix2 (Z.pos m)) as (_ & B). rewrite Z.abs_eq in B by lia.
  eapply Z.lt_le_trans; [exact B|]. change (2 ^ 53) with (radix_val radix2 ^ 53). apply Z.pow_le_mono_r; [reflexivity|exact D].
Qed.

Lemma half_even_le : forall n d, 0 <= n -> 0 < d -> 0 <= div_half_even n d <= n + 1.
Proof.
  intros n d Hn Hd. unfold div_half_even. cbv zeta. pose proof (Z.div_pos n d Hn Hd).
  assert (n / d <= n) by (apply Z.div_le_upper_bound; nia).
  destruct (_ || _); lia.
Qed.
Lemma scaled_small : forall m e, Z.pos m < 2 ^ 53 -> e <= 100 -> 0 <= scaled 6 (Z.pos m) e < 10 ^ 53.
Proof.
  intros m e Hm He. unfold scaled. change (Z.of_nat 6) with 6. destruct (Z.leb_spec 0 e) as [L|L].
  - assert (0 < 2 ^ e <= 2 ^ 100) by (split; [apply Z.pow_pos_nonneg; lia|apply Z.pow_le_mono_r; lia]).
    split; [lia|]. change (2 ^ 53) with 9007199254740992 in Hm. change (2 ^ 100) with 1267650600228229401496703205376 in *.
    change (10 ^ 6) with 1000000. change (10 ^ 53) with 100000000000000000000000000000000000000000000000000000.
    assert (Z.pos m * 2 ^ e <= 9007199254740992 * 1267650600228229401496703205376) by (apply Z.mul_le_mono_nonneg; lia). lia.
  - assert (0 < 2 ^ (- e)) by (apply Z.pow_pos_nonneg; lia).
    pose proof (half_even_le (Z.pos m * 10 ^ 6) (2 ^ (- e)) ltac:(lia) ltac:(assumption)).
    change (2 ^ 53) with 9007199254740992 in Hm. change (10 ^ 6) with 1000000 in *.
    change (10 ^ 53) with 100000000000000000000000000000000000000000000000000000. lia.
Qed.
Lemma fixed_len : forall n, 0 <= n < 10 ^ 53 -> (length (fixed_text 6 n) <= 54)%nat.
Proof.
  intros n H. unfold fixed_text. cbv zeta. change (10 ^ Z.of_nat 6) with 1000000. rewrite app_length. cbn [length]. rewrite app_length, repeat_length.
  assert (length (dec_text (n / 1000000)) <= 47)%nat.
  { apply dec_text_len. split; [apply Z.div_pos; lia|]. apply Z.div_lt_upper_bound; [lia|]. exact (proj2 H). }
  assert (length (dec_text (n mod 1000000)) <= 6)%nat by (apply dec_text_len; exact (Z.mod_pos_bound n 1000000 eq_refl)). lia.
Qed.
Lemma print_len : forall x, modest x -> (length (print_f 0 6 x) <= 60)%nat.
Proof.
  intros x H. unfold print_f, pad. cbn [Nat.sub repeat app].
  destruct x as [s|s| |s m e Hb]; cbn [modest] in H.
  - destruct s; cbn; lia.
  - destruct s; cbn; lia.
  - cbn; lia.
  - pose proof (fixed_len _ (scaled_small m e (mantissa_small m e Hb) H)) as L. rewrite app_length. destruct s; cbn [length]; lia.
Qed.

(* ------------------------------------------------------------------ *)
(** ** Safety *)
Definition good {A : Type} (x : res A) : Prop := exists a, x = Ok a.
Lemma good_ok : forall (A : Type) (a : A), good (Ok a). Proof. intros A a. now exists a. Qed.
Lemma good_error : forall (S : Type) argv c m, (length m <= 127)%nat -> good (opt_error (S := S) argv c m).
Proof.
  intros. unfold opt_error, c_sprintf. destruct (Nat.leb_spec (Datatypes.S (length m)) 128); [|lia]. cbn [bind]. unfold close_stat. cbn [bind]. eexists. reflexivity.
Qed.
Lemma scan_in : forall r n t k old, (forall t x t', r_scan r t = Some (x, t') -> modest x) -> modest old -> modest (assigned (scan_reals r n t) k old).
Proof.
  intros r n. induction n as [|n IH]; intros t k old H Ho; cbn [scan_reals]; [destruct k; exact Ho|].
  destruct (r_scan r t) as [(x, t')|] eqn:E; [|destruct k; exact Ho]. destruct k as [|k]; [exact (H _ _ _ E)|]. unfold assigned in *. cbn [nth].
  destruct t' as [|c t'']; [destruct k; exact Ho|]. destruct (c =? 44); [apply IH; assumption|destruct k; exact Ho].
Qed.

(** The values kept in [p] that could be printed again. *)
Definition kept (p : params) : Prop := modest (p_lat p) /\ modest (p_ra p) /\ modest (p_de p).

Lemma dec_value_bound : forall t a k, 0 <= a -> 0 <= dec_value a t /\ (a < 10 ^ Z.of_nat k -> dec_value a t < 10 ^ Z.of_nat (k + length t)).
Proof.
  induction t as [|c t IH]; intros a k Ha; cbn [dec_value length].
  - rewrite Nat.add_0_r. tauto.
  - unfold is_digit. destruct (Z.leb_spec 48 c); cbn [andb]; [destruct (Z.leb_spec c 57)|].
    + destruct (IH (a * 10 + (c - 48)) (S k) ltac:(lia)) as (A & B). split; [exact A|]. intros H1.
      replace (k + S (length t))%nat with (S k + length t)%nat by lia. apply B. rewrite Nat2Z.inj_succ, Z.pow_succ_r by lia. lia.
    + split; [lia|]. intros H1. eapply Z.lt_le_trans; [exact H1|]. apply Z.pow_le_mono_r; lia.
    + split; [lia|]. intros H1. eapply Z.lt_le_trans; [exact H1|]. apply Z.pow_le_mono_r; lia.
Qed.
Lemma scan_nat_bound : forall t n, scan_nat t = Some n -> (length t <= 9)%nat -> 0 <= n < 10 ^ 9.
Proof.
  intros t n H L. unfold scan_nat in H. destruct t as [|c t]; [discriminate|]. destruct (is_digit c); [|discriminate].
  assert (E : n = dec_value 0 (c :: t)) by congruence. rewrite E.
  destruct (dec_value_bound (c :: t) 0 0 ltac:(lia)) as (A & B). split; [exact A|].
  eapply Z.lt_le_trans; [apply B; reflexivity|]. apply Z.pow_le_mono_r; lia.
Qed.
Lemma skip_len : forall t, (length (c_skip_space t) <= length t)%nat.
Proof. induction t as [|c t IH]; cbn; [lia|]. destruct (is_space c); cbn; lia. Qed.
Lemma scan_dec_bound : forall t n, scan_dec t = Some n -> fits 10 t -> - 10 ^ 9 < n < 10 ^ 9.
Proof.
  intros t n H F. unfold scan_dec, fits in *. pose proof (skip_len t) as L. destruct (c_skip_space t) as [|c t'] eqn:E; [discriminate|]. cbn [length] in L.
  destruct (c =? 45).
  - destruct (scan_nat t') as [m|] eqn:Em; [|discriminate]. cbn in H. pose proof (scan_nat_bound t' m Em ltac:(lia)). assert (n = - m) by congruence. lia.
  - destruct (c =? 43); [pose proof (scan_nat_bound t' n H ltac:(lia)); lia|]. pose proof (scan_nat_bound (c :: t') n H ltac:(cbn [length]; lia)). lia.
Qed.

Lemma switch_good : forall r argv o val cur p, kept p ->
  (no_value o \/ exists v w, val = Ok v /\ cur = Ok w /\ safe_value r o v /\ fits 93 w) ->
  exists a, skymap_switch r argv o val cur p = Ok a /\ (forall sw p', a = Go sw p' -> kept p').
Proof.
  intros r argv o val cur p (K1 & K2 & K3) H.
  assert (Kp : kept p) by (repeat split; assumption).
  destruct H as [[->|(s & ->)]|(v & w & -> & -> & Hs & Hw)].
  - eexists. split; [reflexivity|]. intros. discriminate.
  - rewrite switch_applied. eexists. split; [reflexivity|]. intros sw p' E. assert (p' = apply_switch s p) by congruence. subst p'. destruct s; exact Kp.
  - destruct Hs as (S1 & S2 & S3 & S4 & S5 & S6 & S7 & S8). unfold skymap_switch. cbn [bind].
    destruct (Z.eqb_spec o 104) as [->|]; [eexists; split; [reflexivity|intros; discriminate]|].
    do 6 (match goal with |- context [if ?a =? ?b then _ else _] => destruct (Z.eqb_spec a b) as [E|] end;
          [eexists; split; [reflexivity|intros ? ? Ea; injection Ea as <- <-; exact Kp]|]).
    destruct (Z.eqb_spec o 97) as [->|].
    { cbv zeta. destruct (if flt _ _ then _ else _) as (lo, hi). eexists. split; [reflexivity|]. intros ? ? Ea. injection Ea as <- <-. exact Kp. }
    destruct (Z.eqb_spec o 100) as [E|].
    { rewrite (sprintf_fits 24 v (S1 E)). eexists. split; [reflexivity|]. intros ? ? Ea. injection Ea as <- <-. exact Kp. }
    destruct (Z.eqb_spec o 68) as [E|].
    { rewrite (sprintf_fits 128 v (S2 E)). eexists. split; [reflexivity|]. intros ? ? Ea. injection Ea as <- <-. exact Kp. }
    destruct (Z.eqb_spec o 105) as [E|].
    { rewrite (sprintf_fits 12 v (S3 E)). eexists. split; [reflexivity|]. intros ? ? Ea. injection Ea as <- <-. exact Kp. }
    destruct (Z.eqb_spec o 106) as [E|].
    { destruct (S5 E) as (t & Et). cbv zeta. rewrite Et. cbn [bind]. rewrite (date_fits _ t Et). eexists. split; [reflexivity|]. intros ? ? Ea. injection Ea as <- <-. exact Kp. }
    destruct (Z.eqb_spec o 108) as [E|].
    { cbv zeta. pose proof (scan_in r 3 v 0 (p_lat p) (S8 (or_introl E)) K1) as M. destruct (_ || _).
      - match goal with |- context [opt_error argv (-1) ?m] => destruct (good_error params argv (-1) m) as (a & Ea) end.
        { rewrite !app_length. pose proof (print_len _ M). cbn [bytes map list_ascii_of_string length]. lia. }
        rewrite Ea. exists a. split; [reflexivity|]. intros sw p' ->. exfalso. exact (opt_error_noGo _ _ _ _ _ _ Ea).
      - eexists. split; [reflexivity|]. intros ? ? Ea. injection Ea as <- <-. split; [exact M|split; [exact K2|exact K3]]. }
    destruct (Z.eqb_spec o 110) as [E|].
    { destruct (scan_dec v) as [nn|] eqn:En.
      - pose proof (scan_dec_bound v nn En (S7 E)) as B. unfold chk_int, in_int, int_min, int_max.
        replace ((-2147483648 <=? nn) && (nn <=? 2147483647)) with true by (symmetry; change (10 ^ 9) with 1000000000 in B; apply andb_true_intro; lia).
        eexists. split; [reflexivity|]. intros ? ? Ea. injection Ea as <- <-. exact Kp.
      - eexists. split; [reflexivity|]. intros ? ? Ea. injection Ea as <- <-. exact Kp. }
    destruct (Z.eqb_spec o 112) as [E|].
    { cbv zeta. pose proof (scan_in r 2 v 0 (p_ra p) (S8 (or_intror E)) K2) as M. pose proof (scan_in r 2 v 1 (p_de p) (S8 (or_intror E)) K3) as M'.
      destruct (_ || _).
      - match goal with |- context [opt_error argv (-1) ?m] => destruct (good_error params argv (-1) m) as (a & Ea) end.
        { rewrite !app_length. pose proof (print_len _ M). cbn [bytes map list_ascii_of_string length]. lia. }
        rewrite Ea. exists a. split; [reflexivity|]. intros sw p' ->. exfalso. exact (opt_error_noGo _ _ _ _ _ _ Ea).
      - destruct (_ || _).
        + match goal with |- context [opt_error argv (-1) ?m] => destruct (good_error params argv (-1) m) as (a & Ea) end.
          { rewrite !app_length. pose proof (print_len _ M'). cbn [bytes map list_ascii_of_string length]. lia. }
          rewrite Ea. exists a. split; [reflexivity|]. intros sw p' ->. exfalso. exact (opt_error_noGo _ _ _ _ _ _ Ea).
        + eexists. split; [reflexivity|]. intros ? ? Ea. injection Ea as <- <-. split; [exact K1|split; [exact M|exact M']]. }
    destruct (Z.eqb_spec o 114) as [E|]; [eexists; split; [reflexivity|intros ? ? Ea; injection Ea as <- <-; exact Kp]|].
    destruct (Z.eqb_spec o 115) as [E|]; [eexists; split; [reflexivity|intros ? ? Ea; injection Ea as <- <-; exact Kp]|].
    destruct (Z.eqb_spec o 83) as [E|].
    { rewrite (sprintf_fits 24 v (S4 E)). eexists. split; [reflexivity|]. intros ? ? Ea. injection Ea as <- <-. exact Kp. }
    destruct (Z.eqb_spec o 116) as [E|].
    { destruct (S6 E) as (nn & En). rewrite En. eexists. split; [reflexivity|]. intros ? ? Ea. injection Ea as <- <-. exact Kp. }
    match goal with |- context [opt_error argv (-2) ?m] => destruct (good_error params argv (-2) m) as (a & Ea) end.
    { rewrite !app_length. unfold fits in Hw. cbn [bytes map list_ascii_of_string length]. lia. }
    rewrite Ea. exists a. split; [reflexivity|]. intros sw p' ->. exfalso. exact (opt_error_noGo _ _ _ _ _ _ Ea).
Qed.

Lemma nth_split2 : forall (A : Type) (l : list A) i a b, nth_error l i = Some a -> nth_error l (S i) = Some b ->
  exists pre post, l = pre ++ a :: b :: post.
Proof.
  intros A l i a b H1 H2. apply nth_error_split in H1. destruct H1 as (pre & post & -> & L). exists pre. destruct post as [|b' post].
  - exfalso. rewrite nth_error_app2 in H2 by lia. replace (S i - length pre)%nat with 1%nat in H2 by lia. discriminate.
  - exists post. rewrite nth_error_app2 in H2 by lia. replace (S i - length pre)%nat with 1%nat in H2 by lia. cbn in H2. congruence.
Qed.
Lemma nth_last : forall (A : Type) (l : list A) i a, nth_error l i = Some a -> nth_error l (S i) = None -> exists pre, l = pre ++ [a].
Proof.
  intros A l i a H1 H2. apply nth_error_split in H1. destruct H1 as (pre & post & -> & L). exists pre. destruct post as [|b post]; [reflexivity|].
  exfalso. rewrite nth_error_app2 in H2 by lia. replace (S i - length pre)%nat with 1%nat in H2 by lia. discriminate.
Qed.

Lemma one_good : forall r prog args i p, tame r args -> kept p -> (i < length args)%nat ->
  exists t, one_arg (skymap_switch r (prog :: args)) (prog :: args) (S i) p = Ok t /\ (forall i' p', t = Again i' p' -> kept p' /\ (1 <= i')%nat).
Proof.
  intros r prog args i p T K Hi. destruct (nth_error args i) as [a|] eqn:E.
  2:{ apply nth_error_None in E. lia. }
  pose proof (nth_error_In _ _ E) as Ia.
  pose proof (proj1 (Forall_forall _ _) (t_nul _ _ T) a Ia) as Na. pose proof (proj1 (Forall_forall _ _) (t_short _ _ T) a Ia) as Fa. cbn beta in Fa.
  unfold one_arg. unfold arg at 1. cbn [nth_error]. rewrite E. cbn [bind].
  destruct a as [|c0 a]; [eexists; split; [reflexivity|intros ? ? Ea; injection Ea as <- <-; split; [exact K|lia]]|].
  cbn [app rd nth_error bind]. unfold rd at 1. cbn [nth_error bind]. destruct (Z.eqb_spec c0 45) as [->|]; [|eexists; split; [reflexivity|intros ? ? Ea; injection Ea as <- <-; split; [exact K|lia]]].
  destruct a as [|o a]; [exfalso; exact (t_dash _ _ T Ia)|]. unfold rd. cbn [app nth_error bind].
  assert (F : forall val cur, (no_value o \/ exists v w, val = Ok v /\ cur = Ok w /\ safe_value r o v /\ fits 93 w) -> forall j,
    exists t, (r0 <- skymap_switch r (prog :: args) o val cur p ;;
      match r0 with Go sw s' => Ok (Again (S (if sw then j - 1 else j)%nat) s') | Leave code out => Ok (Stop code out) end) = Ok t /\
      (forall i' p', t = Again i' p' -> kept p' /\ (1 <= i')%nat)).
  { intros val cur H j. destruct (switch_good r (prog :: args) o val cur p K H) as (x & -> & Hx). cbn [bind]. destruct x as [sw p'|c out].
    - eexists. split; [reflexivity|]. intros i' p'' Ea. injection Ea as <- <-. split; [now apply (Hx sw)|lia].
    - eexists. split; [reflexivity|]. intros. discriminate. }
  destruct a as [|x a].
  - cbn [app nth_error bind]. change (0 =? 0) with true. cbv iota. apply F.
    change (arg (prog :: args) (S (S i))) with (match nth_error args (S i) with Some a => Ok (a ++ [0]) | None => UB NullDeref end).
    destruct (nth_error args (S i)) as [b|] eqn:Eb.
    + right. pose proof (nth_error_In _ _ Eb) as Ib. pose proof (proj1 (Forall_forall _ _) (t_nul _ _ T) b Ib) as Nb.
      pose proof (proj1 (Forall_forall _ _) (t_short _ _ T) b Ib) as Fb. cbn beta in Fb.
      exists b, b. split; [exact (text_of b Nb)|]. split; [exact (text_of b Nb)|]. split; [|exact Fb].
      destruct (nth_split2 _ _ _ _ _ E Eb) as (pre & post & Ep). exact (t_apart _ _ T pre o b post Ep).
    + left. destruct (nth_last _ _ _ _ E Eb) as (pre & Ep). exact (t_last _ _ T pre o Ep).
  - cbn [app nth_error bind]. inversion Na as [|? ? N1 N2]; subst. inversion N2 as [|? ? N3 N4]; subst. inversion N4 as [|? ? N5 N6]; subst.
    destruct (Z.eqb_spec x 0); [congruence|]. cbv iota. apply F. right. exists (x :: a), (45 :: o :: x :: a). unfold arg. cbn [nth_error]. rewrite E.
    split; [exact (text_of (x :: a) N4)|]. split; [exact (text_of (45 :: o :: x :: a) Na)|]. split; [|exact Fa]. apply (t_joined _ _ T o (x :: a) Ia). congruence.
Qed.

Theorem stays_inside : forall r prog args fuel, tame r args ->
  (exists x, command_line r fuel (prog :: args) = Ok x) \/ command_line r fuel (prog :: args) = UB Stuck.
Proof.
  intros r prog args fuel T. unfold command_line. destruct (length (prog :: args) <? 2)%nat; [left; eexists; reflexivity|].
  assert (G : forall f i p, kept p -> (1 <= i)%nat -> good (opt_loop (skymap_switch r (prog :: args)) f (prog :: args) i p) \/
    opt_loop (skymap_switch r (prog :: args)) f (prog :: args) i p = UB Stuck).
  { induction f as [|f IH]; intros i p K Hi; cbn [opt_loop]; destruct (Nat.ltb_spec i (length (prog :: args))) as [L|L];
      [now right|left; apply good_ok| |left; apply good_ok].
    destruct i as [|i]; [lia|]. cbn [length] in L. destruct (one_good r prog args i p T K ltac:(lia)) as (t & -> & Ht). cbn [bind].
    destruct t as [i' p'|c o]; [|left; apply good_ok]. destruct (Ht i' p' eq_refl). now apply IH. }
  destruct (G fuel 1%nat defaults) as [(x & ->)| ->]; [repeat split|lia| |now right].
  left. cbn [bind]. destruct x as [p|c o]; [destruct (p_in_geopos p)|]; eexists; reflexivity.
Qed.

(* ------------------------------------------------------------------ *)
(** ** Ranges *)
Lemma flt_asym : forall x y, flt x y = true -> flt y x = false.
Proof.
  intros x y. unfold flt, Bltb, SpecFloat.SFltb. change (SpecFloat.SFcompare (B2SF x) (B2SF y)) with (Bcompare x y).
  change (SpecFloat.SFcompare (B2SF y) (B2SF x)) with (Bcompare y x). rewrite (Bcompare_swap _ _ x y). destruct (Bcompare x y) as [[]|]; cbn; congruence.
Qed.

Lemma ranges_of : forall p hi lo lat ra de, p_alt_max p = hi -> p_alt_min p = lo -> p_lat p = lat -> p_ra p = ra -> p_de p = de ->
  flt hi lo = false -> flt lat (of_int (-90)) = false -> flt (of_int 90) lat = false -> flt ra (of_int 0) = false -> flt (of_int 360) ra = false ->
  flt de (of_int (-90)) = false -> flt (of_int 90) de = false -> ranges p.
Proof. intros; subst; constructor; assumption. Qed.

Lemma switch_ranges : forall r argv o val cur p sw p', ranges p -> skymap_switch r argv o val cur p = Ok (Go sw p') -> ranges p'.
Proof.
  intros r argv o val cur p sw p' H E. unfold skymap_switch in E.
  assert (R : forall p1, p_alt_max p1 = p_alt_max p -> p_alt_min p1 = p_alt_min p -> p_lat p1 = p_lat p -> p_ra p1 = p_ra p -> p_de p1 = p_de p -> ranges p1).
  { intros p1 E1 E2 E3 E4 E5. destruct H. constructor; rewrite ?E1, ?E2, ?E3, ?E4, ?E5; assumption. }
  repeat match type of E with
         | bind ?m _ = _ => destruct m; cbn [bind] in E; [|discriminate]
         | opt_error _ _ _ = _ => exfalso; exact (opt_error_noGo _ _ _ _ _ _ E)
         | Ok _ = Ok _ => injection E as <- <-
         | (let _ := _ in _) = _ => cbv zeta in E
         | (if flt _ _ || flt _ _ then _ else _) = _ => match type of E with (if ?b then _ else _) = _ => destruct b eqn:? end
         | (let '(_, _) := if flt ?x ?y then _ else _ in _) = _ => destruct (flt x y) eqn:?
         | (if ?b then _ else _) = _ => destruct b
         | match ?x with _ => _ end = _ => destruct x
         end; try discriminate; try (apply R; reflexivity).
  all: repeat match goal with B : (_ || _) = false |- _ => apply orb_false_elim in B; destruct B end; destruct H;
    (eapply ranges_of; [reflexivity|reflexivity|reflexivity|reflexivity|reflexivity|..]); try eassumption.
  now apply flt_asym.
Qed.

Theorem in_ranges : forall r fuel argv p, command_line r fuel argv = Ok (Done p) -> ranges p /\ p_in_geopos p = true.
Proof.
  intros r fuel argv p H. unfold command_line in H. destruct (length argv <? 2)%nat; [discriminate|].
  assert (G : forall f i q, ranges q -> forall q', opt_loop (skymap_switch r argv) f argv i q = Ok (Done q') -> ranges q').
  { induction f as [|f IH]; intros i q Hq q' E; cbn [opt_loop] in E; (destruct (i <? length argv)%nat; [|assert (q' = q) by congruence; subst; exact Hq]); [discriminate|].
    destruct (one_arg _ _ i q) as [[i' q1|c o]|] eqn:E1; cbn [bind] in E; try discriminate. apply (IH i' q1); [|exact E].
    unfold one_arg in E1. destruct (arg argv i); cbn [bind] in E1; [|discriminate]. destruct (rd a 0) as [c|]; cbn [bind] in E1; [|discriminate].
    destruct (c =? 45); [|assert (q1 = q) by congruence; subst; exact Hq].
    destruct (rd a 1) as [o|]; cbn [bind] in E1; [|discriminate]. destruct (rd a 2) as [c2|]; cbn [bind] in E1; [|discriminate].
    destruct (if c2 =? 0 then _ else _) as (j, pos). destruct (skymap_switch _ _ _ _ _ _) as [[sw s'|? ?]|] eqn:Es; cbn [bind] in E1; try discriminate.
    assert (q1 = s') by congruence. subst q1. exact (switch_ranges _ _ _ _ _ _ _ _ Hq Es). }
  destruct (opt_loop (skymap_switch r argv) fuel argv 1 defaults) as [[q|c o]|] eqn:E; cbn [bind] in H; try discriminate.
  destruct (p_in_geopos q) eqn:Eg; [|discriminate]. assert (p = q) by congruence. subst q. split; [|exact Eg].
  assert (R0 : ranges defaults) by (constructor; vm_compute; reflexivity).
  exact (G fuel 1%nat defaults R0 p E).
Qed.
