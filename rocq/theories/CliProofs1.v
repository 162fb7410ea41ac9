(** Proofs about the command line: proper command lines are parsed as asked. *)
From Coq Require Import String Ascii ZArith List Bool Lia.
From Flocq Require Import IEEE754.BinarySingleNaN.
From Verif Require Import CLib FloatModel CalendarModel IoModel SkymapModel CliModel CliSpec.
Import ListNotations.
Open Scope Z_scope.

Lemma text_of : forall t, no_nul t -> c_text (t ++ [0]) = Ok t.
Proof.
  induction t as [|c t IH]; intros H; [reflexivity|]. inversion H as [|? ? Hc Ht]; subst.
  change (c_text ((c :: t) ++ [0])) with (if c =? 0 then Ok [] else x <- c_text (t ++ [0]) ;; Ok (c :: x)).
  destruct (Z.eqb_spec c 0); [lia|]. now rewrite (IH Ht).
Qed.

Lemma arg_at : forall pre a post, arg (pre ++ a :: post) (length pre) = Ok (a ++ [0]).
Proof. intros. unfold arg. rewrite nth_error_app2 by lia. now rewrite Nat.sub_diag. Qed.
Lemma arg_at1 : forall pre a b post, arg (pre ++ a :: b :: post) (S (length pre)) = Ok (b ++ [0]).
Proof.
  intros. replace (pre ++ a :: b :: post) with ((pre ++ [a]) ++ b :: post) by now rewrite <- app_assoc.
  replace (S (length pre)) with (length (pre ++ [a])) by (rewrite app_length; cbn; lia). apply arg_at.
Qed.

Section Shape.
Context {S : Type} (switch : Z -> res (list Z) -> res (list Z) -> S -> res (action S)).

Lemma one_file : forall pre t post s, hd 0 t <> 45 ->
  one_arg switch (pre ++ t :: post) (length pre) s = Ok (Again (Datatypes.S (length pre)) s).
Proof.
  intros. unfold one_arg. rewrite arg_at. cbn [bind]. destruct t as [|c t]; cbn in *; [reflexivity|].
  destruct (Z.eqb_spec c 45); [congruence|reflexivity].
Qed.
Lemma one_bare : forall pre c post s cur,
  one_arg switch (pre ++ [45; c] :: post) (length pre) s =
  (r <- switch c (b <- arg (pre ++ [45; c] :: post) (Datatypes.S (length pre)) ;; c_text (adv b 0))
                 (b <- arg (pre ++ [45; c] :: post) (Datatypes.S (length pre)) ;; c_text b) s ;;
   match r with
   | Go sw s' => Ok (Again (Datatypes.S (if sw then Datatypes.S (length pre) - 1 else Datatypes.S (length pre))%nat) s')
   | Leave code out => Ok (Stop code out)
   end) /\ cur = cur :> unit.
Proof. intros. split; [|reflexivity]. unfold one_arg at 1. rewrite arg_at. reflexivity. Qed.
Lemma one_joined : forall pre c x v post s, no_nul (c :: x :: v) ->
  one_arg switch (pre ++ (45 :: c :: x :: v) :: post) (length pre) s =
  (r <- switch c (Ok (x :: v)) (Ok (45 :: c :: x :: v)) s ;;
   match r with
   | Go sw s' => Ok (Again (Datatypes.S (if sw then length pre - 1 else length pre)%nat) s')
   | Leave code out => Ok (Stop code out)
   end).
Proof.
  intros * H. inversion H as [|? ? H1 H2]; subst. inversion H2 as [|? ? H3 H4]; subst.
  unfold one_arg at 1. rewrite arg_at. cbn [bind app rd nth_error]. change (45 =? 45) with true. cbv iota.
  destruct (Z.eqb_spec x 0); [congruence|]. cbv iota. rewrite arg_at. cbn [bind].
  change (adv ((45 :: c :: x :: v) ++ [0]) 2) with ((x :: v) ++ [0]).
  rewrite (text_of (x :: v)) by exact H2. rewrite (text_of (45 :: c :: x :: v)); [reflexivity|].
  constructor; [lia|exact H].
Qed.
Lemma one_apart : forall pre c v post s, no_nul v ->
  one_arg switch (pre ++ [45; c] :: v :: post) (length pre) s =
  (r <- switch c (Ok v) (Ok v) s ;;
   match r with
   | Go sw s' => Ok (Again (Datatypes.S (if sw then Datatypes.S (length pre) - 1 else Datatypes.S (length pre))%nat) s')
   | Leave code out => Ok (Stop code out)
   end).
Proof.
  intros * H. rewrite (proj1 (one_bare pre c (v :: post) s tt)). rewrite arg_at1. cbn [bind].
  change (adv (v ++ [0]) 0) with (v ++ [0]). now rewrite (text_of v H).
Qed.

Lemma loop_step : forall f argv i s, (i < length argv)%nat ->
  opt_loop switch (Datatypes.S f) argv i s =
  (t <- one_arg switch argv i s ;; match t with Again i' s' => opt_loop switch f argv i' s' | Stop code out => Ok (Exit code out) end).
Proof. intros. cbn [opt_loop]. destruct (Nat.ltb_spec i (length argv)); [reflexivity|lia]. Qed.
Lemma loop_end : forall f argv s, opt_loop switch f argv (length argv) s = Ok (Done s).
Proof. intros. destruct f; cbn [opt_loop]; now rewrite Nat.ltb_irrefl. Qed.
End Shape.

(* ------------------------------------------------------------------ *)
(** ** One option *)
Definition apply_switch (s : switch_) (p : params) : params :=
  match s with
  | SwE => set_geoloc true (set_georef true p) | SwG => set_geoloc true p | SwH => set_haversine true p
  | SwI => set_info_only true p | SwT => set_deftledir true p | SwV => set_sunlit_only true p
  end.
Definition apply_option (o : option_) (p : params) : params :=
  match o with
  | Altitudes x y => let '(lo, hi) := if flt y x then (y, x) else (x, y) in
                     set_geoloc true (set_altrng true (set_alt_min lo (set_alt_max hi p)))
  | Date t => set_mjd (snd (date2mjd_nf t)) (set_date t p)
  | Directory t => set_deftledir false (set_tle_path t p)
  | Designator t => set_in_region false (set_altrng false (set_single_i true (set_intl_desig t p)))
  | Mjd x t => set_date t (set_mjd x p)
  | Location lat lon ht => set_in_geopos true (set_lat lat (set_lon (if flt lon (of_int 0) then fadd lon (of_int 360) else lon) (set_ht ht p)))
  | MaxSats n => set_max_sats n p
  | Region ra de => set_in_region true (set_ra ra (set_de de p))
  | Radius x => set_radius x p
  | Number n => set_in_region false (set_altrng false (set_single_n true (set_norad_n n p)))
  | Name t => set_satname_filter true (set_satname t p)
  | Step n => set_delta_time n p
  end.
Definition apply_piece (k : piece) (p : params) : params :=
  match k with File _ => p | Switch s => apply_switch s p | Joined _ o | Apart _ o => apply_option o p end.

Lemma scan2 : forall r t x y, numbers r t [x; y] -> scan_reals r 2 t = [x; y].
Proof.
  intros r t x y H. inversion H as [|? ? t' ? H1 H2]; subst. inversion H2 as [? ? t'' H3 H4|? ? ? ? ? H5]; subst; [|inversion H5].
  cbn [scan_reals]. rewrite H1. change (44 =? 44) with true. cbv iota. rewrite H3. destruct t'' as [|c t'']; [reflexivity|]. now destruct (c =? 44).
Qed.
Lemma scan3 : forall r t x y z, numbers r t [x; y; z] -> scan_reals r 3 t = [x; y; z].
Proof.
  intros r t x y z H. inversion H as [|? ? t' ? H1 H2]; subst. pose proof (scan2 r t' y z H2) as E.
  change (scan_reals r 3 t) with
    (match r_scan r t with None => [] | Some (x, t') => x :: match t' with c :: t'' => if c =? 44 then scan_reals r 2 t'' else [] | [] => [] end end).
  rewrite H1. change (44 =? 44) with true. cbv iota. now rewrite E.
Qed.
Lemma digits_value : forall t a, Forall (fun c => 48 <= c <= 57) t -> dec_value a t = fold_left (fun a c => 10 * a + (c - 48)) t a.
Proof.
  induction t as [|c t IH]; intros a H; [reflexivity|]. inversion H as [|? ? Hc Ht]; subst. cbn [dec_value fold_left].
  unfold is_digit. replace ((48 <=? c) && (c <=? 57)) with true by (symmetry; apply andb_true_intro; lia).
  rewrite IH by exact Ht. f_equal. lia.
Qed.
Lemma digits_nonneg : forall t a, 0 <= a -> Forall (fun c => 48 <= c <= 57) t -> 0 <= fold_left (fun a c => 10 * a + (c - 48)) t a.
Proof. induction t as [|c t IH]; intros a Ha H; [exact Ha|]. inversion H; subst. cbn [fold_left]. apply IH; [lia|assumption]. Qed.
Lemma scan_decimal : forall t n, decimal t n -> scan_dec t = Some n /\ 0 <= n < 2147483648.
Proof.
  intros t n (H1 & H2 & H3 & H4). split; [|split; [subst n; now apply digits_nonneg|exact H4]].
  destruct t as [|c t]; [congruence|]. pose proof H2 as H2'. inversion H2 as [|? ? Hc Ht]; subst.
  assert (E : scan_nat (c :: t) = Some (fold_left (fun a c => 10 * a + (c - 48)) (c :: t) 0)).
  { unfold scan_nat, is_digit. replace ((48 <=? c) && (c <=? 57)) with true by (symmetry; apply andb_true_intro; lia).
    now rewrite digits_value. }
  unfold scan_dec. cbn [c_skip_space]. unfold is_space.
  replace ((c =? 32) || (9 <=? c) && (c <=? 13)) with false by (destruct (Z.eqb_spec c 32); [lia|]; destruct (Z.leb_spec c 13); [lia|]; now rewrite andb_false_r).
  destruct (Z.eqb_spec c 45); [lia|]. destruct (Z.eqb_spec c 43); [lia|]. exact E.
Qed.
Lemma sprintf_fits : forall cap t, fits (Z.of_nat cap) t -> c_sprintf cap t = Ok t.
Proof. intros cap t H. unfold c_sprintf, fits in *. destruct (Nat.leb_spec (S (length t)) cap); [reflexivity|lia]. Qed.

Lemma date_fits : forall x t, mjd2date x = Ok (Some t) -> c_sprintf 24 t = Ok t.
Proof.
  intros x t H. unfold mjd2date in H. destruct (mjd_split x) as [[[jd f]|]|]; cbn [bind] in H; try discriminate.
  destruct (gregorian jd) as ((y, m), d). destruct (clock f) as [[[h mm] s]|]; cbn [bind] in H; try discriminate. cbv zeta in H.
  destruct (Nat.ltb_spec (length (print_date y m d h mm s)) 20) as [L|L]; [|discriminate].
  assert (t = print_date y m d h mm s) by congruence. subst t. apply sprintf_fits. unfold fits. lia.
Qed.

Lemma option_applied : forall r argv v o cur p, means r v o ->
  skymap_switch r argv (option_char o) (Ok v) cur p = Ok (Go false (apply_option o p)).
Proof.
  intros r argv v o cur p H. destruct o; cbn [option_char means apply_option] in *; unfold skymap_switch;
    cbn [Z.eqb Pos.eqb bind].
  - rewrite (scan2 r v x y H). cbn [assigned nth]. destruct (flt y x); reflexivity.
  - destruct H as (-> & H). rewrite (sprintf_fits 24 t H). reflexivity.
  - destruct H as (-> & H). rewrite (sprintf_fits 128 t H). reflexivity.
  - destruct H as (-> & H). rewrite (sprintf_fits 12 t H). reflexivity.
  - destruct H as (-> & H). rewrite H. cbn [bind]. now rewrite (date_fits x t H).
  - destruct H as (H & H1 & H2). rewrite (scan3 r v lat lon ht H). unfold assigned. cbn [nth]. rewrite H1, H2. reflexivity.
  - destruct (scan_decimal v n H) as (-> & B). unfold chk_int, in_int, int_min, int_max.
    replace ((-2147483648 <=? n) && (n <=? 2147483647)) with true by (symmetry; apply andb_true_intro; lia). reflexivity.
  - destruct H as (H & H1 & H2 & H3 & H4). rewrite (scan2 r v ra de H). unfold assigned. cbn [nth]. rewrite H1, H2, H3, H4. reflexivity.
  - now rewrite H.
  - unfold strtol, wrap_int. destruct (scan_decimal v n H) as (-> & B).
    replace (Z.max (- long_max - 1) (Z.min long_max n)) with n by (unfold long_max; lia).
    replace ((n + 2147483648) mod 4294967296 - 2147483648) with n; [reflexivity|].
    rewrite Z.mod_small by lia. lia.
  - destruct H as (-> & H). rewrite (sprintf_fits 24 t H). reflexivity.
  - rewrite H. reflexivity.
Qed.
Lemma switch_applied : forall r argv s val cur p,
  skymap_switch r argv (switch_char s) val cur p = Ok (Go true (apply_switch s p)).
Proof. intros. destruct s; reflexivity. Qed.

(* ------------------------------------------------------------------ *)
(** ** All options *)
Definition all_written (l : list piece) : list (list Z) := concat (map written l).

Lemma option_char_nz : forall o, option_char o <> 0.
Proof. now destruct o. Qed.

Lemma one_piece : forall r pre k post argv p, proper r k -> argv = pre ++ written k ++ post ->
  one_arg (skymap_switch r argv) argv (length pre) p = Ok (Again (length (pre ++ written k)) (apply_piece k p)).
Proof.
  intros r pre k post argv p H E. rewrite app_length. destruct k; cbn [written app proper apply_piece length] in *.
  - destruct H as (_ & H). rewrite E at 2. rewrite one_file by exact H. now rewrite Nat.add_1_r.
  - rewrite E at 2. rewrite (proj1 (one_bare _ pre _ post p tt)). rewrite switch_applied. cbn [bind]. do 2 f_equal. lia.
  - destruct H as (H1 & H2 & H3). destruct v as [|x v]; [congruence|]. rewrite E at 2.
    rewrite one_joined by (constructor; [apply option_char_nz|exact H1]). rewrite option_applied by exact H3. cbn [bind]. do 2 f_equal. lia.
  - destruct H as (H1 & H3). rewrite E at 2. rewrite one_apart by exact H1. rewrite option_applied by exact H3. cbn [bind]. do 2 f_equal. lia.
Qed.

Lemma written_pos : forall k, (0 < length (written k))%nat.
Proof. destruct k; cbn; lia. Qed.

Lemma pieces_then : forall r l f argv pre post p, Forall (proper r) l -> argv = pre ++ all_written l ++ post ->
  opt_loop (skymap_switch r argv) (length l + f) argv (length pre) p =
  opt_loop (skymap_switch r argv) f argv (length (pre ++ all_written l)) (fold_left (fun p k => apply_piece k p) l p).
Proof.
  intros r l. induction l as [|k l IH]; intros f argv pre post p H E.
  - unfold all_written. cbn. now rewrite app_nil_r.
  - inversion H as [|? ? Hk Hl]; subst x l0. unfold all_written in E. cbn [map concat] in E. fold (all_written l) in E. rewrite <- app_assoc in E.
    cbn [length Nat.add]. rewrite loop_step by (rewrite E, !app_length; pose proof (written_pos k); lia).
    rewrite (one_piece r pre k (all_written l ++ post) argv p Hk E). cbn [bind].
    rewrite (IH f argv (pre ++ written k) post _ Hl) by (rewrite <- app_assoc; exact E).
    unfold all_written. cbn [map concat fold_left]. fold (all_written l). now rewrite app_assoc.
Qed.

Lemma more_fuel : forall (S : Type) sw f argv i (s : S) x, opt_loop sw f argv i s = Ok x -> forall g, (f <= g)%nat -> opt_loop sw g argv i s = Ok x.
Proof.
  intros S sw. induction f as [|f IH]; intros argv i s x H g Hg.
  - cbn [opt_loop] in H. destruct g; cbn [opt_loop]; destruct (i <? length argv)%nat; (discriminate || assumption).
  - destruct g as [|g]; [lia|]. cbn [opt_loop] in *. destruct (i <? length argv)%nat; [|exact H].
    destruct (one_arg sw argv i s) as [[i' s'|c o]|]; cbn [bind] in *; try assumption. apply IH; [exact H|lia].
Qed.

Lemma pieces_length : forall l, (length l <= length (all_written l))%nat.
Proof.
  induction l as [|k l IH]; [apply Nat.le_0_l|]. unfold all_written in *. cbn [map concat length]. rewrite app_length. pose proof (written_pos k). lia.
Qed.

Theorem parsed_pieces : forall r prog l fuel, Forall (proper r) l -> (length (all_written l) <= fuel)%nat ->
  opt_loop (skymap_switch r (prog :: all_written l)) fuel (prog :: all_written l) 1 defaults =
  Ok (Done (fold_left (fun p k => apply_piece k p) l defaults)).
Proof.
  intros r prog l fuel H Hf. refine (more_fuel _ _ (length l) _ _ _ _ _ fuel _).
  2:{ pose proof (pieces_length l). eapply Nat.le_trans; eassumption. }
  pose proof (pieces_then r l 0 (prog :: all_written l) [prog] [] defaults H) as E. rewrite Nat.add_0_r in E.
  change (length [prog]) with 1%nat in E. rewrite E by (rewrite app_nil_r; reflexivity). apply loop_end.
Qed.
