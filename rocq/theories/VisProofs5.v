(** The accepted ranges are within 2^30 days; steps that make no progress. *)
From Coq Require Import String Ascii ZArith List Bool Lia Reals Lra.
From Flocq Require Import Core IEEE754.BinarySingleNaN.
From Verif Require Import CLib FloatModel FloatLemmas CalendarModel CalendarProofs2 CalendarProofs3 CalendarProofs5 CalendarProofs6 TleModel IoModel SkymapModel CliModel CliProofs2 VisCliModel VisModel VisSpec VisProofs1 VisProofs2 VisProofs3 VisProofs4.
Import ListNotations.
Open Scope R_scope.

(** ** Bounded doubles *)
Lemma bnd_le : forall e e' x, (e <= e')%Z -> bnd e x -> bnd e' x.
Proof. intros e e' x H (F & B). split; [exact F|]. eapply Rle_trans; [exact B|]. now apply bpow_le. Qed.
Lemma bnd_add : forall e x y, (-1000 <= e <= 900)%Z -> bnd e x -> bnd e y -> bnd (e + 1) (fadd x y).
Proof.
  intros e x y He (Fx & Bx) (Fy & By). assert (K: Rabs (toR x + toR y) <= bpow radix2 (e + 1)).
  { rewrite bpow_plus. change (bpow radix2 1) with 2. apply Rabs_le_inv in Bx, By. apply Rabs_le. lra. }
  destruct (fadd_R x y (e + 1) Fx Fy ltac:(lia) K) as (F & E). split; [exact F|]. rewrite E. apply RN_abs_le; [lia|exact K].
Qed.
Lemma bnd_sub : forall e x y, (-1000 <= e <= 900)%Z -> bnd e x -> bnd e y -> bnd (e + 1) (fsub x y).
Proof.
  intros e x y He (Fx & Bx) (Fy & By). assert (K: Rabs (toR x - toR y) <= bpow radix2 (e + 1)).
  { rewrite bpow_plus. change (bpow radix2 1) with 2. apply Rabs_le_inv in Bx, By. apply Rabs_le. lra. }
  destruct (fsub_R x y (e + 1) Fx Fy ltac:(lia) K) as (F & E). split; [exact F|]. rewrite E. apply RN_abs_le; [lia|exact K].
Qed.
Lemma bnd_mul : forall d e x y, (-500 <= d <= 400)%Z -> (-500 <= e <= 400)%Z -> bnd d x -> bnd e y -> bnd (d + e) (fmul x y).
Proof.
  intros d e x y Hd He (Fx & Bx) (Fy & By). assert (K: Rabs (toR x * toR y) <= bpow radix2 (d + e)).
  { rewrite bpow_plus, Rabs_mult. apply Rmult_le_compat; try apply Rabs_pos; assumption. }
  destruct (fmul_R x y (d + e) Fx Fy ltac:(lia) K) as (F & E). split; [exact F|]. rewrite E. apply RN_abs_le; [lia|exact K].
Qed.
Lemma bnd_floor : forall e x, (0 <= e)%Z -> bnd e x -> bnd e (ffloor x).
Proof.
  intros e x He (Fx & Bx). destruct (ffloor_R x Fx) as (F & E). split; [exact F|]. rewrite E. apply Rabs_le_inv in Bx.
  rewrite <- (IZR_Zpower radix2 e He) in *. apply Rabs_le. split.
  - rewrite <- opp_IZR in *. apply IZR_le. apply Zfloor_lub. lra.
  - eapply Rle_trans; [apply Zfloor_lb|]. lra.
Qed.
Lemma bnd_int : forall e z, (0 <= e <= 53)%Z -> (Z.abs z <= 2 ^ e)%Z -> bnd e (of_int z).
Proof.
  intros e z He Hz. assert (Hp: (2 ^ e <= 2 ^ 53)%Z) by (apply Z.pow_le_mono_r; lia). destruct (of_int_R z ltac:(lia)) as (F & E). split; [exact F|]. rewrite E, <- abs_IZR, <- (IZR_Zpower radix2 e) by lia. apply IZR_le. exact Hz.
Qed.

(** ** Dates *)
Lemma digits_bound : forall w acc p v r, scan_digits w acc p = (v, r) -> (0 <= acc)%Z -> (0 <= v < (acc + 1) * 10 ^ Z.of_nat w)%Z.
Proof.
  induction w as [|w IH]; intros acc p v r H Ha.
  - cbn in H. assert (v = acc) by (destruct p; congruence). subst v. cbn. lia.
  - cbn [scan_digits] in H. rewrite Nat2Z.inj_succ, Z.pow_succ_r by lia. assert (P: (0 < 10 ^ Z.of_nat w)%Z) by (apply Z.pow_pos_nonneg; lia).
    destruct p as [|c p]; [injection H as <- <-; nia|]. destruct (is_digit c) eqn:Ed; [|injection H as <- <-; nia].
    assert (48 <= c <= 57)%Z by (unfold is_digit in Ed; lia). destruct (IH _ _ _ _ H ltac:(lia)). nia.
Qed.
Lemma unsigned_bound : forall w p v r, scan_unsigned w p = Some (v, r) -> (0 <= v < 10 ^ Z.of_nat w)%Z.
Proof.
  intros w p v r H. unfold scan_unsigned in H. destruct w as [|w]; [discriminate|]. destruct p as [|c p]; [discriminate|]. destruct (is_digit c); [|discriminate].
  destruct (scan_digits (S w) 0 (c :: p)) as (v', r') eqn:E. assert (v' = v) by congruence. subst v'. pose proof (digits_bound _ _ _ _ _ E ltac:(lia)). lia.
Qed.
Lemma int_bound : forall w p v r, (1 <= w)%nat -> scan_int w p = Some (v, r) -> (- 10 ^ Z.of_nat w < v < 10 ^ Z.of_nat w)%Z.
Proof.
  intros w p v r Hw H. unfold scan_int in H. destruct (c_skip_space p) as [|c t]; [discriminate|].
  assert (P: (10 ^ Z.of_nat (Nat.pred w) <= 10 ^ Z.of_nat w)%Z) by (apply Z.pow_le_mono_r; lia).
  assert (P': (0 < 10 ^ Z.of_nat w)%Z) by (apply Z.pow_pos_nonneg; lia).
  destruct (c =? 45)%Z.
  - destruct (scan_unsigned (Nat.pred w) t) as [(x, q)|] eqn:E; [|discriminate]. apply unsigned_bound in E. assert (v = - x)%Z by congruence. lia.
  - destruct (c =? 43)%Z; apply unsigned_bound in H; lia.
Qed.
Lemma date_bound : forall t y m d h mm s, scan_date t = Some (y, m, d, h, mm, s) ->
  (-10000 < y < 10000 /\ -100 < m < 100 /\ -100 < d < 100 /\ -100 < h < 100 /\ -100 < mm < 100 /\ -100 < s < 100)%Z.
Proof.
  intros t y m d h mm s H. unfold scan_date in H.
  repeat match type of H with
  | match scan_int ?w ?p with _ => _ end = _ => let E := fresh "E" in destruct (scan_int w p) as [(?, ?)|] eqn:E; [apply int_bound in E; [|lia]; cbn in E|discriminate H]
  | match scan_char ?c ?p with _ => _ end = _ => destruct (scan_char c p); [|discriminate H]
  end. injection H as <- <- <- <- <- <-. lia.
Qed.
Lemma lit_bnd : forall n d e, (Z.abs n <= 2 ^ 53)%Z -> (0 < d <= 2 ^ 53)%Z -> (0 <= e <= 900)%Z -> Rabs (IZR n / IZR d) <= bpow radix2 e -> bnd e (lit n d).
Proof. intros n d e Hn Hd He B. destruct (lit_R n d e Hn Hd ltac:(lia) B) as (F & E). split; [exact F|]. rewrite E. apply RN_abs_le; [lia|exact B]. Qed.
Lemma jd_bound : forall y m d, (-10000 < y < 10000)%Z -> (-100 < m < 100)%Z -> (-100 < d < 100)%Z -> bnd 27 (jd_of_date y m d).
Proof.
  intros y m d Hy Hm Hd. unfold jd_of_date. destruct (if (m <=? 2)%Z then _ else _) as (y', m') eqn:E.
  assert (B: (-10001 < y' < 10000 /\ -100 < m' < 112)%Z) by (destruct (Z.leb_spec m 2); assert (H1: y' = (y - 1)%Z \/ y' = y) by (first [left; congruence|right; congruence]); assert (m' = (m + 12)%Z \/ m' = m) by (first [left; congruence|right; congruence]); injection E; lia). destruct B as (By & Bm). cbv zeta.
  assert (Bb: (Z.abs (2 - Z.quot y' 100 + Z.quot (Z.quot y' 100) 4) <= 2 ^ 23)%Z) by (pose proof (Z.quot_abs y' 100 ltac:(lia)); Z.quot_rem_to_equations; lia).
  assert (A1: bnd 24 (fadd (of_int (2 - Z.quot y' 100 + Z.quot (Z.quot y' 100) 4)) (ffloor (fmul (lit 36525 100) (of_int y'))))).
  { apply (bnd_add 23); [lia|apply bnd_int; lia|]. apply bnd_floor; [lia|]. apply (bnd_mul 9 14); try lia; [|apply bnd_int; lia]. apply lit_bnd; try lia. rewrite Rabs_pos_eq by lra. change (bpow radix2 9) with 512. lra. }
  assert (A2: bnd 25 (fadd (fadd (of_int (2 - Z.quot y' 100 + Z.quot (Z.quot y' 100) 4)) (ffloor (fmul (lit 36525 100) (of_int y')))) (ffloor (fmul (lit 306001 10000) (of_int (m' + 1)))))).
  { apply (bnd_add 24); [lia|exact A1|]. apply bnd_floor; [lia|]. apply (bnd_le (5 + 7)); [lia|]. apply (bnd_mul 5 7); try lia; [|apply bnd_int; lia]. apply lit_bnd; try lia. rewrite Rabs_pos_eq by lra. change (bpow radix2 5) with 32. lra. }
  apply (bnd_add 26); [lia| |].
  - apply (bnd_add 25); [lia|exact A2|]. apply bnd_int; lia.
  - apply lit_bnd; try lia. rewrite Rabs_pos_eq by lra. change (bpow radix2 26) with 67108864. lra.
Qed.

Lemma fraction_bound : forall h mm s, (-100 < h < 100)%Z -> (-100 < mm < 100)%Z -> (-100 < s < 100)%Z -> bnd 10 (widen (day_fraction h mm s)).
Proof.
  intros h mm s Hh Hm Hs. unfold day_fraction. set (z := (s + 60 * (mm + 60 * h))%Z). assert (Bz: (Z.abs z < 2 ^ 19)%Z) by (unfold z; lia).
  destruct (of_int_R z ltac:(lia)) as (Fz & Ez). destruct (of_int_R 86400 ltac:(lia)) as (F8 & E8). assert (Cz: -524288 <= IZR z <= 524288) by (split; apply IZR_le; lia).
  destruct (fdiv_R (of_int z) (of_int 86400) 3) as (G & W); [exact Fz|rewrite E8; lra|lia| |].
  { rewrite Ez, E8. change (bpow radix2 3) with 8. apply Rabs_le. lra. }
  assert (Bq: bnd 3 (fdiv (of_int z) (of_int 86400))). { split; [exact G|]. rewrite W. apply RN_abs_le; [lia|]. rewrite Ez, E8. change (bpow radix2 3) with 8. apply Rabs_le. lra. }
  assert (Bp: bnd (3 + 17) (fmul (fdiv (of_int z) (of_int 86400)) (of_int 100000))) by (apply bnd_mul; [lia|lia|exact Bq|apply bnd_int; lia]).
  destruct Bp as (Fp & Bp). destruct (narrow_R _ 20 Fp ltac:(lia) Bp) as (Fn & En).
  assert (Bn: Rabs (toR32 (narrow (fmul (fdiv (of_int z) (of_int 86400)) (of_int 100000)))) <= 2097152).
  { rewrite En. pose proof (RN32_err _ 20 ltac:(lia) Bp) as K. change (bpow radix2 (3 + 17)) with 1048576 in Bp. change (bpow radix2 (20 - 25)) with (/ 32) in K. apply Rabs_le_inv in Bp, K. apply Rabs_le. lra. }
  destruct (froundf_R _ Fn) as (Fr & Er). destruct (of_int32_R 100000 ltac:(lia)) as (F1 & E1).
  set (x := toR32 (narrow _)) in *. assert (Br: Rabs (IZR (ZnearestA x)) <= 2097153).
  { pose proof (Znearest_half (Z.leb 0) x) as K. apply Rabs_le_inv in Bn, K. apply Rabs_le. fold (ZnearestA x) in K. lra. }
  destruct (fdiv32_R (froundf (narrow (fmul (fdiv (of_int z) (of_int 86400)) (of_int 100000)))) (of_int32 100000) 5) as (Fd & Ed); [exact Fr|rewrite E1; lra|lia| |].
  { rewrite Er, E1. change (bpow radix2 5) with 32. apply Rabs_le_inv in Br. apply Rabs_le. lra. }
  destruct (widen_R _ Fd) as (Fw & Ew). split; [exact Fw|]. rewrite Ew, Ed, Er, E1.
  assert (K: Rabs (IZR (ZnearestA x) / 100000) <= bpow radix2 5). { change (bpow radix2 5) with 32. apply Rabs_le_inv in Br. apply Rabs_le. lra. }
  pose proof (RN32_err _ 5 ltac:(lia) K) as K'. change (bpow radix2 5) with 32 in K. change (bpow radix2 (5 - 25)) with (/ 1048576) in K'. change (bpow radix2 10) with 1024. apply Rabs_le_inv in K, K'. apply Rabs_le. lra.
Qed.
Lemma jdoff_bnd : bnd 22 JD_OFF.
Proof. destruct lit_JD as (F & _). split; [exact F|]. rewrite JD_OFF_val. change (bpow radix2 22) with 4194304. apply Rabs_le. lra. Qed.
Lemma date_days : forall t, bnd 30 (fadd JD_OFF (snd (date2mjd_nf t))).
Proof.
  intro t. apply (bnd_add 29); [lia|apply (bnd_le 22); [lia|exact jdoff_bnd]|]. unfold date2mjd_nf. destruct (scan_date t) as [(((((y, m), d), h), mm), s)|] eqn:E; cbn [snd].
  - apply date_bound in E. apply (bnd_sub 28); [lia| |apply (bnd_le 22); [lia|exact jdoff_bnd]].
    apply (bnd_add 27); [lia|apply jd_bound; lia|]. apply (bnd_le 10); [lia|]. apply fraction_bound; lia.
  - apply bnd_int; lia.
Qed.
Lemma djmin_R : fin DJMIN /\ toR DJMIN = -68569.5.
Proof.
  assert (E: DJMIN = dbl (-137139) (-1)) by (apply b64_eq; vm_compute; reflexivity). rewrite E. destruct (dbl_R (-137139) (-1) ltac:(lia) ltac:(lia)) as (F & V).
  split; [exact F|]. rewrite V. change (bpow radix2 (-1)) with (/ 2). lra.
Qed.
Lemma mjd_days : forall x d, mjd2date x = Ok (Some d) -> bnd 30 (fadd JD_OFF x).
Proof.
  intros x d H. assert (N: ~ (flt (fadd JD_OFF x) DJMIN = true \/ flt DJMAX (fadd JD_OFF x) = true)).
  { intro K. apply mjd2date_null in K. congruence. }
  apply Decidable.not_or in N; destruct N as (N1 & N2). apply not_true_is_false in N1, N2.
  assert (F: fin (fadd JD_OFF x)).
  { destruct x as [s|s| |s m c Hb].
    - destruct s; vm_compute; reflexivity.
    - destruct s; vm_compute in N1, N2; discriminate.
    - vm_compute in H. discriminate.
    - pose proof (Bplus_correct 53 1024 prec64_gt0 prec64_lt mode_NE JD_OFF (B754_finite s m c Hb) (proj1 lit_JD) eq_refl) as C.
      destruct (Rlt_bool _ _); [exact (proj1 (proj2 C))|]. destruct C as (C & _). unfold fadd in *. destruct (Bplus mode_NE JD_OFF (B754_finite s m c Hb)) as [u|u| |u m' c' Hb']; try discriminate C.
      exfalso. destruct u; vm_compute in N1, N2; discriminate. }
  destruct djmin_R as (Fm & Em). destruct (of_int_R 1000000000 ltac:(lia)) as (Fx & Ex). fold DJMAX in Fx, Ex.
  apply flt_false in N1, N2; [|assumption..]. split; [exact F|]. change (bpow radix2 30) with 1073741824. apply Rabs_le. lra.
Qed.

(** ** What the command line lets through *)
Record orderly (p : vparams) : Prop := {
  o_begin : bnd 30 (range_begin p);
  o_end : bnd 30 (range_end p);
  o_step : (-2147483648 <= v_delta_time p <= 2147483647)%Z }.
Lemma orderly_like : forall p q, orderly p -> v_mjd0 q = v_mjd0 p -> v_mjd1 q = v_mjd1 p -> v_delta_time q = v_delta_time p -> orderly q.
Proof. intros p q [A B C] E1 E2 E3. constructor; unfold range_begin, range_end; rewrite ?E1, ?E2, ?E3; assumption. Qed.
Lemma date_of_days : forall x d, date_of x = Ok d -> bnd 30 (fadd JD_OFF x).
Proof. intros x d H. unfold date_of in H. step H. destruct a as [a|]; [|discriminate]. exact (mjd_days _ _ E). Qed.
Lemma to_int_int : forall x v, to_int x = Ok v -> (-2147483648 <= v <= 2147483647)%Z.
Proof. intros x v H. unfold to_int, chk_int, in_int in H. destruct (is_finite x); [|discriminate]. destruct (_ && _) eqn:E; [|discriminate]. apply ok_eq in H. unfold int_min, int_max in E. lia. Qed.
Lemma vis_error_noGo : forall (S : Type) argv c m sw (s : S), vis_error argv c m = Ok (Go sw s) -> False.
Proof. intros S argv c m sw s H. unfold vis_error in H. step H. step H. discriminate. Qed.
Lemma switch_orderly : forall r argv o val cur p sw p', orderly p -> vis_switch r argv o val cur p = Ok (Go sw p') -> orderly p'.
Proof.
  intros r argv o val cur p sw p' H E. unfold vis_switch in E.
  repeat match type of E with
         | bind ?m _ = _ => let K := fresh "K" in destruct m eqn:K; cbn [bind] in E; [|discriminate]
         | vis_error _ _ _ = _ => exfalso; exact (vis_error_noGo _ _ _ _ _ _ E)
         | Ok _ = Ok _ => apply ok_eq in E
         | (let _ := _ in _) = _ => cbv zeta in E
         | (let '(_, _) := ?x in _) = _ => destruct x
         | (if ?b then _ else _) = _ => destruct b
         end; try discriminate E; (match type of E with Go _ _ = Go _ ?x => assert (X: p' = x) by congruence; clear E; subst p' | Go _ ?x = Go _ _ => assert (X: p' = x) by congruence; clear E; subst p' end);
    try (apply (orderly_like p); [exact H|reflexivity..]).
  - constructor; [exact (date_days _)|exact (date_days _)|exact (o_step p H)].
  - constructor; [exact (date_of_days _ _ K0)|exact (date_of_days _ _ K1)|exact (o_step p H)].
  - constructor; [exact (o_begin p H)|exact (o_end p H)|]. exact (to_int_int _ _ K0).
Qed.

Theorem accepted : forall r fuel argv p, vis_command_line r fuel argv = Ok (Done p) -> orderly p /\ v_in_geopos p = true.
Proof.
  intros r fuel argv p H. unfold vis_command_line in H. destruct (length argv <? 2)%nat; [step H; step H; discriminate|].
  assert (G : forall f i q, orderly q -> forall q', opt_loop (vis_switch r argv) f argv i q = Ok (Done q') -> orderly q').
  { induction f as [|f IH]; intros i q Hq q' E; cbn [opt_loop] in E; (destruct (i <? length argv)%nat; [|assert (q' = q) by congruence; subst; exact Hq]); [discriminate|].
    destruct (one_arg _ _ i q) as [[i' q1|c o]|] eqn:E1; cbn [bind] in E; try discriminate. apply (IH i' q1); [|exact E].
    unfold one_arg in E1. destruct (arg argv i); cbn [bind] in E1; [|discriminate]. destruct (rd a 0) as [c|]; cbn [bind] in E1; [|discriminate].
    destruct (c =? 45)%Z; [|assert (q1 = q) by congruence; subst; exact Hq].
    destruct (rd a 1) as [o|]; cbn [bind] in E1; [|discriminate]. destruct (rd a 2) as [c2|]; cbn [bind] in E1; [|discriminate].
    destruct (if c2 =? 0 then _ else _)%Z as (j, pos). destruct (vis_switch _ _ _ _ _ _) as [[sw s'|? ?]|] eqn:Es; cbn [bind] in E1; try discriminate.
    assert (q1 = s') by congruence. subst q1. exact (switch_orderly _ _ _ _ _ _ _ _ Hq Es). }
  destruct (opt_loop (vis_switch r argv) fuel argv 1 vis_defaults) as [[q|c o]|] eqn:E; cbn [bind] in H; try discriminate.
  destruct (v_in_geopos q) eqn:Eg; [|discriminate]. apply ok_eq in H. assert (X: p = put_tle_path (if v_deftledir q then DEF_TLEDIR else v_tle_path q) q) by congruence. subst p.
  assert (R0 : orderly vis_defaults). { constructor; [apply (bnd_add 29); [lia|apply (bnd_le 22); [lia|exact jdoff_bnd]|apply bnd_int; lia]..|split; vm_compute; discriminate]. }
  split; [|exact Eg]. apply (orderly_like q); [exact (G fuel 1%nat _ R0 q E)|reflexivity..].
Qed.

(** ** A step of zero or less makes no progress *)
Definition low (last t : b64) : Prop := t = B754_infinity true \/ (fin t /\ toR t <= toR last).
Lemma low_fle : forall last t, fin last -> low last t -> fle t last = true.
Proof.
  intros last t F [->|(Ft & B)].
  - unfold fle. destruct last as [s|s| |s m c Hb]; try discriminate F; reflexivity.
  - apply fle_R; assumption.
Qed.
Lemma low_step : forall last t s, fin s -> toR s <= 0 -> low last t -> low last (fadd t s).
Proof.
  intros last t s Fs Bs [->|(Ft & B)].
  - left. destruct s as [u|u| |u m c Hb]; try discriminate Fs; reflexivity.
  - pose proof (Bplus_correct 53 1024 prec64_gt0 prec64_lt mode_NE t s Ft Fs) as C. destruct (Rlt_bool _ _) eqn:E.
    + right. split; [exact (proj1 (proj2 C))|]. unfold fadd. match goal with |- ?x <= _ => replace x with (RN (toR t + toR s)) by (symmetry; exact (proj1 C)) end. eapply Rle_trans; [|exact B].
      assert (G: RN (toR t) = toR t) by (apply round_generic; auto with typeclass_instances; apply generic_format_B2R).
      rewrite <- G at 2. apply RN_le. fold (toR t) (toR s). lra.
    + left. destruct C as (C & Sg). destruct (Rlt_bool_spec (Rabs (round radix2 (SpecFloat.fexp 53 1024) (round_mode mode_NE) (B2R t + B2R s))) (bpow radix2 1024)) as [|K]; [discriminate|].
      assert (N: Bsign t = true).
      { rewrite Sg. destruct (Bsign s) eqn:Es; [reflexivity|]. exfalso.
        (* a nonnegative s with value <= 0 is zero: no overflow *)
        assert (Z0: toR s = 0).
        { apply Rle_antisym; [exact Bs|]. destruct s as [u|u| |u m c Hb]; try discriminate Fs; [apply Rle_refl|]. cbn in Es. subst u. cbn. apply F2R_ge_0. cbn. lia. }
        change (B2R s) with (toR s) in K. rewrite Z0, Rplus_0_r in K. rewrite round_generic in K; [|auto with typeclass_instances|apply generic_format_B2R].
        pose proof (abs_B2R_lt_emax 53 1024 t). lra. }
      unfold fadd. rewrite N in C. destruct (Bplus mode_NE t s) as [u|u| |u m c Hb]; try discriminate C. f_equal. cbn in C. congruence.
Qed.

Section Still.
Context (L : lib) (p : vparams) (tle : tle_t) (argv : list (list Z)) (il : bool) (name desig : list Z) (last : b64).
Context (Hs : (-2147483648 <= v_delta_time p <= 0)%Z) (Ha : v_altrng p = false) (Fl : fin last).
(** Nothing is ever visible. *)
Context (Dark : forall n t, flt (v_radius p) (zenith_distance L p tle n t) = true \/ l_blocked L (position L tle n t) (l_sun_vec L t) = true).
Lemma no_start : forall t k h, h_started h = false -> exists k' h', vturn L p tle argv il name desig t k h = Ok (Turn (fadd t (vstep p)) k' h') /\ h_started h' = false.
Proof.
  intros t k h H0. unfold vturn. rewrite Ha. cbn [andb]. cbv zeta.
  assert (G: forall k1, sa_sep (k_sat k1) = sa_sep (k_sat (look L p tle t k)) -> k_pos k1 = k_pos (look L p tle t k) ->
    exists k' h', (if flt (v_radius p) (sa_sep (k_sat k1)) then
      if h_started (mark (Sample t (sa_sep (k_sat k1)) None) (mk_srch false (h_started h) (h_ended h) (h_mjd_start h) (h_mjd_end h) (h_tmin h) (h_minsep h) (h_found h) (h_out h) (h_log h)))
      then Ok (Brk (fadd t (vstep p)) k1 (mark (Sample t (sa_sep (k_sat k1)) None) (mk_srch false (h_started h) (h_ended h) (h_mjd_start h) (h_mjd_end h) (h_tmin h) (h_minsep h) (h_found h) (h_out h) (h_log h))))
      else Ok (Turn (fadd t (vstep p)) k1 (mark (Sample t (sa_sep (k_sat k1)) None) (mk_srch false (h_started h) (h_ended h) (h_mjd_start h) (h_mjd_end h) (h_tmin h) (h_minsep h) (h_found h) (h_out h) (h_log h))))
     else
      let k2 := put_sun (l_sun L t (k_lmst k1) (k_gmst k1) (k_tra k1)) k1 in
      let lit := negb (l_blocked L (k_pos k2) (l_sun_vec L t)) in
      let better := flt (sa_sep (k_sat k1)) (h_minsep h) && lit in
      let h1 := mark (Sample t (sa_sep (k_sat k1)) (Some lit)) (mk_srch false (h_started h) (h_ended h) (h_mjd_start h) (h_mjd_end h) (if better then t else h_tmin h) (if better then sa_sep (k_sat k1) else h_minsep h) (h_found h) (h_out h) (h_log h)) in
      if negb lit && negb (h_started h1) then Ok (Turn (fadd t (vstep p)) k2 h1)
      else if negb lit && negb (h_ended h1) then at_shadow L p (fadd t (vstep p)) k2 h1
      else if h_started h1 then Ok (Turn (fadd t (vstep p)) k2 h1)
      else at_start L p tle name desig t (fadd t (vstep p)) k2 h1) = Ok (Turn (fadd t (vstep p)) k' h') /\ h_started h' = false).
  { intros k1 E1 E2. rewrite E1. assert (Z: sa_sep (k_sat (look L p tle t k)) = zenith_distance L p tle (k_calls k) t /\ k_pos (look L p tle t k) = position L tle (k_calls k) t).
    { unfold look, zenith_distance, position, minutes. destruct (l_lmst L t) as (a & b). cbv zeta. destruct (l_radec _ _ _) as ((ra & dec) & d). split; reflexivity. }
    destruct Z as (Z1 & Z2). rewrite Z1. cbn [mark h_started h_ended]. rewrite H0. cbn [put_sun k_pos]. cbv zeta. rewrite E2, Z2. destruct (flt (v_radius p) _) eqn:Er; [eexists; eexists; split; [reflexivity|reflexivity]|].
    destruct (Dark (k_calls k) t) as [D|D]; [congruence|]. rewrite D. cbn [negb andb]. eexists. eexists. split; reflexivity. }
  destruct (h_first h); apply G; try reflexivity; unfold pa_and_speed; destruct (l_radec _ _ _) as ((ra & dec) & d); reflexivity.
Qed.
Lemma never_ends : forall fuel t k h, h_started h = false -> low last t -> vloop L p tle fuel argv il name desig last t k h = UB Stuck.
Proof.
  destruct (step_neg p Hs) as (Fs & Bs). induction fuel as [|fuel IH]; intros t k h H0 Lo; cbn [vloop]; rewrite (low_fle _ _ Fl Lo); [reflexivity|].
  destruct (no_start t k h H0) as (k' & h' & -> & H1). cbn [bind]. apply IH; [exact H1|]. apply low_step; [exact Fs|lra|exact Lo].
Qed.
End Still.
Lemma found_never_ends : forall e fuel argv il p file f name, (-2147483648 <= v_delta_time p <= 0)%Z -> v_altrng p = false -> v_skip p = false ->
  fin (range_begin p) -> fin (range_end p) -> toR (range_begin p) <= toR (range_end p) ->
  (forall n t, flt (v_radius p) (zenith_distance (n_lib e) p (f_tle f) n t) = true \/ l_blocked (n_lib e) (position (n_lib e) (f_tle f) n t) (l_sun_vec (n_lib e) t) = true) ->
  c_text (f_name f) = Ok name -> vis_found e fuel argv il p file f = UB Stuck.
Proof.
  intros e fuel argv il p file f name Hs Ha Hk F0 F1 Hr Dark Hn. unfold vis_found. cbv zeta. destruct (l_dechalat _ _ _) as ((alt & az) & pa). rewrite Hn, Hk. cbn [bind].
  fold (range_begin p) (range_end p). rewrite never_ends; [reflexivity|exact Hs|exact Ha|exact F1|exact Dark|reflexivity|]. right. split; assumption.
Qed.
