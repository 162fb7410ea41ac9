(** Termination of the time loops. *)
From Coq Require Import String Ascii ZArith List Bool Lia Reals Lra.
From Flocq Require Import Core IEEE754.BinarySingleNaN.
From Verif Require Import CLib FloatModel FloatLemmas CalendarModel CalendarProofs2 CalendarProofs3 CalendarProofs5 TleModel IoModel SkymapModel CliModel CliProofs2 VisCliModel VisModel VisSpec VisProofs1 VisProofs2 VisProofs3.
Import ListNotations.
Open Scope Z_scope.

(** ** Nothing but the loops can use up the fuel *)
Lemma ns_digits : forall p a, not_stuck (c_digits a p).
Proof. induction p as [|c p IH]; intro a; cbn [c_digits]; ns. apply ns_oob. Qed.
Lemma ns_strtol : forall p, not_stuck (c_strtol p).
Proof. intro p. unfold c_strtol. destruct (c_skip_space p) as [|c t]; [apply ns_oob|]. ns; apply ns_digits. Qed.
Lemma ns_desig : forall d o, not_stuck (vis_desig d o).
Proof. intros d o. unfold vis_desig, c_atoi. apply ns_bind; [apply ns_rd|]. ns. apply ns_strtol. Qed.
Lemma ns_date_of : forall x, not_stuck (date_of x).
Proof. intro x. unfold date_of. ns. Qed.
Lemma ns_event : forall L nm mjd cur t k h, not_stuck (event_out L nm mjd cur t k h).
Proof. intros. unfold event_out, dated, vis_sat_json. ns. apply ns_date_of. Qed.
Lemma ns_vclose : forall argv il c m n, not_stuck (vis_close argv il c m n).
Proof. intros. unfold vis_close. ns. Qed.
Lemma ns_quit : forall argv il c st m n o, not_stuck (vis_quit argv il c st m n o).
Proof. intros. unfold vis_quit. ns. apply ns_vclose. Qed.
Lemma ns_turn : forall L p tle argv il name desig t k h, not_stuck (vturn L p tle argv il name desig t k h).
Proof.
  intros. unfold vturn, at_shadow, at_start. cbv zeta. destruct (v_altrng p && _).
  { apply ns_bind; [apply ns_quit|]. ns. }
  ns; try apply ns_event; apply ns_desig.
Qed.
Lemma ns_after : forall L p tle argv il jd0 t k h, not_stuck (vafter L p tle argv il jd0 t k h).
Proof.
  intros. unfold vafter, recomputed. cbv zeta. repeat (apply ns_bind; [ns; apply ns_event|intros (?, ?)]). ns. apply ns_vclose.
Qed.

(** ** One step *)
Open Scope R_scope.
Lemma step_pos : forall p, (1 <= v_delta_time p <= 2147483647)%Z ->
  fin (vstep p) /\ Rabs (toR (vstep p) - IZR (v_delta_time p) / 86400) <= bpow radix2 (-39) /\ / 100000 <= toR (vstep p) <= 32768.
Proof.
  intros p H. unfold vstep, SEC_IN_DAY. destruct (of_int_R (v_delta_time p) ltac:(lia)) as (F & V). destruct (of_int_R 86400 ltac:(lia)) as (F' & V').
  assert (B: 1 <= IZR (v_delta_time p) <= 2147483647) by (split; apply IZR_le; lia).
  destruct (fdiv_R (of_int (v_delta_time p)) (of_int 86400) 15) as (G & W); [exact F|rewrite V'; lra|lia| |].
  { rewrite V, V'. rewrite Rabs_pos_eq by lra. change (bpow radix2 15) with 32768. lra. }
  rewrite V, V' in W. rewrite W. split; [exact G|].
  assert (E: Rabs (RN (IZR (v_delta_time p) / 86400) - IZR (v_delta_time p) / 86400) <= bpow radix2 (15 - 54)).
  { apply RN_err; [lia|]. rewrite Rabs_pos_eq by lra. change (bpow radix2 15) with 32768. lra. }
  split; [exact E|]. change (15 - 54)%Z with (-39)%Z in E. rewrite bpow_neg in E. change (2 ^ 39)%Z with 549755813888%Z in E. apply Rabs_le_inv in E. lra.
Qed.
Lemma step_neg : forall p, (-2147483648 <= v_delta_time p <= 0)%Z -> fin (vstep p) /\ -32768 <= toR (vstep p) <= 0.
Proof.
  intros p H. unfold vstep, SEC_IN_DAY. destruct (of_int_R (v_delta_time p) ltac:(lia)) as (F & V). destruct (of_int_R 86400 ltac:(lia)) as (F' & V').
  assert (B: -2147483648 <= IZR (v_delta_time p) <= 0) by (split; apply IZR_le; lia).
  destruct (fdiv_R (of_int (v_delta_time p)) (of_int 86400) 15) as (G & W); [exact F|rewrite V'; lra|lia| |].
  { rewrite V, V'. rewrite Rabs_left1 by lra. change (bpow radix2 15) with 32768. lra. }
  rewrite V, V' in W. rewrite W. split; [exact G|]. split; [apply (RN_int_ge _ (-32768)); [lia|]|apply (RN_int_le _ 0); [lia|]]; lra.
Qed.

(** A positive step [s] added to a time within 2^E makes progress. *)
Lemma tick_on : forall E t s, (15 <= E <= 30)%Z -> fin t -> fin s -> Rabs (toR t) <= bpow radix2 E -> 0 <= toR s <= 32768 ->
  fin (fadd t s) /\ Rabs (toR (fadd t s) - (toR t + toR s)) <= bpow radix2 (E - 53) /\ Rabs (toR (fadd t s)) <= bpow radix2 (E + 1).
Proof.
  intros E t s HE Ft Fs Ht Hs. assert (B: 32768 <= bpow radix2 E) by (change 32768 with (bpow radix2 15); apply bpow_le; lia).
  assert (K: Rabs (toR t + toR s) <= bpow radix2 (E + 1)). { rewrite bpow_plus. change (bpow radix2 1) with 2. apply Rabs_le_inv in Ht. apply Rabs_le. lra. }
  destruct (fadd_R t s (E + 1) Ft Fs ltac:(lia) K) as (G & W). split; [exact G|]. rewrite W. split; [|apply RN_abs_le; [lia|exact K]].
  replace (E - 53)%Z with (E + 1 - 54)%Z by lia. apply RN_err; [lia|exact K].
Qed.

Lemma slack : forall E, (15 <= E <= 30)%Z -> bpow radix2 (E - 53) <= / 8388608.
Proof. intros E H. change (/ 8388608) with (/ IZR (2 ^ 23)). rewrite <- bpow_neg. apply bpow_le. lia. Qed.

(** ** The loops *)
Lemma turn_time : forall L p tle argv il name desig t k h t' k' h', vturn L p tle argv il name desig t k h = Ok (Turn t' k' h') -> t' = fadd t (vstep p).
Proof.
  intros L p tle argv il name desig t k h t' k' h' H. unfold vturn in H. cbv zeta in H. destruct (v_altrng p && _).
  { step H. destruct a. congruence. }
  destruct (flt (v_radius p) _); [cbn [mark h_started] in H; destruct (h_started h); congruence|].
  destruct (_ && _); [congruence|]. destruct (_ && _).
  - unfold at_shadow in H. cbv zeta in H. step H. destruct a. congruence.
  - destruct (h_started _); [congruence|]. unfold at_start in H. cbv zeta in H. step H. step H. destruct a0. congruence.
Qed.

Lemma loop_ends : forall E L p tle argv il name desig last, (15 <= E <= 30)%Z -> (1 <= v_delta_time p <= 2147483647)%Z ->
  fin last -> Rabs (toR last) <= bpow radix2 E ->
  forall fuel t k h, fin t -> Rabs (toR t) <= bpow radix2 E -> toR last - toR t < (toR (vstep p) - bpow radix2 (E - 53)) * INR fuel ->
  not_stuck (vloop L p tle fuel argv il name desig last t k h).
Proof.
  intros E L p tle argv il name desig last HE Hd Fl Bl. destruct (step_pos p Hd) as (Fs & _ & Bs). pose proof (slack E HE) as Sl. pose proof (bpow_ge_0 radix2 (E - 53)) as Pz.
  induction fuel as [|f IH]; intros t k h Ft Bt Hm; cbn [vloop]; destruct (fle t last) eqn:El; try apply ns_ok.
  - apply fle_R in El; [|assumption..]. cbn in Hm. lra.
  - destruct (vturn L p tle argv il name desig t k h) as [w|u] eqn:Ew; cbn [bind].
    2: { pose proof (ns_turn L p tle argv il name desig t k h) as N. rewrite Ew in N. unfold not_stuck in *. congruence. }
    destruct w as [t' k' h'|t' k' h'|c h']; try apply ns_ok. apply turn_time in Ew. subst t'.
    destruct (tick_on E t (vstep p) HE Ft Fs Bt ltac:(lra)) as (F' & D & B'). apply Rabs_le_inv in D.
    destruct (fle (fadd t (vstep p)) last) eqn:El'; [|destruct f; cbn [vloop]; rewrite El'; apply ns_ok].
    apply IH; [exact F'| |].
    + apply fle_R in El'; [|assumption..]. apply Rabs_le_inv in Bt, Bl. apply Rabs_le. lra.
    + rewrite S_INR in Hm. lra.
Qed.

(** The step of the loop that waits for the Sun to set. *)
Lemma minute_R : fin (lit 6456360425798343 9223372036854775808) /\ Rabs (toR (lit 6456360425798343 9223372036854775808) - 7 / 10000) <= bpow radix2 (-62).
Proof.
  assert (E: lit 6456360425798343 9223372036854775808 = dbl 6456360425798343 (-63)) by (apply b64_eq; vm_compute; reflexivity).
  rewrite E. destruct (dbl_R 6456360425798343 (-63) ltac:(lia) ltac:(lia)) as (F & V). split; [exact F|]. rewrite V, !bpow_neg. apply Rabs_le.
  change (IZR (2 ^ 63)) with 9223372036854775808. change (IZR (2 ^ 62)) with 4611686018427387904. lra.
Qed.

Lemma daytime_ends : forall E L last, (15 <= E <= 30)%Z -> fin last -> Rabs (toR last) <= bpow radix2 E ->
  forall fuel t, fin t -> Rabs (toR t) <= bpow radix2 E -> toR last - toR t < (6999 / 10000000 - bpow radix2 (E - 53)) * INR fuel ->
  not_stuck (daytime L fuel last t) /\ forall t', daytime L fuel last t = Ok t' -> fin t' /\ toR t <= toR t' /\ (Rabs (toR t') <= bpow radix2 E \/ toR last < toR t').
Proof.
  intros E L last HE Fl Bl. destruct minute_R as (Fs & Bs). pose proof (slack E HE) as Sl. pose proof (bpow_ge_0 radix2 (E - 53)) as Pz.
  rewrite bpow_neg in Bs. apply Rabs_le_inv in Bs. assert (Bs': 6999 / 10000000 <= toR (lit 6456360425798343 9223372036854775808) <= 1). { change (IZR (2 ^ 62)) with 4611686018427387904 in Bs. lra. } clear Bs.
  set (s := lit _ _) in *.
  assert (G: forall fuel t, fin t -> Rabs (toR t) <= bpow radix2 E \/ toR last < toR t -> toR last - toR t < (6999 / 10000000 - bpow radix2 (E - 53)) * INR fuel \/ toR last < toR t ->
    not_stuck (daytime L fuel last t) /\ forall t', daytime L fuel last t = Ok t' -> fin t' /\ toR t <= toR t' /\ (Rabs (toR t') <= bpow radix2 E \/ toR last < toR t')).
  { induction fuel as [|f IH]; intros t Ft Bt Hm; cbn [daytime]; (destruct (flt (l_sun_alt L t) (of_int 0) || flt last t) eqn:El; [split; [apply ns_ok|intros t' K; apply ok_eq in K; subst t'; split; [exact Ft|split; [lra|exact Bt]]]|]).
    - apply orb_false_elim in El. destruct El as (_ & El). apply flt_false in El; [|assumption..]. cbn in Hm. exfalso. lra.
    - apply orb_false_elim in El. destruct El as (_ & El). apply flt_false in El; [|assumption..]. destruct Bt as [Bt|Bt]; [|lra]. destruct Hm as [Hm|Hm]; [|lra]. fold s.
      destruct (tick_on E t s HE Ft Fs Bt ltac:(lra)) as (F' & D & B'). apply Rabs_le_inv in D. rewrite S_INR in Hm.
      destruct (Rlt_or_le (toR last) (toR (fadd t s))) as [K|K].
      + destruct (IH (fadd t s) F' (or_intror K) (or_intror K)) as (A & B). split; [exact A|]. intros t' Ht'. destruct (B t' Ht') as (C1 & C2 & C3). split; [exact C1|]. split; [lra|exact C3].
      + assert (Ba: Rabs (toR (fadd t s)) <= bpow radix2 E). { apply Rabs_le_inv in Bt, Bl. apply Rabs_le. lra. }
        destruct (IH (fadd t s) F' (or_introl Ba) ltac:(left; lra)) as (A & B). split; [exact A|]. intros t' Ht'. destruct (B t' Ht') as (C1 & C2 & C3). split; [exact C1|]. split; [lra|exact C3]. }
  intros fuel t Ft Bt Hm. apply G; tauto.
Qed.


Lemma found_ends : forall E e fuel argv il p file f, (15 <= E <= 30)%Z -> (1 <= v_delta_time p <= 2147483647)%Z ->
  fin (range_begin p) -> fin (range_end p) -> Rabs (toR (range_begin p)) <= bpow radix2 E -> Rabs (toR (range_end p)) <= bpow radix2 E ->
  toR (range_end p) - toR (range_begin p) < (pace p - bpow radix2 (E - 53)) * INR fuel ->
  not_stuck (vis_found e fuel argv il p file f).
Proof.
  intros E e fuel argv il p file f HE Hd F0 F1 B0 B1 Hm. unfold vis_found. cbv zeta. destruct (l_dechalat _ _ _) as ((alt & az) & pa).
  fold (range_begin p). fold (range_end p). apply ns_bind; [apply ns_text|]. intro name. unfold pace in Hm. destruct (step_pos p Hd) as (Fs & _ & Bs).
  pose proof (slack E HE) as Sl. pose proof (bpow_ge_0 radix2 (E - 53)) as Pz. pose proof (pos_INR fuel) as Pf.
  assert (K: forall w, not_stuck w -> not_stuck (w0 <- w ;; match w0 with Out code h => Ok (mk_vfinal code (h_out h) (h_log h)) | Brk t k h | Turn t k h => h <- vafter (n_lib e) p (f_tle f) argv il (range_begin p) t k h ;; Ok (mk_vfinal 0 (h_out h) (h_log h)) end)).
  { intros w W. apply ns_bind; [exact W|]. intros [t k h|t k h|c h]; [| |apply ns_ok]; (apply ns_bind; [apply ns_after|intros; apply ns_ok]). }
  destruct (v_skip p).
  - destruct (daytime_ends E (n_lib e) (range_end p) HE F1 B1 fuel (range_begin p) F0 B0) as (A & B).
    { eapply Rlt_le_trans; [exact Hm|]. apply Rmult_le_compat_r; [exact Pf|]. pose proof (Rmin_r (toR (vstep p)) (6999 / 10000000)). lra. }
    destruct (daytime _ _ _ _) as [t|u] eqn:Ed; cbn [bind]; [|unfold not_stuck in *; congruence]. apply K. destruct (B t eq_refl) as (Ft & Ht & [Bt|Bt]).
    + apply (loop_ends E); try assumption. eapply Rle_lt_trans; [|eapply Rlt_le_trans; [exact Hm|]].
      * lra.
      * apply Rmult_le_compat_r; [exact Pf|]. pose proof (Rmin_l (toR (vstep p)) (6999 / 10000000)). lra.
    + destruct fuel; cbn [vloop]; (replace (fle t (range_end p)) with false; [apply ns_ok|symmetry; apply fle_false; assumption]).
  - cbn [bind]. apply K. now apply (loop_ends E).
Qed.
