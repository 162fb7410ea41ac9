(** Proofs about the command line: option errors print JSON. *)
From Coq Require Import String Ascii ZArith List Bool Lia.
From Flocq Require Import Core IEEE754.BinarySingleNaN.
From Verif Require Import CLib FloatModel CalendarModel IoModel JsonSpec JsonAcceptor JsonProofs JsonText SkymapModel SkymapProofs10 CliModel CliSpec CliProofs1 CliProofs2 CliProofs3.
Import ListNotations.
Open Scope Z_scope.

Lemma dig_plain : forall t, Forall dig t -> clean t.
Proof. intros t H. unfold clean. eapply Forall_impl; [|exact H]. intros c Hc. unfold dig, plain in *. lia. Qed.
Lemma clean_lit : forall l, forallb is_plain l = true -> clean l.
Proof. intros l H. apply Forall_forall. intros c Hc. apply plain_iff. rewrite forallb_forall in H. now apply H. Qed.
Lemma scaled_nonneg : forall p m e, 0 <= scaled p (Z.pos m) e.
Proof.
  intros p m e. unfold scaled. pose proof (Z.pow_pos_nonneg 10 (Z.of_nat p) ltac:(lia) ltac:(lia)). destruct (Z.leb_spec 0 e).
  - pose proof (Z.pow_nonneg 2 e ltac:(lia)). nia.
  - apply div_half_even_nonneg; [nia|apply Z.pow_pos_nonneg; lia].
Qed.
Lemma fixed_clean : forall n, 0 <= n -> clean (fixed_text 6 n).
Proof.
  intros n Hn. unfold fixed_text. cbv zeta. change (10 ^ Z.of_nat 6) with 1000000. apply clean_app; [apply dig_plain, dec_text_dig, Z.div_pos; lia|].
  constructor; [unfold plain; lia|]. apply clean_app; [|apply dig_plain, dec_text_dig, Z.mod_pos_bound; lia].
  apply Forall_forall. intros c Hc. apply repeat_spec in Hc. subst c. unfold plain. lia.
Qed.
Lemma print_clean : forall x, clean (print_f 0 6 x).
Proof.
  intros x. unfold print_f, pad. cbn [Nat.sub repeat app]. destruct x as [s|s| |s m e H].
  - destruct s; apply clean_lit; vm_compute; reflexivity.
  - destruct s; apply clean_lit; vm_compute; reflexivity.
  - apply clean_lit; vm_compute; reflexivity.
  - apply clean_app; [destruct s; apply clean_lit; reflexivity|]. apply fixed_clean, scaled_nonneg.
Qed.

Lemma error_json : forall (S : Type) argv c msg code out, Forall clean argv -> clean msg ->
  opt_error (S := S) argv c msg = Ok (Leave code out) -> json_object out /\ code = c.
Proof.
  intros S argv c msg code out C M H. unfold opt_error in H. unfold c_sprintf in H. destruct (_ <=? _)%nat; cbn [bind] in H; [|discriminate].
  destruct (close_stat argv false c msg 0 0 0) as [t|] eqn:E; cbn [bind] in H; [|discriminate].
  assert (Eo : out = open_json ++ t) by congruence. split; [|congruence]. subst out. apply to_object.
  - rewrite open_run. exact (close_run _ _ _ _ _ _ _ _ C M E).
  - exists (tl open_json ++ t). reflexivity.
Qed.

Lemma text_clean : forall t v, clean t -> c_text (t ++ [0]) = Ok v -> clean v.
Proof.
  induction t as [|c t IH]; intros v C H; [cbn in H; assert (v = []) by congruence; subst; constructor|].
  inversion C as [|? ? C1 C2]; subst. change ((if c =? 0 then Ok [] else x <- c_text (t ++ [0]) ;; Ok (c :: x)) = Ok v) in H.
  destruct (c =? 0); [assert (v = []) by congruence; subst; constructor|]. destruct (c_text (t ++ [0])) as [x|] eqn:E; cbn [bind] in H; [|discriminate].
  assert (v = c :: x) by congruence. subst v. constructor; [exact C1|]. now apply IH.
Qed.

Lemma switch_json : forall r argv o val cur p code out, Forall clean argv -> (forall t, cur = Ok t -> clean t) ->
  skymap_switch r argv o val cur p = Ok (Leave code out) -> (code = 0 /\ out = usage) \/ (json_object out /\ (code = -1 \/ code = -2)).
Proof.
  intros r argv o val cur p code out C Hc E. unfold skymap_switch in E.
  assert (L : forall c msg, clean msg -> c = -1 \/ c = -2 -> opt_error (S := params) argv c msg = Ok (Leave code out) -> json_object out /\ (code = -1 \/ code = -2)).
  { intros c msg M Kc H. destruct (error_json _ _ _ _ _ _ C M H) as (J & ->). now split. }
  repeat match type of E with
         | bind cur _ = _ => destruct cur as [ct|]; cbn [bind] in E; [specialize (Hc ct eq_refl)|discriminate]
         | bind ?m _ = _ => destruct m; cbn [bind] in E; [|discriminate]
         | Ok _ = Ok _ => first [discriminate E|assert (code = 0 /\ out = usage) by (split; congruence); left; assumption]
         | (let _ := _ in _) = _ => cbv zeta in E
         | (if ?b then _ else _) = _ => destruct b
         | (let '(_, _) := ?x in _) = _ => destruct x
         | match ?x with _ => _ end = _ => destruct x
         end; try discriminate; right.
  all: revert E; apply L; [|tauto]; repeat apply clean_app; try apply print_clean; try exact Hc; apply clean_lit; reflexivity.
Qed.

Theorem exits : forall r fuel argv code out, (2 <= length argv)%nat -> Forall clean argv -> command_line r fuel argv = Ok (Exit code out) ->
  (code = 0 /\ out = usage) \/ (json_object out /\ (code = -1 \/ code = -2)).
Proof.
  intros r fuel argv code out Hl C H. unfold command_line in H. destruct (Nat.ltb_spec (length argv) 2); [lia|].
  assert (G : forall f i q, opt_loop (skymap_switch r argv) f argv i q = Ok (Exit code out) ->
    (code = 0 /\ out = usage) \/ (json_object out /\ (code = -1 \/ code = -2))).
  { induction f as [|f IH]; intros i q E; cbn [opt_loop] in E; (destruct (i <? length argv)%nat; [|discriminate]); [discriminate|].
    destruct (one_arg _ _ i q) as [[i' q1|c o]|] eqn:E1; cbn [bind] in E; try discriminate; [exact (IH _ _ E)|].
    assert (c = code /\ o = out) as (-> & ->) by (split; congruence).
    unfold one_arg in E1. destruct (arg argv i); cbn [bind] in E1; [|discriminate]. destruct (rd a 0) as [c|]; cbn [bind] in E1; [|discriminate].
    destruct (c =? 45); [|discriminate].
    destruct (rd a 1) as [o|]; cbn [bind] in E1; [|discriminate]. destruct (rd a 2) as [c2|]; cbn [bind] in E1; [|discriminate].
    destruct (if c2 =? 0 then _ else _) as (j, pos). destruct (skymap_switch _ _ _ _ _ _) as [[sw s'|c' o']|] eqn:Es; cbn [bind] in E1; try discriminate.
    assert (c' = code /\ o' = out) as (-> & ->) by (split; congruence).
    refine (switch_json _ _ _ _ _ _ _ _ C _ Es). intros t Et. unfold arg in Et. destruct (nth_error argv j) as [b|] eqn:Ej; cbn [bind] in Et; [|discriminate].
    refine (text_clean b t _ Et). exact (proj1 (Forall_forall _ _) C b (nth_error_In _ _ Ej)). }
  destruct (opt_loop (skymap_switch r argv) fuel argv 1 defaults) as [[q|c o]|] eqn:E; cbn [bind] in H; try discriminate.
  - destruct (p_in_geopos q); [discriminate|]. left. split; congruence.
  - assert (c = code /\ o = out) as (-> & ->) by (split; congruence). exact (G _ _ _ E).
Qed.
