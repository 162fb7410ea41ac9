(** Number texts, and running the acceptor over composed texts. *)
From Coq Require Import String Ascii ZArith List Bool Lia.
From Flocq Require Import IEEE754.BinarySingleNaN.
From Verif Require Import CLib FloatModel IoModel JsonSpec JsonAcceptor JsonProofs.
Import ListNotations.
Open Scope Z_scope.

(** ** Digits *)
Lemma nat_digits_dig : forall f z, 0 <= z -> Forall dig (nat_digits f z) /\ nat_digits f z <> [].
Proof.
  assert (D: forall z, dig (48 + z mod 10)) by (intro z; unfold dig; pose proof (Z.mod_pos_bound z 10 ltac:(lia)); lia).
  induction f as [|f IH]; intros z Hz; cbn [nat_digits]; (split; [|discriminate]).
  - repeat constructor; apply D.
  - constructor; [apply D|]. destruct (z <? 10); [constructor|]. apply IH. apply Z.div_pos; lia.
Qed.
(** The leading digit. *)
Lemma nat_digits_last : forall f z, 0 < z < 10 ^ (Z.of_nat f + 1) -> exists c l, nat_digits f z = l ++ [c] /\ 49 <= c <= 57.
Proof.
  induction f as [|f IH]; intros z Hz; cbn [nat_digits].
  - exists (48 + z mod 10), []. split; [reflexivity|]. change (10 ^ (Z.of_nat 0 + 1)) with 10 in Hz. rewrite Z.mod_small; lia.
  - destruct (Z.ltb_spec z 10) as [L|L].
    + exists (48 + z mod 10), []. split; [reflexivity|]. rewrite Z.mod_small; lia.
    + destruct (IH (z / 10)) as (c & l & E & C).
      { split; [apply Z.div_str_pos; lia|]. apply Z.div_lt_upper_bound; [lia|]. rewrite <- Z.pow_succ_r by lia. replace (Z.succ (Z.of_nat f + 1)) with (Z.of_nat (S f) + 1) by lia. lia. }
      rewrite E. exists c, ((48 + z mod 10) :: l). split; [reflexivity|exact C].
Qed.
Lemma dec_text_dig : forall z, 0 <= z -> Forall dig (dec_text z) /\ dec_text z <> [].
Proof.
  intros z Hz. unfold dec_text. destruct (nat_digits_dig (Z.to_nat (Z.log2 z)) z Hz) as (A & B). split; [now apply Forall_rev|].
  intro K. apply B. rewrite <- (rev_involutive (nat_digits _ _)), K. reflexivity.
Qed.
Lemma dec_text_int : forall z, 0 <= z -> jint (dec_text z).
Proof.
  intros z Hz. destruct (Z.eq_dec z 0) as [->|N]; [left; reflexivity|]. right.
  destruct (nat_digits_last (Z.to_nat (Z.log2 z)) z) as (c & l & E & C).
  { split; [lia|]. rewrite Z2Nat.id by apply Z.log2_nonneg. pose proof (Z.log2_spec z ltac:(lia)) as [_ S]. eapply Z.lt_le_trans; [exact S|].
    rewrite Z.add_1_r. apply Z.pow_le_mono_l. lia. }
  destruct (dec_text_dig z Hz) as (F & _). unfold dec_text in *. rewrite E, rev_app_distr in *. cbn [rev app] in *. exists c, (rev l). split; [reflexivity|]. split; [exact C|]. now inversion F.
Qed.

(** ** Numbers, padded with blanks on the left *)
Definition numtext (t : list Z) : Prop := exists n v, t = repeat 32 n ++ v /\ jnumber v.
Lemma pad_num : forall w v, jnumber v -> numtext (pad w v).
Proof. intros w v H. exists (w - length v)%nat, v. split; [reflexivity|exact H]. Qed.
Lemma signed : forall b v, (exists i f, v = i ++ f /\ jint i /\ jfrac f) -> jnumber ((if b : bool then [45] else []) ++ v).
Proof.
  intros b v (i & f & -> & I & F). exists (if b then [45] else []), i, f, []. rewrite app_nil_r. split; [reflexivity|]. split; [destruct b; tauto|]. split; [exact I|]. split; [exact F|now left].
Qed.
Lemma print_d_num : forall w z, numtext (print_d w z).
Proof.
  intros w z. unfold print_d. apply pad_num. destruct (Z.ltb_spec z 0) as [L|L].
  - apply (signed true). exists (dec_text (- z)), []. rewrite app_nil_r. split; [reflexivity|]. split; [apply dec_text_int; lia|now left].
  - apply (signed false (dec_text z)). exists (dec_text z), []. rewrite app_nil_r. split; [reflexivity|]. split; [apply dec_text_int; lia|now left].
Qed.
Lemma fixed_num : forall p n, (p <> 0)%nat -> 0 <= n -> exists i f, fixed_text p n = i ++ f /\ jint i /\ jfrac f.
Proof.
  intros p n P N. unfold fixed_text. destruct p as [|p]; [congruence|]. set (ten := 10 ^ Z.of_nat (S p)). assert (T: 0 < ten) by (apply Z.pow_pos_nonneg; lia).
  eexists. eexists. split; [reflexivity|]. split; [apply dec_text_int; apply Z.div_pos; lia|]. right. eexists. split; [reflexivity|].
  destruct (dec_text_dig (n mod ten)) as (A & B); [apply Z.mod_pos_bound; lia|]. split.
  - intro K. apply app_eq_nil in K. now destruct K.
  - apply Forall_app. split; [|exact A]. apply Forall_forall. intros x Hx. apply repeat_spec in Hx. subst x. unfold dig. lia.
Qed.
Lemma div_half_even_nonneg : forall n d, 0 <= n -> 0 < d -> 0 <= div_half_even n d.
Proof. intros n d N D. unfold div_half_even. pose proof (Z.div_pos n d N D). destruct (_ || _); lia. Qed.
Lemma print_f_num : forall w p (x : b64), (p <> 0)%nat -> is_finite x = true -> numtext (print_f w p x).
Proof.
  intros w p x P F. unfold print_f. apply pad_num. destruct x as [s|s| |s m e H]; try discriminate F; apply signed; apply fixed_num; try exact P; [lia|].
  unfold scaled. destruct (Z.leb_spec 0 e).
  - apply Z.mul_nonneg_nonneg; [apply Z.mul_nonneg_nonneg; [lia|apply Z.pow_nonneg; lia]|apply Z.pow_nonneg; lia].
  - apply div_half_even_nonneg; [apply Z.mul_nonneg_nonneg; [lia|apply Z.pow_nonneg; lia]|apply Z.pow_pos_nonneg; lia].
Qed.

(** ** Running over pieces *)
Definition ends (l : list Z) : Prop := match l with c :: _ => delim c | [] => False end.
Lemma run_num : forall t l s, numtext t -> ends l -> run (MV, s) (t ++ l) = run (ME, s) l.
Proof.
  intros t l s (n & v & -> & V) E. rewrite <- app_assoc, run_app, run_ws.
  - rewrite run_app. destruct (run_number v V s) as (m & -> & K). destruct l as [|c l]; [contradiction|]. now apply run_after.
  - apply Forall_forall. intros x Hx. apply repeat_spec in Hx. subst x. now left.
  - unfold idle. tauto.
Qed.
Lemma run_clean : forall t l k s, clean t -> run (MS k, s) (t ++ l) = run (MS k, s) l.
Proof.
  intros t l k s C. rewrite run_app, run_chars; [reflexivity|]. induction C; constructor; assumption.
Qed.
Lemma clean_app : forall a b, clean a -> clean b -> clean (a ++ b).
Proof. intros a b A B. apply Forall_app. now split. Qed.
Lemma run_lit : forall lit l x y, run x lit = Some y -> run x (lit ++ l) = run y l.
Proof. intros lit l x y H. now rewrite run_app, H. Qed.
Lemma run_numA : forall t l s, numtext t -> ends l -> run (MA, s) (t ++ l) = run (ME, s) l.
Proof.
  intros t l s H E. rewrite <- (run_num t l s H E). destruct H as (n & v & -> & V). rewrite <- app_assoc.
  assert (W: ws (repeat 32 n)) by (apply Forall_forall; intros x Hx; apply repeat_spec in Hx; subst x; now left).
  rewrite (run_app (repeat 32 n) (MA, s)), (run_app (repeat 32 n) (MV, s)), (run_ws _ MA), (run_ws _ MV) by (try exact W; unfold idle; tauto).
  apply array_start. apply value_first. now constructor.
Qed.
