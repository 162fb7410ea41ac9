(** Numeric fields and the correctness of [parse_elements]. *)
From Coq Require Import ZArith List Bool Lia QArith Qfield Qpower.
From Verif Require Import ListLemmas CLib TleModel TleSpec TleProofs1 TleProofs2.
Import ListNotations.
Open Scope Z_scope.
Ltac Zify.zify_post_hook ::= Z.div_mod_to_equations.

Definition decf (acc : Z) (s : list Z) : Z := fold_left (fun v c => 10 * v + (c - 48)) s acc.

Lemma is_digit_true : forall c, digit c -> is_digit c = true.
Proof. unfold digit, is_digit; intros; apply andb_true_iff; rewrite !Z.leb_le; lia. Qed.

Lemma is_digit_false : forall c, ~ digit c -> is_digit c = false.
Proof.
  unfold digit, is_digit; intros. apply andb_false_iff; rewrite !Z.leb_gt. lia.
Qed.

Lemma is_space_digit : forall c, digit c -> is_space c = false.
Proof.
  unfold digit, is_space; intros.
  apply orb_false_iff; split; [apply Z.eqb_neq; lia|].
  apply andb_false_iff; right; apply Z.leb_gt; lia.
Qed.

Lemma decf_bound : forall ds acc, Forall digit ds -> 0 <= acc ->
  acc * 10 ^ Z.of_nat (length ds) <= decf acc ds < (acc + 1) * 10 ^ Z.of_nat (length ds).
Proof.
  induction ds as [|c ds IH]; intros acc HF Ha.
  - cbn. lia.
  - inversion_clear HF as [|? ? Hc HF']. cbn [decf fold_left length].
    fold (decf (10 * acc + (c - 48)) ds).
    unfold digit in Hc.
    specialize (IH (10 * acc + (c - 48)) HF' ltac:(lia)).
    rewrite Nat2Z.inj_succ, Z.pow_succ_r by lia.
    assert (0 < 10 ^ Z.of_nat (length ds)) by (apply Z.pow_pos_nonneg; lia).
    nia.
Qed.

Lemma dec_bound : forall ds, Forall digit ds -> 0 <= dec ds < 10 ^ Z.of_nat (length ds).
Proof. intros ds H. pose proof (decf_bound ds 0 H ltac:(lia)). unfold dec, decf in *. lia. Qed.

Lemma decf_shift : forall ds acc, decf acc ds = acc * 10 ^ Z.of_nat (length ds) + dec ds.
Proof.
  unfold dec.
  assert (G: forall ds acc, decf acc ds = acc * 10 ^ Z.of_nat (length ds) + decf 0 ds).
  { induction ds as [|c ds IH]; intros acc; [cbn; lia|].
    cbn [decf fold_left length]. fold (decf (10 * acc + (c - 48)) ds). fold (decf (10 * 0 + (c - 48)) ds).
    rewrite IH. rewrite (IH (10 * 0 + (c - 48))).
    rewrite Nat2Z.inj_succ, Z.pow_succ_r by lia. ring. }
  intros; apply G.
Qed.

Lemma c_digits_run : forall ds acc r rs, Forall digit ds -> is_digit r = false ->
  c_digits acc (ds ++ r :: rs) = Ok (decf acc ds).
Proof.
  induction ds as [|c ds IH]; intros acc r rs HF Hr.
  - cbn. now rewrite Hr.
  - inversion_clear HF as [|? ? Hc HF']. cbn [app c_digits].
    rewrite is_digit_true by assumption. rewrite IH by assumption.
    cbn [decf fold_left]. unfold decf. do 3 f_equal. lia.
Qed.

Lemma skip_blanks : forall k p, c_skip_space (repeat 32 k ++ p) = c_skip_space p.
Proof. induction k; intros; [reflexivity|]. cbn. apply IHk. Qed.

Lemma strtol_digits : forall k ds r rs, ds <> [] -> Forall digit ds -> is_digit r = false ->
  c_strtol (repeat 32 k ++ ds ++ r :: rs) = Ok (dec ds).
Proof.
  intros k ds r rs Hne HF Hr. unfold c_strtol. rewrite skip_blanks.
  destruct ds as [|c ds]; [congruence|].
  inversion HF as [|? ? Hc HF']; subst.
  cbn [app c_skip_space]. rewrite is_space_digit by assumption.
  unfold digit in Hc.
  replace (c =? 45) with false by (symmetry; apply Z.eqb_neq; lia).
  replace (c =? 43) with false by (symmetry; apply Z.eqb_neq; lia).
  change (c :: ds ++ r :: rs) with ((c :: ds) ++ r :: rs).
  rewrite c_digits_run by assumption. reflexivity.
Qed.

Lemma chk_int_ok : forall z, int_min <= z <= int_max -> chk_int z = Ok z.
Proof.
  intros. unfold chk_int, in_int.
  replace ((int_min <=? z) && (z <=? int_max)) with true; [reflexivity|].
  symmetry; apply andb_true_iff; rewrite !Z.leb_le; lia.
Qed.

Lemma pow10_le : forall a b, (a <= b)%nat -> 10 ^ Z.of_nat a <= 10 ^ Z.of_nat b.
Proof. intros. apply Z.pow_le_mono_r; lia. Qed.

Lemma atoi_shows : forall s n r rs, shows_nat s n -> (length s <= 9)%nat -> is_digit r = false ->
  c_atoi (s ++ r :: rs) = Ok n.
Proof.
  intros s n r rs (k & ds & -> & Hne & HF & <-) Hl Hr.
  unfold c_atoi. rewrite <- app_assoc, strtol_digits by assumption. cbn [bind].
  apply chk_int_ok.
  rewrite app_length in Hl.
  pose proof (dec_bound ds HF). pose proof (pow10_le (length ds) 9 ltac:(lia)).
  change (10 ^ Z.of_nat 9) with 1000000000 in *. unfold int_min, int_max. lia.
Qed.

Lemma shows_digits_nat : forall s n, s <> [] -> shows_digits s n -> shows_nat s n.
Proof. intros s n H [HF Hd]. exists 0%nat, s. repeat split; auto. Qed.

(** *** Columns *)
Lemma skipn_field : forall l a w, skipn a l = field l a w ++ skipn (a + w) l.
Proof.
  intros. unfold field. rewrite <- (firstn_skipn w (skipn a l)) at 1.
  now rewrite skipn_add.
Qed.

Lemma skipn_col : forall l a, (a < length l)%nat -> skipn a l = col l a :: skipn (S a) l.
Proof.
  induction l; intros a0 H; [cbn in H; lia|].
  destruct a0; [reflexivity|]. cbn [skipn]. rewrite IHl by (cbn in H; lia). reflexivity.
Qed.

Lemma field_length : forall l a w, (a + w <= length l)%nat -> length (field l a w) = w.
Proof. intros. unfold field. rewrite firstn_length, skipn_length. lia. Qed.

Lemma field_ne : forall l a w, (a + w <= length l)%nat -> (0 < w)%nat -> field l a w <> [].
Proof. intros l a w H Hw E. apply (f_equal (@length Z)) in E. rewrite field_length in E by lia. cbn in E; lia. Qed.

Lemma adv_field : forall l a w, (a + w < length l)%nat ->
  adv l a = field l a w ++ col l (a + w) :: skipn (S (a + w)) l.
Proof. intros. unfold adv. rewrite (skipn_field l a w) at 1. now rewrite (skipn_col l (a + w)) by lia. Qed.

Lemma c_take_field : forall l a w, (a + w <= length l)%nat -> c_take (adv l a) w = Ok (field l a w).
Proof.
  intros. unfold c_take, adv. rewrite skipn_length.
  replace (w <=? length l - a)%nat with true by (symmetry; apply Nat.leb_le; lia). reflexivity.
Qed.

Lemma rd_col : forall l i, (i < length l)%nat -> rd l i = Ok (col l i).
Proof. intros. now apply rd_nth. Qed.

(** *** Angles *)
Lemma angle_run : forall ds acc p, Forall digit ds -> 0 <= acc -> decf acc ds <= 214748364 ->
  get_angle_acc acc (ds ++ p) = get_angle_acc (decf acc ds) p.
Proof.
  induction ds as [|c ds IH]; intros acc p HF Ha Hb; [reflexivity|].
  inversion_clear HF as [|? ? Hc HF'].
  assert (Hge: 10 * acc + (c - 48) <= decf acc (c :: ds)).
  { cbn [decf fold_left]. fold (decf (10 * acc + (c - 48)) ds).
    unfold digit in Hc.
    pose proof (decf_bound ds (10 * acc + (c - 48)) HF' ltac:(lia)).
    assert (1 <= 10 ^ Z.of_nat (length ds)) by (apply Z.lt_pred_le, Z.pow_pos_nonneg; lia). nia. }
  unfold digit in Hc.
  cbn [app get_angle_acc].
  replace (c =? 32) with false by (symmetry; apply Z.eqb_neq; lia).
  replace (c =? 46) with false by (symmetry; apply Z.eqb_neq; lia).
  rewrite chk_int_ok by (unfold int_min, int_max; lia). cbn [bind].
  rewrite chk_int_ok by (unfold int_min, int_max; lia). cbn [bind].
  replace (acc * 10 + (c - 48)) with (10 * acc + (c - 48)) by lia.
  cbn [decf fold_left] in Hb. 
  rewrite IH; [reflexivity|assumption|lia|exact Hb].
Qed.

Lemma get_angle_blanks : forall k p, get_angle (repeat 32 k ++ p) = get_angle p.
Proof. induction k; intros; [reflexivity|]. cbn. apply IHk. Qed.

Lemma get_angle_nonblank : forall c p, c <> 32 -> get_angle (c :: p) = get_angle_acc 0 (c :: p).
Proof.
  intros. cbn [get_angle].
  replace (c =? 32) with false by (symmetry; now apply Z.eqb_neq). reflexivity.
Qed.

Lemma get_angle_shows : forall s n rs, shows_fixed 4 s n -> (length s <= 8)%nat ->
  get_angle (s ++ 32 :: rs) = Ok n.
Proof.
  intros s n rs (k & ds & fs & -> & Hd & Hf & Hl & ->) Hlen.
  rewrite !app_length in Hlen. cbn [length] in Hlen.
  assert (Hld: (length ds <= 3)%nat) by lia.
  pose proof (dec_bound ds Hd) as B1. pose proof (dec_bound fs Hf) as B2.
  pose proof (pow10_le (length ds) 3 Hld) as B3. rewrite Hl in B2.
  change (10 ^ Z.of_nat 3) with 1000 in B3. change (10 ^ Z.of_nat 4) with 10000 in *.
  rewrite <- !app_assoc. rewrite get_angle_blanks.
  assert (E: get_angle (ds ++ (46 :: fs) ++ 32 :: rs) = get_angle_acc 0 (ds ++ (46 :: fs) ++ 32 :: rs)).
  { destruct ds as [|c ds]; [now apply get_angle_nonblank|].
    inversion_clear Hd as [|? ? Hc ?]. unfold digit in Hc. cbn [app].
    apply get_angle_nonblank. lia. }
  rewrite E. unfold dec in *. fold (decf 0 ds) in *. fold (decf 0 fs) in *.
  rewrite angle_run by (try assumption; lia).
  cbn [app get_angle_acc]. rewrite angle_run; [|assumption|lia|].
  - cbn [get_angle_acc]. rewrite (decf_shift fs), Hl. reflexivity.
  - rewrite (decf_shift fs), Hl. unfold dec. fold (decf 0 fs). change (10 ^ Z.of_nat 4) with 10000. lia.
Qed.

(** *** Scientific fields *)
Lemma q_scale_eq : forall n f v, ~ (f == 0)%Q -> (q_scale n f v == v * Qpower f (Z.of_nat n))%Q.
Proof.
  induction n; intros f v Hf.
  - cbn. ring.
  - cbn [q_scale]. rewrite IHn by assumption. rewrite Nat2Z.inj_succ.
    unfold Z.succ. rewrite Qpower_plus by assumption.
    change (f ^ 1)%Q with f. ring.
Qed.

Lemma sci_shows : forall s v rest, shows_sci s v -> exists q, sci (s ++ rest) = Ok q /\ (q == v)%Q.
Proof.
  intros s v rest (sg & m & es & e & Hlm & Hm & He & Hsg & Hes & -> & Hv).
  destruct m as [|a [|b [|c [|d [|f [|? ?]]]]]]; try discriminate Hlm. clear Hlm.
  set (m := [a;b;c;d;f]) in *.
  assert (Ha: digit a) by (inversion_clear Hm; assumption).
  change (sci ((sg :: m ++ [es; e]) ++ rest)) with (sci (sg :: a :: b :: c :: d :: f :: es :: e :: rest)).
  unfold sci, rd. cbn [app nth_error bind].
  replace (a =? 32) with false by (symmetry; apply Z.eqb_neq; unfold digit in Ha; lia).
  assert (Hnd: is_digit es = false).
  { destruct Hes as [->|[->| ->]]; reflexivity. }
  assert (Hat: c_atoi (sg :: a :: b :: c :: d :: f :: es :: e :: rest) = Ok (sign_of sg * dec m)).
  { change (sg :: a :: b :: c :: d :: f :: es :: e :: rest) with (sg :: (m ++ [es; e]) ++ rest).
    pose proof (dec_bound m Hm) as B. change (10 ^ Z.of_nat (length m)) with 100000 in B.
    rewrite <- app_assoc. cbn [app].
    unfold c_atoi.
    assert (E: c_strtol (sg :: m ++ es :: e :: rest) = Ok (sign_of sg * dec m)).
    { pose proof (strtol_digits 0 m es (e :: rest) ltac:(discriminate) Hm Hnd) as S0.
      cbn [repeat app] in S0. unfold c_strtol in *.
      destruct Hsg as [->|[->| ->]].
      - cbn [c_skip_space is_space]. change (is_space 32) with true. cbv iota.
        change (sign_of 32) with 1. rewrite Z.mul_1_l. exact S0.
      - cbn [c_skip_space]. change (is_space 43) with false. cbv iota.
        change (43 =? 45) with false. change (43 =? 43) with true. cbv iota.
        rewrite c_digits_run by assumption. change (sign_of 43) with 1. f_equal. unfold dec, decf. lia.
      - cbn [c_skip_space]. change (is_space 45) with false. cbv iota.
        change (45 =? 45) with true. cbv iota.
        rewrite c_digits_run by assumption. cbn [bind]. change (sign_of 45) with (-1). f_equal; unfold dec, decf; lia. }
    rewrite E. cbn [bind]. apply chk_int_ok. unfold int_min, int_max, sign_of.
    destruct (sg =? 45); lia. }
  rewrite Hat. cbn [bind].
  set (iv := sign_of sg * dec m) in *.
  destruct (Z.eqb_spec iv 0) as [Hz|Hz].
  { exists 0%Q. split; [reflexivity|]. rewrite Hv, Hz. ring. }
  unfold digit in He.
  assert (P10: ~ (10 == 0)%Q) by discriminate.
  assert (E5: (Qpower 10 (-5) == 1 # 100000)%Q) by reflexivity.
  destruct (Z.eqb_spec e 48) as [->|Hne].
  { eexists. split; [reflexivity|]. rewrite Hv.
    replace ((if es =? 45 then - (48 - 48) else 48 - 48) - 5) with (-5) by (destruct (es =? 45); reflexivity).
    rewrite E5. reflexivity. }
  assert (Hex: (e - 48 <? 0) = false) by (apply Z.ltb_ge; lia).
  unfold sci_loop. rewrite Hex.
  destruct (Z.eqb_spec es 45) as [->|Hes45].
  - eexists. split; [reflexivity|]. rewrite q_scale_eq by discriminate. rewrite Z2Nat.id, Hv by lia.
    replace (- (e - 48) - 5) with (- (e - 48) + (-5)) by lia.
    rewrite Qpower_plus by assumption. rewrite E5.
    rewrite Qpower_opp. change (1 # 10)%Q with (/ 10)%Q. rewrite Qinv_power. ring.
  - eexists. split; [reflexivity|]. rewrite q_scale_eq by discriminate. rewrite Z2Nat.id, Hv by lia.
    replace (e - 48 - 5) with (e - 48 + (-5)) by lia.
    rewrite Qpower_plus by assumption. rewrite E5. ring.
Qed.
