(** Lemmas on catalogue codes. *)
From Coq Require Import ZArith List Bool Lia QArith.
From Verif Require Import ListLemmas CLib TleModel TleSpec TleProofs1.
Import ListNotations.
Open Scope Z_scope.
Ltac Zify.zify_post_hook ::= Z.div_mod_to_equations.

Lemma small_cases : forall (P : Z -> bool) n,
  forallb (fun k => P (Z.of_nat k)) (seq 0 n) = true ->
  forall k, 0 <= k < Z.of_nat n -> P k = true.
Proof.
  intros P n H k Hk. rewrite forallb_forall in H.
  specialize (H (Z.to_nat k)). rewrite Z2Nat.id in H by lia.
  apply H. apply in_seq. lia.
Qed.

Lemma base34_sym : forall k, 0 <= k < 34 -> base34_to_int (sym k) = k.
Proof.
  intros k Hk. apply Z.eqb_eq. revert k Hk.
  apply (small_cases (fun k => base34_to_int (sym k) =? k) 34). reflexivity.
Qed.

Lemma sym_low : forall k, 0 <= k < 10 -> sym k = 48 + k.
Proof.
  intros k Hk. apply Z.eqb_eq. revert k Hk.
  apply (small_cases (fun k => sym k =? 48 + k) 10). reflexivity.
Qed.

Lemma sym_of_base34 : forall c, In c symbols ->
  sym (base34_to_int c) = c /\ 0 <= base34_to_int c < 34.
Proof.
  intros c H. cbn in H.
  repeat (destruct H as [<-|H]; [vm_compute; intuition congruence|]). destruct H.
Qed.

Lemma is_digit_48 : forall k, 0 <= k < 10 -> is_digit (48 + k) = true.
Proof. intros; unfold is_digit. apply andb_true_iff; rewrite !Z.leb_le; lia. Qed.

(** Number denoted by five symbol values. *)
Definition norad_value (d0 d1 d2 d3 d4 : Z) : Z :=
  if 9 <? d4 then
    340000 + (d4 - 10) + 24 * (d3 + d2 * 34 + d1 * 1156 + d0 * 39304)
  else if 9 <? d3 then
    32412064 + d4 + (d3 - 10) * 10 + 240 * (d2 + d1 * 34 + d0 * 1156)
  else if 9 <? d2 then
    41845024 + d4 + d3 * 10 + (d2 - 10) * 100 + 2400 * (d1 + d0 * 34)
  else if 9 <? d1 then
    44619424 + d4 + d3 * 10 + d2 * 100 + (d1 - 10) * 1000 + d0 * 24000
  else d0 * 10000 + d1 * 1000 + d2 * 100 + d3 * 10 + d4.

Lemma get_norad_syms : forall d0 d1 d2 d3 d4 r rs,
  0 <= d0 < 34 -> 0 <= d1 < 34 -> 0 <= d2 < 34 -> 0 <= d3 < 34 -> 0 <= d4 < 34 ->
  is_digit r = false ->
  get_norad_number (sym d0 :: sym d1 :: sym d2 :: sym d3 :: sym d4 :: r :: rs)
  = Ok (norad_value d0 d1 d2 d3 d4).
Proof.
  intros d0 d1 d2 d3 d4 r rs H0 H1 H2 H3 H4 Hr.
  unfold get_norad_number, rd. cbn [nth_error bind].
  rewrite !base34_sym by assumption.
  assert (E: forall d, 0 <= d < 34 -> (d =? -1) = false) by (intros; apply Z.eqb_neq; lia).
  rewrite !E by assumption. cbn [bind]. unfold norad_value.
  destruct (Z.ltb_spec 9 d4); [f_equal; lia|].
  destruct (Z.ltb_spec 9 d3); [f_equal; lia|].
  destruct (Z.ltb_spec 9 d2); [f_equal; lia|].
  destruct (Z.ltb_spec 9 d1); [f_equal; lia|].
  unfold adv. cbn [skipn].
  rewrite !sym_low by lia.
  unfold c_atoi, c_strtol. cbn [c_skip_space].
  replace (is_space (48 + d1)) with false.
  2:{ unfold is_space. symmetry. apply orb_false_iff. split; [apply Z.eqb_neq; lia|].
      apply andb_false_iff. right. apply Z.leb_gt. lia. }
  replace (48 + d1 =? 45) with false by (symmetry; apply Z.eqb_neq; lia).
  replace (48 + d1 =? 43) with false by (symmetry; apply Z.eqb_neq; lia).
  cbn [c_digits]. rewrite !is_digit_48 by lia. rewrite Hr. cbn [bind].
  unfold chk_int, in_int, int_min, int_max.
  match goal with |- context [if ?b then _ else _] => replace b with true end.
  2:{ symmetry; apply andb_true_iff; rewrite !Z.leb_le; lia. }
  cbn [bind].
  match goal with |- context [if ?b then _ else _] => replace b with true end.
  2:{ symmetry; apply andb_true_iff; rewrite !Z.leb_le; lia. }
  f_equal. lia.
Qed.

Lemma pow34_3 : 34 ^ 3 = 39304. Proof. reflexivity. Qed.
Lemma pow34_2 : 34 ^ 2 = 1156. Proof. reflexivity. Qed.
Lemma pow34_1 : 34 ^ 1 = 34. Proof. reflexivity. Qed.
Lemma pow34_0 : 34 ^ 0 = 1. Proof. reflexivity. Qed.
Lemma pow10_4 : 10 ^ 4 = 10000. Proof. reflexivity. Qed.
Lemma pow10_3 : 10 ^ 3 = 1000. Proof. reflexivity. Qed.
Lemma pow10_2 : 10 ^ 2 = 100. Proof. reflexivity. Qed.
Lemma pow10_1 : 10 ^ 1 = 10. Proof. reflexivity. Qed.
Lemma pow10_0 : 10 ^ 0 = 1. Proof. reflexivity. Qed.

Ltac pows := unfold dig;
  rewrite ?pow34_3, ?pow34_2, ?pow34_1, ?pow34_0, ?pow10_4, ?pow10_3, ?pow10_2, ?pow10_1, ?pow10_0,
    ?Z.div_1_r.

(** Symbol values of the code of [n]. *)
Lemma encode_syms : forall n, 0 <= n < norad_count ->
  exists d0 d1 d2 d3 d4,
    encode_norad n = [sym d0; sym d1; sym d2; sym d3; sym d4] /\
    0 <= d0 < 34 /\ 0 <= d1 < 34 /\ 0 <= d2 < 34 /\ 0 <= d3 < 34 /\ 0 <= d4 < 34 /\
    norad_value d0 d1 d2 d3 d4 = n.
Proof.
  unfold norad_count; intros n Hn. unfold encode_norad.
  destruct (Z.ltb_spec n 100000).
  { do 5 eexists. split; [reflexivity|]. pows. unfold norad_value.
    repeat split; try lia.
    repeat match goal with |- context [?a <? ?b] => destruct (Z.ltb_spec a b); [lia|] end. lia. }
  destruct (Z.ltb_spec n 340000).
  { do 5 eexists. split; [reflexivity|]. pows. unfold norad_value.
    repeat split; try lia.
    repeat match goal with |- context [?a <? ?b] => destruct (Z.ltb_spec a b); [lia|] end. lia. }
  destruct (Z.ltb_spec n 32412064).
  { do 5 eexists. split; [reflexivity|]. pows. unfold norad_value.
    set (m := n - 340000). assert (Hm: 0 <= m < 32072064) by lia.
    repeat split; try lia.
    replace (9 <? 10 + m mod 24) with true by (symmetry; apply Z.ltb_lt; lia).
    set (q := m / 24). assert (0 <= q < 1336336) by lia. assert (m = 24 * q + m mod 24) by lia.
    assert (q = q mod 34 + (q / 34) mod 34 * 34 + (q / 1156) mod 34 * 1156 + (q / 39304) mod 34 * 39304) by lia.
    lia. }
  destruct (Z.ltb_spec n 41845024).
  { do 5 eexists. split; [reflexivity|]. pows. unfold norad_value.
    set (m := n - 32412064). assert (Hm: 0 <= m < 9432960) by lia.
    repeat split; try lia.
    replace (9 <? m mod 10) with false by (symmetry; apply Z.ltb_ge; lia).
    replace (9 <? 10 + (m / 10) mod 24) with true by (symmetry; apply Z.ltb_lt; lia).
    set (q := m / 240). assert (0 <= q < 39304) by lia.
    assert (m = 240 * q + (m / 10) mod 24 * 10 + m mod 10) by lia.
    assert (q = q mod 34 + (q / 34) mod 34 * 34 + (q / 1156) mod 34 * 1156) by lia.
    lia. }
  destruct (Z.ltb_spec n 44619424).
  { do 5 eexists. split; [reflexivity|]. pows. unfold norad_value.
    set (m := n - 41845024). assert (Hm: 0 <= m < 2774400) by lia.
    repeat split; try lia.
    replace (9 <? m mod 10) with false by (symmetry; apply Z.ltb_ge; lia).
    replace (9 <? (m / 10) mod 10) with false by (symmetry; apply Z.ltb_ge; lia).
    replace (9 <? 10 + (m / 100) mod 24) with true by (symmetry; apply Z.ltb_lt; lia).
    set (q := m / 2400). assert (0 <= q < 1156) by lia.
    assert (m = 2400 * q + (m / 100) mod 24 * 100 + (m / 10) mod 10 * 10 + m mod 10) by lia.
    assert (q = q mod 34 + (q / 34) mod 34 * 34) by lia.
    lia. }
  { do 5 eexists. split; [reflexivity|]. pows. unfold norad_value.
    set (m := n - 44619424). assert (Hm: 0 <= m < 816000) by lia.
    repeat split; try lia.
    replace (9 <? m mod 10) with false by (symmetry; apply Z.ltb_ge; lia).
    replace (9 <? (m / 10) mod 10) with false by (symmetry; apply Z.ltb_ge; lia).
    replace (9 <? (m / 100) mod 10) with false by (symmetry; apply Z.ltb_ge; lia).
    replace (9 <? 10 + (m / 1000) mod 24) with true by (symmetry; apply Z.ltb_lt; lia).
    lia. }
Qed.

Lemma decode_encode : forall n r rs, 0 <= n < norad_count -> is_digit r = false ->
  get_norad_number (encode_norad n ++ r :: rs) = Ok n.
Proof.
  intros n r rs Hn Hr.
  destruct (encode_syms n Hn) as (d0 & d1 & d2 & d3 & d4 & -> & H0 & H1 & H2 & H3 & H4 & Hv).
  cbn [app]. rewrite get_norad_syms by assumption. now rewrite Hv.
Qed.

Lemma norad_value_range : forall d0 d1 d2 d3 d4,
  0 <= d0 < 34 -> 0 <= d1 < 34 -> 0 <= d2 < 34 -> 0 <= d3 < 34 -> 0 <= d4 < 34 ->
  0 <= norad_value d0 d1 d2 d3 d4 < norad_count.
Proof.
  intros. unfold norad_value, norad_count.
  repeat match goal with |- context [?a <? ?b] => destruct (Z.ltb_spec a b) end; lia.
Qed.

Lemma norad_value_inj : forall d0 d1 d2 d3 d4 e0 e1 e2 e3 e4,
  0 <= d0 < 34 -> 0 <= d1 < 34 -> 0 <= d2 < 34 -> 0 <= d3 < 34 -> 0 <= d4 < 34 ->
  0 <= e0 < 34 -> 0 <= e1 < 34 -> 0 <= e2 < 34 -> 0 <= e3 < 34 -> 0 <= e4 < 34 ->
  norad_value d0 d1 d2 d3 d4 = norad_value e0 e1 e2 e3 e4 ->
  d0 = e0 /\ d1 = e1 /\ d2 = e2 /\ d3 = e3 /\ d4 = e4.
Proof.
  intros until e4. intros ? ? ? ? ? ? ? ? ? ?. unfold norad_value.
  repeat match goal with |- context [?a <? ?b] => destruct (Z.ltb_spec a b) end; intros; lia.
Qed.

Lemma encode_decode : forall s r rs, is_code s -> is_digit r = false ->
  exists n, get_norad_number (s ++ r :: rs) = Ok n /\ 0 <= n < norad_count /\ encode_norad n = s.
Proof.
  intros s r rs [Hl Hs] Hr.
  destruct s as [|c0 [|c1 [|c2 [|c3 [|c4 [|? ?]]]]]]; try discriminate Hl.
  inversion_clear Hs as [|? ? I0 Hs0]. inversion_clear Hs0 as [|? ? I1 Hs1].
  inversion_clear Hs1 as [|? ? I2 Hs2]. inversion_clear Hs2 as [|? ? I3 Hs3].
  inversion_clear Hs3 as [|? ? I4 _].
  apply sym_of_base34 in I0, I1, I2, I3, I4.
  destruct I0 as [E0 B0], I1 as [E1 B1], I2 as [E2 B2], I3 as [E3 B3], I4 as [E4 B4].
  set (d0 := base34_to_int c0) in *. set (d1 := base34_to_int c1) in *.
  set (d2 := base34_to_int c2) in *. set (d3 := base34_to_int c3) in *.
  set (d4 := base34_to_int c4) in *.
  clearbody d0 d1 d2 d3 d4. subst c0 c1 c2 c3 c4.
  exists (norad_value d0 d1 d2 d3 d4).
  cbn [app]. rewrite get_norad_syms by assumption.
  pose proof (norad_value_range d0 d1 d2 d3 d4 B0 B1 B2 B3 B4) as HR.
  split; [reflexivity|]. split; [assumption|].
  destruct (encode_syms _ HR) as (e0 & e1 & e2 & e3 & e4 & -> & H0 & H1 & H2 & H3 & H4 & Hv).
  apply norad_value_inj in Hv; try assumption.
  destruct Hv as (-> & -> & -> & -> & ->). reflexivity.
Qed.

Lemma encode_is_code : forall n, 0 <= n < norad_count -> is_code (encode_norad n).
Proof.
  intros n Hn.
  destruct (encode_syms n Hn) as (d0 & d1 & d2 & d3 & d4 & -> & H0 & H1 & H2 & H3 & H4 & Hv).
  split; [reflexivity|].
  assert (S: forall d, 0 <= d < 34 -> In (sym d) symbols).
  { intros d Hd. unfold sym. apply nth_In. cbn. lia. }
  repeat (constructor; [now apply S|]). constructor.
Qed.
