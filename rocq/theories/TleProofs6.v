(** Blank-padded catalogue numbers and independence from the other columns. *)
From Coq Require Import ZArith List Bool Lia QArith.
From Verif Require Import ListLemmas CLib TleModel TleSpec TleProofs1 TleProofs2 TleProofs3 TleProofs4 TleProofs5.
Import ListNotations.
Open Scope Z_scope.

Lemma base34_digit : forall c, digit c -> base34_to_int c = c - 48.
Proof.
  unfold digit, base34_to_int; intros c H.
  replace (c =? 32) with false by (symmetry; apply Z.eqb_neq; lia).
  replace ((48 <=? c) && (c <=? 57)) with true; [reflexivity|].
  symmetry; apply andb_true_iff; rewrite !Z.leb_le; lia.
Qed.

Lemma norad_blank_padded : forall k ds r rs, (k + length ds = 5)%nat -> (1 <= k)%nat -> ds <> [] ->
  Forall digit ds -> is_digit r = false ->
  get_norad_number (repeat 32 k ++ ds ++ r :: rs) = Ok (dec ds).
Proof.
  intros k ds r rs Hl Hk Hne HF Hr.
  pose proof (strtol_digits (k - 1) ds r rs Hne HF Hr) as HS.
  pose proof (dec_bound ds HF) as HB.
  pose proof (pow10_le (length ds) 5 ltac:(lia)) as HP. change (10 ^ Z.of_nat 5) with 100000 in HP.
  assert (HA: c_atoi (repeat 32 (k - 1) ++ ds ++ r :: rs) = Ok (dec ds)).
  { unfold c_atoi. rewrite HS. apply chk_int_ok. unfold int_min, int_max; lia. }
  destruct k as [|k]; [lia|]. cbn [Nat.sub] in HA. rewrite Nat.sub_0_r in HA.
  unfold get_norad_number.
  remember (repeat 32 k ++ ds ++ r :: rs) as q eqn:Hq.
  change (repeat 32 (S k) ++ ds ++ r :: rs) with (32 :: repeat 32 k ++ ds ++ r :: rs). rewrite <- Hq.
  assert (Hc: forall i, (i < 4)%nat -> exists c, nth_error q i = Some c /\ 0 <= base34_to_int c <= 9).
  { intros i Hi. subst q.
    destruct (lt_dec i k) as [Hik|Hik].
    - exists 32. split; [|cbn; lia].
      rewrite nth_error_app1 by (rewrite repeat_length; lia). apply nth_error_repeat; lia.
    - destruct (nth_error ds (i - k)) as [c|] eqn:E.
      + exists c. split.
        * rewrite nth_error_app2, repeat_length by (rewrite ?repeat_length; lia).
          rewrite nth_error_app1; [assumption|]. apply nth_error_Some. congruence.
        * apply nth_error_In in E. rewrite Forall_forall in HF. specialize (HF c E).
          rewrite base34_digit by assumption. unfold digit in HF. lia.
      + apply nth_error_None in E. lia. }
  destruct (Hc 0%nat ltac:(lia)) as (c1 & E1 & B1). destruct (Hc 1%nat ltac:(lia)) as (c2 & E2 & B2).
  destruct (Hc 2%nat ltac:(lia)) as (c3 & E3 & B3). destruct (Hc 3%nat ltac:(lia)) as (c4 & E4 & B4).
  assert (R0: rd (32 :: q) 0 = Ok 32) by reflexivity.
  assert (R1: rd (32 :: q) 1 = Ok c1) by (unfold rd; change (nth_error (32 :: q) 1) with (nth_error q 0); now rewrite E1).
  assert (R2: rd (32 :: q) 2 = Ok c2) by (unfold rd; change (nth_error (32 :: q) 2) with (nth_error q 1); now rewrite E2).
  assert (R3: rd (32 :: q) 3 = Ok c3) by (unfold rd; change (nth_error (32 :: q) 3) with (nth_error q 2); now rewrite E3).
  assert (R4: rd (32 :: q) 4 = Ok c4) by (unfold rd; change (nth_error (32 :: q) 4) with (nth_error q 3); now rewrite E4).
  rewrite R0, R1, R2, R3, R4. cbn [bind].
  change (base34_to_int 32) with 0. cbn [Z.eqb].
  assert (NE: forall z, 0 <= z <= 9 -> (z =? -1) = false /\ (9 <? z) = false).
  { intros; split; [apply Z.eqb_neq|apply Z.ltb_ge]; lia. }
  destruct (NE _ B1) as [-> ->], (NE _ B2) as [-> ->], (NE _ B3) as [-> ->], (NE _ B4) as [-> ->].
  change (adv (32 :: q) 1) with q. rewrite HA. cbn [bind].
  apply chk_int_ok. unfold int_min, int_max; lia.
Qed.

Lemma norad_own_columns : forall l m, (8 <= length l)%nat -> (8 <= length m)%nat ->
  is_code (field l 2 5) -> field l 2 5 = field m 2 5 -> ~ digit (col l 7) -> ~ digit (col m 7) ->
  get_norad_number (adv l 2) = get_norad_number (adv m 2).
Proof.
  intros l m Hl Hm HC HE Dl Dm.
  rewrite (adv_field l 2 5), (adv_field m 2 5) by lia. rewrite <- HE.
  change (2 + 5)%nat with 7%nat.
  destruct (encode_decode (field l 2 5) (col l 7) (skipn 8 l) HC (is_digit_false _ Dl)) as (n & E1 & Hn & En).
  rewrite E1, <- En, decode_encode; [reflexivity|assumption|now apply is_digit_false].
Qed.

Lemma checksum_zero_inv : forall l, (70 <= length l)%nat -> tle_checksum l = Ok 0 ->
  line_start l /\ data_ok l /\ col l 69 <= 32 /\ (col l 68 - 48) mod 10 = total (firstn 68 l) mod 10.
Proof.
  intros l Hl H0.
  destruct (checksum_cases l Hl) as (H1 & H2 & H3 & H4).
  assert (Hs: line_start l).
  { unfold line_start in *. destruct (Z.eq_dec (col l 0) 49), (Z.eq_dec (col l 0) 50), (Z.eq_dec (col l 1) 32); try tauto;
    rewrite H1 in H0 by tauto; discriminate H0. }
  assert (Hd: data_ok l).
  { unfold data_ok in *. destruct (forallb printableb (firstn 68 l)) eqn:E; [now apply forallb_printable|].
    rewrite H2 in H0; [discriminate H0|assumption|]. intro C. apply forallb_printable in C. congruence. }
  assert (H69: col l 69 <= 32).
  { destruct (Z_lt_le_dec 32 (col l 69)); [|assumption]. rewrite H3 in H0 by assumption. discriminate H0. }
  repeat split; try assumption; try apply Hs.
  destruct (H4 Hs Hd H69) as (r & Hr & _ & Hm). rewrite Hr in H0. apply Ok_inj in H0. subst r.
  apply Z.mod_divide in Hm; [|discriminate]. destruct Hm as [q Hq].
  replace (col l 68 - 48) with (total (firstn 68 l) + (- q) * 10) by lia.
  now rewrite Z.mod_add.
Qed.

Lemma sci_blank : forall s rest, (2 <= length s)%nat -> col s 1 = 32 -> sci (s ++ rest) = Ok 0%Q.
Proof.
  intros s rest Hl Hc. destruct s as [|a [|b s]]; [cbn in Hl; lia|cbn in Hl; lia|].
  unfold col in Hc. cbn in Hc. subst b. reflexivity.
Qed.

Lemma checksum_defined : forall l, (70 <= length l)%nat -> exists r, tle_checksum l = Ok r.
Proof.
  intros l Hl. rewrite tle_checksum_full.
  destruct l as [|a [|b l]]; [cbn in Hl; lia|cbn in Hl; lia|].
  replace (70 <=? length (a :: b :: l))%nat with true by (symmetry; apply Nat.leb_le; lia).
  repeat match goal with |- context [if ?b then _ else _] => destruct b end; eauto.
Qed.

Lemma parse_safe : forall l1 l2 s, (70 <= length l1)%nat -> (70 <= length l2)%nat ->
  (exists e, layout1 l1 e /\ layout2 l2 e) \/
  (~ line_start l1 \/ ~ line_start l2 \/ ~ data_ok l1 \/ ~ data_ok l2 \/ 32 < col l1 69 \/ 32 < col l2 69) ->
  exists c s', parse_elements l1 l2 s = Ok (c, s').
Proof.
  intros l1 l2 s Hl1 Hl2 H.
  assert (HU: forall l, (70 <= length l)%nat -> (~ line_start l \/ ~ data_ok l \/ 32 < col l 69) ->
              exists r, tle_checksum l = Ok r /\ r < 0).
  { intros l Hl HN. destruct (checksum_defined l Hl) as [r Hr].
    destruct (Z_lt_le_dec r 0) as [|Hge]; [eauto|exfalso].
    destruct (checksum_cases l Hl) as (C1 & C2 & C3 & _).
    assert (Hs: line_start l).
    { unfold line_start in *. destruct (Z.eq_dec (col l 0) 49), (Z.eq_dec (col l 0) 50), (Z.eq_dec (col l 1) 32); try tauto;
      rewrite C1 in Hr by tauto; apply Ok_inj in Hr; lia. }
    assert (Hd: data_ok l).
    { unfold data_ok in *. destruct (forallb printableb (firstn 68 l)) eqn:E; [now apply forallb_printable|].
      rewrite C2 in Hr; [apply Ok_inj in Hr; lia|assumption|]. intro C. apply forallb_printable in C. congruence. }
    destruct HN as [HN|[HN|HN]]; [tauto|tauto|].
    rewrite C3 in Hr by assumption. apply Ok_inj in Hr. lia. }
  destruct (Z.eq_dec (col l1 0) 49) as [E1|E1].
  2:{ exists (-104), s. unfold parse_elements. rewrite (rd_col l1 0) by lia. cbn [bind].
      replace (col l1 0 =? 49) with false by (symmetry; now apply Z.eqb_neq). reflexivity. }
  destruct (Z.eq_dec (col l2 0) 50) as [E2|E2].
  2:{ exists (-104), s. unfold parse_elements. rewrite (rd_col l1 0), E1 by lia. cbn [bind].
      change (49 =? 49) with true. cbv iota. rewrite (rd_col l2 0) by lia. cbn [bind].
      replace (col l2 0 =? 50) with false by (symmetry; now apply Z.eqb_neq). reflexivity. }
  destruct (checksum_defined l1 Hl1) as [k1 K1]. destruct (checksum_defined l2 Hl2) as [k2 K2].
  assert (START: parse_elements l1 l2 s =
     if negb ((if 0 <? k1 then 0 else k1) =? 0) then Ok ((if 0 <? k1 then 0 else k1) - 100, s) else
     if negb ((if 0 <? k2 then 0 else k2) =? 0) then Ok ((if 0 <? k2 then 0 else k2), s) else
     (sc <- parse_common l1 l2 s ;;
      if ephemeris_type sc =? 72 then s' <- parse_high l1 l2 sc ;; Ok (0, s')
      else s' <- parse_mean l1 l2 sc ;; Ok ((if 0 <? k2 then Z.lor (if 0 <? k1 then 1 else 0) 2 else (if 0 <? k1 then 1 else 0)), s'))).
  { unfold parse_elements. rewrite (rd_col l1 0), E1 by lia. cbn [bind].
    change (49 =? 49) with true. cbv iota. rewrite (rd_col l2 0), E2 by lia. cbn [bind].
    change (50 =? 50) with true. cbn [negb orb]. rewrite K1. cbn [bind]. rewrite K2. reflexivity. }
  rewrite START.
  destruct (negb ((if 0 <? k1 then 0 else k1) =? 0)) eqn:N1; [eauto|].
  destruct (negb ((if 0 <? k2 then 0 else k2) =? 0)) eqn:N2; [eauto|].
  destruct H as [(e & L1 & L2)|H].
  - destruct (parse_common_ok l1 l2 e s L1 L2) as (sc & -> & P). cbn [bind].
    destruct P as (_ & _ & _ & PT & _). rewrite PT.
    destruct (parse_mean_ok l1 l2 e sc L1 L2) as (sm & -> & _). cbn [bind].
    destruct L1 as (_ & _ & _ & _ & _ & _ & _ & _ & _ & _ & _ & _ & _ & _ & _ & _ & _ & _ & NT & _).
    replace (e_type e =? 72) with false by (symmetry; now apply Z.eqb_neq). eauto.
  - exfalso.
    assert (0 <= k1 /\ 0 <= k2) as [P1 P2].
    { split.
      - destruct (Z.ltb_spec 0 k1); [lia|]. destruct (Z.eqb_spec k1 0); [lia|discriminate N1].
      - destruct (Z.ltb_spec 0 k2); [lia|]. destruct (Z.eqb_spec k2 0); [lia|discriminate N2]. }
    assert (HH: (~ line_start l1 \/ ~ data_ok l1 \/ 32 < col l1 69) \/ (~ line_start l2 \/ ~ data_ok l2 \/ 32 < col l2 69)) by tauto.
    destruct HH as [HH|HH].
    + destruct (HU l1 Hl1 HH) as (r & Hr & Hneg). rewrite K1 in Hr. apply Ok_inj in Hr. lia.
    + destruct (HU l2 Hl2 HH) as (r & Hr & Hneg). rewrite K2 in Hr. apply Ok_inj in Hr. lia.
Qed.

Lemma base34_not_symbol : forall c, ~ In c symbols -> c <> 32 -> base34_to_int c = -1.
Proof.
  intros c H H32. unfold base34_to_int.
  replace (c =? 32) with false by (symmetry; now apply Z.eqb_neq).
  destruct ((48 <=? c) && (c <=? 57)) eqn:E1.
  { exfalso. apply H. apply andb_true_iff in E1. rewrite !Z.leb_le in E1. 
    cbn. lia. }
  destruct ((65 <=? c) && (c <=? 72)) eqn:E2.
  { exfalso. apply H. apply andb_true_iff in E2. rewrite !Z.leb_le in E2. cbn. lia. }
  destruct ((74 <=? c) && (c <=? 78)) eqn:E3.
  { exfalso. apply H. apply andb_true_iff in E3. rewrite !Z.leb_le in E3. cbn. lia. }
  destruct ((80 <=? c) && (c <=? 90)) eqn:E4; [|reflexivity].
  exfalso. apply H. apply andb_true_iff in E4. rewrite !Z.leb_le in E4. cbn. lia.
Qed.

Lemma norad_not_code : forall s rest c, length s = 5%nat -> In c s -> ~ In c symbols -> c <> 32 ->
  get_norad_number (s ++ rest) = Ok 0.
Proof.
  intros s rest c Hl Hi Hs H32. pose proof (base34_not_symbol c Hs H32) as B.
  destruct s as [|a0 [|a1 [|a2 [|a3 [|a4 [|? ?]]]]]]; try discriminate Hl.
  unfold get_norad_number, rd. cbn [app nth_error bind].
  cbn [In] in Hi. clear Hs.
  destruct (base34_to_int a0 =? -1) eqn:E0; [reflexivity|].
  destruct (base34_to_int a1 =? -1) eqn:E1; [reflexivity|].
  destruct (base34_to_int a2 =? -1) eqn:E2; [reflexivity|].
  destruct (base34_to_int a3 =? -1) eqn:E3; [reflexivity|].
  destruct (base34_to_int a4 =? -1) eqn:E4; [reflexivity|].
  exfalso. apply Z.eqb_neq in E0, E1, E2, E3, E4.
  destruct Hi as [->|[->|[->|[->|[->|[]]]]]]; congruence.
Qed.
