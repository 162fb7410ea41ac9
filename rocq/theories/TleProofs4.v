(** Base-36 components, and the correctness of [parse_elements]. *)
From Coq Require Import ZArith List Bool Lia QArith Qfield Qpower.
From Verif Require Import ListLemmas CLib TleModel TleSpec TleProofs1 TleProofs2 TleProofs3.
Import ListNotations.
Open Scope Z_scope.
Ltac Zify.zify_post_hook ::= Z.div_mod_to_equations.

Lemma dehex_sym36 : forall k, 0 <= k < 36 -> mutant_dehex (sym36 k) = k.
Proof.
  intros k Hk. apply Z.eqb_eq. revert k Hk.
  apply (small_cases (fun k => mutant_dehex (sym36 k) =? k) 36). reflexivity.
Qed.

Lemma dehex_range : forall c, mutant_dehex c < 36 /\ (0 <= mutant_dehex c -> sym36 (mutant_dehex c) = c).
Proof.
  intros c. unfold mutant_dehex, sym36.
  destruct (Z.leb_spec c 57), (Z.leb_spec 48 c), (Z.leb_spec 65 c), (Z.leb_spec c 90); cbn [andb];
    split; intros; try lia;
    match goal with |- context [?a <? ?b] => destruct (Z.ltb_spec a b) end; lia.
Qed.

Lemma high_loop_map : forall ds v rest, Forall (fun d => 0 <= d < 36) ds ->
  high_loop (length ds) v (map sym36 ds ++ rest) = Ok (fold_left (fun a d => a * 36 + d) ds v).
Proof.
  induction ds as [|d ds IH]; intros v rest HF; [reflexivity|].
  inversion_clear HF as [|? ? Hd HF'].
  cbn [length map app high_loop]. change (rd (sym36 d :: map sym36 ds ++ rest) 0) with (@Ok Z (sym36 d)).
  cbn [bind]. rewrite dehex_sym36 by assumption.
  replace (d <? 0) with false by (symmetry; apply Z.ltb_ge; lia).
  change (adv (sym36 d :: map sym36 ds ++ rest) 1) with (map sym36 ds ++ rest).
  rewrite IH by assumption. reflexivity.
Qed.

Lemma horner36 : forall a, 0 <= a < 36 ^ 8 ->
  fold_left (fun v d => v * 36 + d) (map (dig 36 a) [7;6;5;4;3;2;1;0]) 0 = a.
Proof.
  intros a Ha. change (36 ^ 8) with 2821109907456 in Ha.
  cbn [map fold_left]. unfold dig.
  change (36 ^ 7) with 78364164096. change (36 ^ 6) with 2176782336.
  change (36 ^ 5) with 60466176. change (36 ^ 4) with 1679616.
  change (36 ^ 3) with 46656. change (36 ^ 2) with 1296. change (36 ^ 1) with 36. change (36 ^ 0) with 1.
  assert (S: forall k, 0 < k -> a / k = (a / (k * 36)) * 36 + (a / k) mod 36).
  { intros k Hk. rewrite <- Z.div_div by lia. pose proof (Z.div_mod (a / k) 36). lia. }
  assert (E7: (a / 78364164096) mod 36 = a / 78364164096) by (apply Z.mod_small; lia).
  rewrite E7, Z.add_0_l.
  rewrite (eq_sym (S 2176782336 eq_refl) : a / 78364164096 * 36 + (a / 2176782336) mod 36 = a / 2176782336).
  rewrite (eq_sym (S 60466176 eq_refl) : a / 2176782336 * 36 + (a / 60466176) mod 36 = a / 60466176).
  rewrite (eq_sym (S 1679616 eq_refl) : a / 60466176 * 36 + (a / 1679616) mod 36 = a / 1679616).
  rewrite (eq_sym (S 46656 eq_refl) : a / 1679616 * 36 + (a / 46656) mod 36 = a / 46656).
  rewrite (eq_sym (S 1296 eq_refl) : a / 46656 * 36 + (a / 1296) mod 36 = a / 1296).
  rewrite (eq_sym (S 36 eq_refl) : a / 1296 * 36 + (a / 36) mod 36 = a / 36).
  rewrite (eq_sym (S 1 eq_refl) : a / 36 * 36 + (a / 1) mod 36 = a / 1).
  apply Z.div_1_r.
Qed.

Lemma high_roundtrip : forall v rest, Z.abs v < 36 ^ 8 -> get_high_value (encode36 v ++ rest) = Ok v.
Proof.
  intros v rest Hv. unfold encode36, get_high_value.
  cbn [app]. unfold rd at 1. cbn [nth_error bind].
  set (s := if v <? 0 then 45 else 43).
  replace ((s =? 43) || (s =? 45)) with true by (unfold s; destruct (v <? 0); reflexivity).
  unfold adv. cbn [skipn].
  rewrite <- (map_map (dig 36 (Z.abs v)) sym36).
  pose proof (high_loop_map (map (dig 36 (Z.abs v)) [7;6;5;4;3;2;1;0]) 0 rest) as HL.
  rewrite map_length in HL. change (length [7;6;5;4;3;2;1;0]) with 8%nat in HL.
  rewrite HL.
  2:{ apply Forall_map. apply Forall_forall. intros k _. unfold dig. apply Z.mod_pos_bound. lia. }
  rewrite horner36 by lia. cbn [bind]. unfold s.
  destruct (Z.ltb_spec v 0); f_equal; cbn; lia.
Qed.

(** Every accepted component text is [sign] + base-36 digits of its value. *)
Lemma high_loop_inv : forall n v p r, high_loop n v p = Ok r ->
  exists ds rest, p = map sym36 ds ++ rest /\ length ds = n /\ Forall (fun d => 0 <= d < 36) ds.
Proof.
  induction n; intros v p r H.
  - exists [], p. repeat split; constructor.
  - destruct p as [|c p]; [discriminate H|].
    cbn [high_loop] in H. change (rd (c :: p) 0) with (@Ok Z c) in H. cbn [bind] in H.
    destruct (dehex_range c) as [R1 R2].
    destruct (Z.ltb_spec (mutant_dehex c) 0); [discriminate H|].
    change (adv (c :: p) 1) with p in H.
    apply IHn in H. destruct H as (ds & rest & -> & Hl & HF).
    exists (mutant_dehex c :: ds), rest. cbn [map app length]. rewrite R2 by lia.
    repeat split; [now f_equal|]. constructor; [lia|assumption].
Qed.

Lemma fold36_bound : forall ds v, Forall (fun d => 0 <= d < 36) ds -> 0 <= v ->
  0 <= fold_left (fun a d => a * 36 + d) ds v < (v + 1) * 36 ^ Z.of_nat (length ds).
Proof.
  induction ds as [|d ds IH]; intros v HF Hv; [cbn; lia|].
  inversion_clear HF as [|? ? Hd HF']. cbn [fold_left length].
  specialize (IH (v * 36 + d) HF' ltac:(lia)).
  rewrite Nat2Z.inj_succ, Z.pow_succ_r by lia.
  assert (0 < 36 ^ Z.of_nat (length ds)) by (apply Z.pow_pos_nonneg; lia). nia.
Qed.

Lemma high_value_range : forall p v, get_high_value p = Ok v -> Z.abs v < 36 ^ 8.
Proof.
  intros p v H. unfold get_high_value in H.
  destruct (rd p 0) as [s|]; [|discriminate]. cbn [bind] in H.
  destruct ((s =? 43) || (s =? 45)); [|discriminate].
  destruct (high_loop 8 0 (adv p 1)) as [w|] eqn:E; [|discriminate]. cbn [bind] in H.
  destruct (high_loop_inv _ _ _ _ E) as (ds & rest & Hp & Hl & HF).
  rewrite Hp, <- Hl, high_loop_map in E by assumption. apply Ok_inj in E.
  pose proof (fold36_bound ds 0 HF ltac:(lia)) as B. rewrite Hl in B.
  change (Z.of_nat 8) with 8 in B. apply Ok_inj in H. subst w.
  destruct (s =? 45); subst v; lia.
Qed.

(** *** Epoch *)
Lemma jan0_eq : forall yy, 0 <= yy <= 99 ->
  let year := if yy <? 57 then yy + 100 else yy in
  (J1900 + inject_Z (year * 365 + Z.quot (year - 1) 4) == jd_january0 (full_year yy))%Q.
Proof.
  intros yy Hy. cbv zeta.
  assert (E: let year := if yy <? 57 then yy + 100 else yy in
             year * 365 + Z.quot (year - 1) 4 + 693595 = days_before_year (full_year yy)).
  { cbv zeta. unfold full_year, days_before_year.
    destruct (Z.ltb_spec yy 57), (Z.leb_spec 57 yy); try lia;
      rewrite Z.quot_div_nonneg by lia; lia. }
  cbv zeta in E. unfold jd_january0. rewrite <- E, (inject_Z_plus _ 693595).
  clear E.
  match goal with |- (_ + inject_Z ?w == _)%Q => generalize w; intro z end.
  assert (J: (J1900 == (17214245 # 10) + inject_Z 693595)%Q) by reflexivity.
  rewrite J. ring.
Qed.

Ltac len := solve [lia | cbn; lia].

Lemma two_digits : forall l a yy, (a + 2 <= length l)%nat -> shows_digits (field l a 2) yy ->
  digit (col l a) /\ digit (col l (S a)) /\ yy = 10 * (col l a - 48) + (col l (S a) - 48).
Proof.
  intros l a yy Hl [HF Hd].
  assert (E: field l a 2 = [col l a; col l (S a)]).
  { unfold field. rewrite skipn_col by lia. rewrite (skipn_col l (S a)) by lia. reflexivity. }
  rewrite E in *. inversion_clear HF as [|? ? H1 HF']. inversion_clear HF' as [|? ? H2 _].
  repeat split; try (unfold digit in *; lia). rewrite <- Hd. cbn. lia.
Qed.

Lemma digit32 : is_digit 32 = false. Proof. reflexivity. Qed.
Lemma digit46 : is_digit 46 = false. Proof. reflexivity. Qed.
Lemma digit0 : is_digit 0 = false. Proof. reflexivity. Qed.

Lemma parse_common_ok : forall l1 l2 e s, layout1 l1 e -> layout2 l2 e ->
  exists s', parse_common l1 l2 s = Ok s' /\
    norad_number s' = e_number e /\ classification s' = e_class e /\
    tle_intl_desig s' = e_desig e /\ ephemeris_type s' = e_type e /\
    bulletin_number s' = e_elset e /\ revolution_number s' = e_rev e /\
    (epoch s' == jd_january0 (e_year e) + inject_Z (e_day e) / e8)%Q.
Proof.
  intros l1 l2 e s L1 L2.
  destruct L1 as (Hlen & _ & _ & _ & _ & Hn & Hcode & Hcl & Hcld & Hdes & (yy & Hyy & Hyear)
                 & (d & f & Hd & Hdot & Hf & Hday) & Hc32 & _ & _ & _ & _ & Hty & _ & Hel).
  destruct L2 as (Hlen2 & _ & _ & _ & _ & _ & _ & _ & _ & _ & _ & _ & _ & _ & _ & _ & Hrev).
  destruct (two_digits l1 18 yy ltac:(lia) Hyy) as (D18 & D19 & Ey).
  unfold parse_common.
  rewrite (rd_col l1 19), (rd_col l1 18) by lia. cbn [bind].
  unfold get_eight_places.
  assert (A1: c_atoi (adv l1 20) = Ok d).
  { rewrite (adv_field l1 20 3) by lia. change (20 + 3)%nat with 23%nat. rewrite Hdot.
    apply atoi_shows; [assumption|rewrite field_length; lia|apply digit46]. }
  rewrite A1. cbn [bind].
  replace (adv (adv l1 20) 4) with (adv l1 24) by (unfold adv; rewrite skipn_add; reflexivity).
  rewrite (adv_field l1 24 8) by lia.
  rewrite (atoi_shows _ f).
  2:{ apply shows_digits_nat; [apply field_ne; lia|assumption]. }
  2:{ rewrite field_length; lia. }
  2:{ change (24 + 8)%nat with 32%nat. rewrite Hc32. apply digit32. }
  cbn [bind].
  rewrite (adv_field l1 2 5), Hcode by lia.
  change (2 + 5)%nat with 7%nat.
  rewrite decode_encode by (try assumption; rewrite Hcl; now apply is_digit_false).
  cbn [bind].
  rewrite c_take_field by lia. cbn [bind].
  rewrite (atoi_shows _ (e_elset e)) by (try assumption; try (rewrite field_length; lia); apply digit0).
  cbn [bind]. rewrite (rd_col l1 7) by lia. cbn [bind].
  rewrite c_take_field by lia. cbn [bind].
  rewrite c_take_field by lia. cbn [bind].
  rewrite (atoi_shows _ (e_rev e)) by (try assumption; try (rewrite field_length; lia); apply digit0).
  cbn [bind]. rewrite (rd_col l1 62) by lia. cbn [bind].
  eexists. split; [reflexivity|]. cbn [norad_number classification tle_intl_desig ephemeris_type bulletin_number revolution_number epoch].
  rewrite Hcl, Hdes, Hty. do 6 (split; [reflexivity|]).
  unfold digit in *.
  replace (48 <=? col l1 18) with true by (symmetry; apply Z.leb_le; lia).
  replace (col l1 19 - 48 + (col l1 18 - 48) * 10) with yy by lia.
  rewrite Hyear, Hday.
  rewrite <- (jan0_eq yy) by lia. cbv zeta.
  rewrite (inject_Z_plus (d * 100000000) f), (inject_Z_mult d 100000000). unfold e8. change (inject_Z (10 ^ 8)) with (100000000 # 1)%Q.
  change (inject_Z 100000000) with (100000000 # 1)%Q.
  change (1 # 100000000)%Q with (/ (100000000 # 1))%Q.
  field.
Qed.

Lemma parse_mean_ok : forall l1 l2 e s, layout1 l1 e -> layout2 l2 e ->
  exists s', parse_mean l1 l2 s = Ok s' /\
    norad_number s' = norad_number s /\ classification s' = classification s /\
    tle_intl_desig s' = tle_intl_desig s /\ ephemeris_type s' = ephemeris_type s /\
    bulletin_number s' = bulletin_number s /\ revolution_number s' = revolution_number s /\
    epoch s' = epoch s /\
    (xincl s' == degrees (e_incl e) / inject_Z (10 ^ 4))%Q /\
    (xnodeo s' == degrees (e_node e) / inject_Z (10 ^ 4))%Q /\
    (omegao s' == degrees (e_argp e) / inject_Z (10 ^ 4))%Q /\
    (xmo s' == degrees (e_ma e) / inject_Z (10 ^ 4))%Q /\
    (eo s' == inject_Z (e_ecc e) / inject_Z (10 ^ 7))%Q /\
    (xno s' == inject_Z (e_motion e) / e8 * (2 * pi39) / 1440)%Q /\
    (xndt2o s' == inject_Z (e_ndot e) / e8 * (2 * pi39) / inject_Z (1440 ^ 2))%Q /\
    (xndd6o s' == e_nddot e * (2 * pi39) / inject_Z (1440 ^ 3))%Q /\
    (bstar s' == e_bstar e)%Q.
Proof.
  intros l1 l2 e s L1 L2.
  destruct L1 as (Hlen & _ & _ & _ & _ & _ & _ & _ & _ & _ & _
                 & _ & _ & (nd & Hdot & Hnd & Hndot) & Hc43 & Hs1 & Hs2 & _ & _ & _).
  destruct L2 as (Hlen2 & _ & _ & _ & _ & Hinc & Hc16 & Hnode & Hc25 & Hecc & Hc33 & Harg & Hc42 & Hma & Hc51
                 & (d & f & Hd & Hc54 & Hf & Hmot) & _).
  unfold parse_mean.
  rewrite (adv_field l2 43 8) by lia. change (43 + 8)%nat with 51%nat. rewrite Hc51.
  rewrite (get_angle_shows _ _ _ Hma) by (rewrite field_length; lia). cbn [bind].
  rewrite (adv_field l2 17 8) by lia. change (17 + 8)%nat with 25%nat. rewrite Hc25.
  rewrite (get_angle_shows _ _ _ Hnode) by (rewrite field_length; lia). cbn [bind].
  rewrite (adv_field l2 34 8) by lia. change (34 + 8)%nat with 42%nat. rewrite Hc42.
  rewrite (get_angle_shows _ _ _ Harg) by (rewrite field_length; lia). cbn [bind].
  rewrite (adv_field l2 8 8) by lia. change (8 + 8)%nat with 16%nat. rewrite Hc16.
  rewrite (get_angle_shows _ _ _ Hinc) by (rewrite field_length; lia). cbn [bind].
  rewrite (adv_field l2 26 7) by lia. change (26 + 7)%nat with 33%nat. rewrite Hc33.
  rewrite (atoi_shows _ (e_ecc e)).
  2:{ apply shows_digits_nat; [apply field_ne; lia|assumption]. }
  2:{ rewrite field_length; lia. }
  2:{ apply digit32. }
  cbn [bind]. rewrite c_take_field by lia. cbn [bind].
  assert (Et: field l2 51 12 = (32 :: field l2 52 2) ++ 46 :: field l2 55 8).
  { unfold field. rewrite (skipn_col l2 51) by lia. rewrite Hc51. cbn [firstn app]. f_equal.
    rewrite (skipn_field l2 52 2) at 1. change (52 + 2)%nat with 54%nat.
    rewrite (skipn_col l2 54), Hc54 by lia.
    unfold field. rewrite (skipn_col l2 52), (skipn_col l2 53) by lia. reflexivity. }
  assert (Hlf: length (field l2 52 2) = 2%nat) by (apply field_length; lia).
  assert (Ha: get_eight_places (field l2 51 12 ++ [0]) = Ok (inject_Z d + inject_Z f * (1 # 100000000))%Q).
  { unfold get_eight_places. rewrite Et.
    rewrite <- app_assoc. cbn [app].
    destruct Hd as (k & ds & Ek & Hne & HF & Hdec).
    assert (Hsh: shows_nat (32 :: field l2 52 2) d).
    { exists (S k), ds. repeat split; auto. cbn [repeat app]. now rewrite <- Ek. }
    pose proof (atoi_shows _ d 46 (field l2 55 8 ++ [0]) Hsh) as A. cbn [app] in A.
    rewrite A; [|cbn [length]; rewrite Hlf; lia|apply digit46]. clear A.
    cbn [bind]. unfold adv. destruct (field l2 52 2) as [|u [|v [|? ?]]]; try discriminate Hlf.
    cbn [app skipn].
    rewrite (atoi_shows _ f); [reflexivity| |rewrite field_length; lia|apply digit0].
    apply shows_digits_nat; [apply field_ne; lia|assumption]. }
  rewrite Ha. cbn [bind].
  rewrite (adv_field l1 35 8) by lia. change (35 + 8)%nat with 43%nat. rewrite Hc43.
  rewrite (atoi_shows _ nd).
  2:{ apply shows_digits_nat; [apply field_ne; lia|assumption]. }
  2:{ rewrite field_length; lia. }
  2:{ apply digit32. }
  cbn [bind]. rewrite (rd_col l1 33) by lia. cbn [bind].
  rewrite (adv_field l1 44 8) by lia.
  destruct (sci_shows _ _ (col l1 (44 + 8) :: skipn (S (44 + 8)) l1) Hs1) as (q1 & -> & Eq1). cbn [bind].
  rewrite (adv_field l1 53 8) by lia.
  destruct (sci_shows _ _ (col l1 (53 + 8) :: skipn (S (53 + 8)) l1) Hs2) as (q2 & -> & Eq2). cbn [bind].
  eexists. split; [reflexivity|].
  cbn [norad_number classification tle_intl_desig ephemeris_type bulletin_number revolution_number epoch
       xincl xnodeo omegao xmo eo xno xndt2o xndd6o bstar].
  do 7 (split; [reflexivity|]).
  unfold degrees, e8.
  change (inject_Z (10 ^ 8)) with (100000000 # 1)%Q. change (inject_Z (10 ^ 4)) with (10000 # 1)%Q.
  change (inject_Z (10 ^ 7)) with (10000000 # 1)%Q.
  change (inject_Z (1440 ^ 2)) with (1440 * 1440)%Q. change (inject_Z (1440 ^ 3)) with (1440 * (1440 * 1440))%Q.
  change (1 # 100000000)%Q with (/ (100000000 # 1))%Q.
  change (1 # 10000000)%Q with (/ (10000000 # 1))%Q.
  unfold TWOPI_lit. change PI_lit with pi39.
  assert (A: forall n, (inject_Z n * (pi39 / 1800000) == inject_Z n * pi39 / 180 / (10000 # 1))%Q).
  { intros n. change (1800000 # 1)%Q with (180 * (10000 # 1))%Q. field. }
  do 4 (split; [apply A|]).
  split; [field|].
  split. { rewrite Hmot, inject_Z_plus, inject_Z_mult. change (inject_Z 100000000) with (100000000 # 1)%Q.
           field. }
  split. { rewrite Hndot. unfold sign_of. destruct (col l1 33 =? 45); rewrite inject_Z_mult.
           - change (inject_Z (-1)) with (-1 # 1)%Q. field.
           - change (inject_Z 1) with 1%Q. field. }
  split. { rewrite Eq1. reflexivity. }
  rewrite Eq2. ring.
Qed.

Lemma layout_checksum : forall l, (70 <= length l)%nat -> data_ok l -> col l 69 <= 32 -> line_start l ->
  exists r, tle_checksum l = Ok r /\ 0 <= r < 10 /\
    (digit (col l 68) -> (r = 0 <-> check_digit_ok l)).
Proof.
  intros l Hl Hd H69 Hs.
  destruct (checksum_cases l Hl) as (_ & _ & _ & H).
  destruct (H Hs Hd H69) as (r & Hr & Hb & Hm). exists r. split; [assumption|]. split; [assumption|].
  intros Hdig. pose proof (checksum_zero_iff l Hl Hs Hd H69 Hdig) as I. rewrite Hr in I.
  split; intros; [apply I; congruence | apply I in H0; congruence].
Qed.

(** Return code of a parse of well laid out lines. *)
Definition code_of (ok1 ok2 : bool) : Z := (if ok1 then 0 else 1) + (if ok2 then 0 else 2).

Lemma parse_ok : forall l1 l2 e s, layout1 l1 e -> layout2 l2 e ->
  digit (col l1 68) -> digit (col l2 68) ->
  exists ok1 ok2 s', (ok1 = true <-> check_digit_ok l1) /\ (ok2 = true <-> check_digit_ok l2) /\
    parse_elements l1 l2 s = Ok (code_of ok1 ok2, s') /\ describes s' e.
Proof.
  intros l1 l2 e s L1 L2 Hd1 Hd2.
  destruct (parse_common_ok l1 l2 e s L1 L2) as (sc & Hc & P).
  destruct (parse_mean_ok l1 l2 e sc L1 L2) as (sm & Hm & P').
  pose proof L1 as (Hlen & Hdat & H69 & Ha & Hb & _ & _ & _ & _ & _ & _ & _ & _ & _ & _ & _ & _ & Hty & Hnt & _).
  pose proof L2 as (Hlen2 & Hdat2 & H69' & Ha2 & Hb2 & _).
  destruct (layout_checksum l1 Hlen Hdat H69 ltac:(split; auto)) as (r1 & R1 & B1 & I1).
  destruct (layout_checksum l2 Hlen2 Hdat2 H69' ltac:(split; auto)) as (r2 & R2 & B2 & I2).
  exists (r1 =? 0), (r2 =? 0), sm.
  split. { rewrite Z.eqb_eq. now apply I1. }
  split. { rewrite Z.eqb_eq. now apply I2. }
  split.
  - unfold parse_elements. rewrite (rd_col l1 0), Ha by lia. cbn [bind].
    change (49 =? 49) with true. cbv iota. rewrite (rd_col l2 0), Ha2 by lia. cbn [bind negb orb].
    change (50 =? 50) with true. cbn [negb]. rewrite R1. cbn [bind].
    replace (negb ((if 0 <? r1 then 0 else r1) =? 0)) with false.
    2:{ destruct (Z.ltb_spec 0 r1); [reflexivity|]. replace r1 with 0 by lia. reflexivity. }
    rewrite R2. cbn [bind].
    replace (negb ((if 0 <? r2 then 0 else r2) =? 0)) with false.
    2:{ destruct (Z.ltb_spec 0 r2); [reflexivity|]. replace r2 with 0 by lia. reflexivity. }
    rewrite Hc. cbn [bind].
    destruct P as (_ & _ & _ & Pt & _). rewrite Pt.
    replace (e_type e =? 72) with false by (symmetry; now apply Z.eqb_neq).
    rewrite Hm. cbn [bind]. unfold code_of.
    destruct (Z.ltb_spec 0 r1), (Z.ltb_spec 0 r2), (Z.eqb_spec r1 0), (Z.eqb_spec r2 0); try lia; reflexivity.
  - unfold describes.
    destruct P as (P1 & P2 & P3 & P4 & P5 & P6 & P7).
    destruct P' as (Q1 & Q2 & Q3 & Q4 & Q5 & Q6 & Q7 & Q8).
    rewrite Q1, Q2, Q3, Q4, Q5, Q6, Q7. repeat (split; [assumption|]). exact Q8.
Qed.
