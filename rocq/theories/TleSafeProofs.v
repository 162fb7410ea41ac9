(** Decoding of TLE lines whose numbers fit. *)
From Coq Require Import ZArith List Lia Bool QArith.
From Verif Require Import CLib TleModel TleSpec TleProofs1 TleProofs3 TleProofs5 TleProofs6 TleSafeSpec.
Import ListNotations.
Open Scope Z_scope.

Lemma digit_b c : is_digit c = true <-> digit c.
Proof. unfold is_digit, digit. rewrite andb_true_iff, !Z.leb_le. tauto. Qed.
Lemma white_b c : is_space c = true <-> white c.
Proof. unfold is_space, white. rewrite orb_true_iff, andb_true_iff, Z.eqb_eq, !Z.leb_le. tauto. Qed.
Lemma digits_go ds c rest : Forall digit ds -> ~ digit c -> forall acc, c_digits acc (ds ++ c :: rest) = Ok (fold_left (fun v c => 10 * v + (c - 48)) ds acc).
Proof.
  intros F N. induction F as [|d ds D F IH]; intros acc; cbn [app c_digits fold_left].
  - destruct (is_digit c) eqn:E; [apply digit_b in E; tauto | reflexivity].
  - apply digit_b in D. rewrite D, IH. f_equal. f_equal. ring.
Qed.
Lemma skip_white b p : Forall white b -> c_skip_space (b ++ p) = c_skip_space p.
Proof. induction 1 as [|c b W F IH]; [reflexivity|]. cbn [app c_skip_space]. apply white_b in W. rewrite W. exact IH. Qed.
Lemma atoi_is p v : number p v -> c_atoi p = Ok v.
Proof.
  intros (b & sg & ds & c & rest & -> & W & S & F & N & X & V & B). unfold c_atoi, c_strtol. rewrite skip_white by exact W.
  assert (C : chk_int v = Ok v) by (unfold chk_int, in_int, int_min, int_max; replace (_ && _)%bool with true; [reflexivity | symmetry; apply andb_true_iff; rewrite !Z.leb_le; lia]).
  destruct S as [-> | [-> | ->]].
  - cbn [app]. destruct ds as [|d ds].
    + destruct (X eq_refl eq_refl) as (X1 & X2 & X3). cbn [app c_skip_space]. destruct (is_space c) eqn:E; [apply white_b in E; tauto|].
      rewrite (proj2 (Z.eqb_neq c 45) X3), (proj2 (Z.eqb_neq c 43) X2). rewrite (digits_go [] c rest (Forall_nil _) N). cbn [bind fold_left]. rewrite V in C. exact (eq_trans C (f_equal Ok (eq_sym V))).
    + cbn [app c_skip_space]. inversion F; subst. assert (Dg : digit d) by assumption. unfold digit in Dg.
      destruct (is_space d) eqn:E; [apply white_b in E; unfold white in E; lia|].
      replace (d =? 45) with false by (symmetry; apply Z.eqb_neq; lia). replace (d =? 43) with false by (symmetry; apply Z.eqb_neq; lia).
      change (d :: ds ++ c :: rest) with ((d :: ds) ++ c :: rest). rewrite (digits_go (d :: ds) c rest F N). cbn [bind]. exact C.
  - cbn [app c_skip_space]. change (is_space 43) with false. cbn [Z.eqb Pos.eqb]. rewrite (digits_go ds c rest F N). cbn [bind]. rewrite V in C |- *. exact C.
  - cbn [app c_skip_space]. change (is_space 45) with false. cbn [Z.eqb Pos.eqb]. rewrite (digits_go ds c rest F N). cbn [bind]. rewrite V in C |- *. exact C.
Qed.
(** ... and nothing else is read *)
Lemma digits_shape p : forall acc v, c_digits acc p = Ok v -> exists ds c rest, p = ds ++ c :: rest /\ Forall digit ds /\ ~ digit c /\ v = fold_left (fun v c => 10 * v + (c - 48)) ds acc.
Proof.
  induction p as [|c p IH]; intros acc v E; [discriminate E|]. cbn [c_digits] in E. destruct (is_digit c) eqn:D.
  - destruct (IH _ _ E) as (ds & c' & rest & -> & F & N & V). exists (c :: ds), c', rest. split; [reflexivity|]. split; [constructor; [apply digit_b, D | exact F]|]. split; [exact N|].
    rewrite V. cbn [fold_left]. f_equal. ring.
  - injection E as <-. exists [], c, p. split; [reflexivity|]. split; [constructor|]. split; [rewrite <- digit_b, D; discriminate | reflexivity].
Qed.
Lemma white_shape p : exists b, p = b ++ c_skip_space p /\ Forall white b /\ match c_skip_space p with c :: _ => ~ white c | [] => True end.
Proof.
  induction p as [|c p (b & E & F & N)]; [exists []; repeat split; constructor|]. cbn [c_skip_space]. destruct (is_space c) eqn:W.
  - exists (c :: b). split; [cbn [app]; rewrite <- E; reflexivity|]. split; [constructor; [apply white_b, W | exact F] | exact N].
  - exists []. repeat split; [constructor|]. rewrite <- white_b, W. discriminate.
Qed.
Lemma atoi_only p v : c_atoi p = Ok v -> number p v.
Proof.
  unfold c_atoi, c_strtol. destruct (white_shape p) as (b & E & F & N). destruct (c_skip_space p) as [|c q]; [discriminate|].
  assert (Ch : forall w, chk_int w = Ok v -> w = v /\ - 2 ^ 31 <= v < 2 ^ 31).
  { intros w. unfold chk_int, in_int, int_min, int_max. destruct (_ && _)%bool eqn:B; [|discriminate]. intros X. injection X as <-. apply andb_true_iff in B. rewrite !Z.leb_le in B. lia. }
  destruct (Z.eqb_spec c 45) as [->|N45].
  - destruct (c_digits 0 q) as [w|] eqn:D; [|discriminate]. cbn [bind]. intros X. apply Ch in X. destruct X as [<- B]. destruct (digits_shape q 0 w D) as (ds & c' & rest & -> & Fd & Nd & ->).
    exists b, [45], ds, c', rest. repeat split; auto; try (intros; discriminate); lia.
  - destruct (Z.eqb_spec c 43) as [->|N43].
    + destruct (c_digits 0 q) as [w|] eqn:D; [|discriminate]. cbn [bind]. intros X. apply Ch in X. destruct X as [<- B]. destruct (digits_shape q 0 w D) as (ds & c' & rest & -> & Fd & Nd & ->).
      exists b, [43], ds, c', rest. repeat split; auto; try (intros; discriminate); lia.
    + destruct (c_digits 0 (c :: q)) as [w|] eqn:D; [|discriminate]. cbn [bind]. intros X. apply Ch in X. destruct X as [<- B]. destruct (digits_shape (c :: q) 0 w D) as (ds & c' & rest & G & Fd & Nd & ->).
      exists b, [], ds, c', rest. split; [rewrite E, G; reflexivity|]. split; [exact F|]. split; [left; reflexivity|]. split; [exact Fd|]. split; [exact Nd|]. split; [|split; [reflexivity | exact B]].
      intros _ ->. cbn [app] in G. injection G as <- _. auto.
Qed.
Lemma atoi_iff p v : c_atoi p = Ok v <-> number p v.
Proof. split; [apply atoi_only | apply atoi_is]. Qed.
Lemma atoi_ok p : a_number p -> exists v, c_atoi p = Ok v.
Proof. intros [v H]. exists v. apply atoi_is, H. Qed.

(** Angles *)
Lemma angle_acc tok rest : Forall (fun c => digit c \/ c = 46) tok -> forall acc m, 0 <= acc < 10 ^ (Z.of_nat m) -> (m + length (filter (fun c => negb (c =? 46)%Z) tok) <= 9)%nat ->
  exists v, get_angle_acc acc (tok ++ 32 :: rest) = Ok v.
Proof.
  induction 1 as [|c tok D F IH]; intros acc m B L; cbn [app get_angle_acc].
  - exists acc. reflexivity.
  - cbn [filter] in L. destruct (Z.eqb_spec c 46) as [->|N]; cbn [negb] in L.
    + change (46 =? 32) with false. cbv iota. apply (IH acc m B L).
    + destruct D as [D|D]; [|lia]. unfold digit in D. replace (c =? 32) with false by (symmetry; apply Z.eqb_neq; lia). cbn [length] in L.
      assert (P : 10 ^ Z.of_nat m <= 10 ^ 8) by (apply Z.pow_le_mono_r; lia). change (10 ^ 8) with 100000000 in P.
      assert (C : forall w, 0 <= w < 1000000000 -> chk_int w = Ok w) by (intros w W; unfold chk_int, in_int, int_min, int_max; replace (_ && _)%bool with true; [reflexivity | symmetry; apply andb_true_iff; rewrite !Z.leb_le; lia]).
      rewrite C by lia. cbn [bind]. rewrite C by lia. cbn [bind]. apply (IH _ (S m)); [|lia]. rewrite Nat2Z.inj_succ, Z.pow_succ_r by lia. lia.
Qed.
Lemma angle_ok p : an_angle p -> exists v, get_angle p = Ok v.
Proof.
  intros (k & tok & rest & -> & T & F & L). induction k as [|k IH]; [|exact IH]. cbn [repeat app].
  destruct tok as [|c tok]; [congruence|]. cbn [app get_angle]. inversion F as [|? ? D]; subst. replace (c =? 32) with false by (symmetry; apply Z.eqb_neq; unfold digit in D; lia).
  apply (angle_acc (c :: tok) rest F 0 0); [cbn; lia | exact L].
Qed.
Lemma rd_ok p i : (i < length p)%nat -> rd p i = Ok (col p i).
Proof. intros L. unfold rd, col. rewrite (nth_error_nth' p 0 L). reflexivity. Qed.
Lemma sci_ok p : (8 <= length p)%nat -> a_sci p -> exists q, sci p = Ok q.
Proof.
  intros L H. unfold sci. rewrite rd_ok by lia. cbn [bind]. destruct (Z.eqb_spec (col p 1) 32) as [E|E]; [eauto|]. destruct H as [H|[H X]]; [tauto|].
  destruct (atoi_ok p H) as [v ->]. cbn [bind]. destruct (v =? 0); [eauto|]. rewrite rd_ok by lia. cbn [bind]. destruct (col p 7 =? 48); [eauto|]. rewrite rd_ok by lia. cbn [bind].
  unfold sci_loop. replace (col p 7 - 48 <? 0) with false by (symmetry; apply Z.ltb_ge; lia). destruct (col p 6 =? 45); eauto.
Qed.
(** State vectors: exactly *)
Lemma dehex c : (mutant_dehex c <? 0) = false <-> digit36 c.
Proof.
  unfold mutant_dehex, digit36, digit. destruct (Z.leb_spec c 57), (Z.leb_spec 48 c); cbn [andb]; try (rewrite Z.ltb_ge; lia); destruct (Z.leb_spec 65 c), (Z.leb_spec c 90); cbn [andb]; rewrite Z.ltb_ge; lia.
Qed.
Lemma high_go n : forall acc p, (n <= length p)%nat -> (exists v, high_loop n acc p = Ok v) <-> Forall digit36 (firstn n p).
Proof.
  induction n as [|n IH]; intros acc p L; [cbn; split; [constructor | eauto]|]. destruct p as [|c p]; [cbn in L; lia|]. cbn [length] in L.
  cbn [high_loop firstn]. unfold rd. cbn [nth_error bind]. unfold adv. cbn [skipn]. destruct (mutant_dehex c <? 0) eqn:D.
  - split; [intros [v H]; discriminate H|]. intros F. inversion F as [|? ? X]; subst. apply dehex in X. congruence.
  - apply dehex in D. rewrite IH by lia. split; [intros F; constructor; assumption | intros F; inversion F; assumption].
Qed.
Lemma high_iff p : (9 <= length p)%nat -> (exists v, get_high_value p = Ok v) <-> a_high p.
Proof.
  intros L. unfold get_high_value, a_high. rewrite rd_ok by lia. cbn [bind].
  assert (Q := high_go 8 0 (adv p 1) ltac:(unfold adv; rewrite skipn_length; lia)). unfold adv in Q.
  destruct (Z.eqb_spec (col p 0) 43) as [E|E], (Z.eqb_spec (col p 0) 45) as [E'|E']; cbn [orb]; try (split; [intros [v H]; discriminate H | intros [[?|?] _]; congruence]);
    rewrite <- Q; unfold adv; (split; [intros [v H]; (split; [tauto|]); destruct (high_loop 8 0 (skipn 1 p)) as [w|]; [eauto | discriminate H] | intros [_ [v H]]; rewrite H; cbn [bind]; eauto]).
Qed.
Lemma norad_ok p : (5 <= length p)%nat -> (exists v, number (skipn 1 p) v /\ Z.abs v <= 2147000000) -> exists n, get_norad_number p = Ok n.
Proof.
  intros L [v [V B]]. unfold get_norad_number. rewrite !rd_ok by lia. cbn [bind].
  assert (R : forall c, -1 <= base34_to_int c <= 33).
  { intros c. unfold base34_to_int. repeat match goal with |- context [if ?b then _ else _] => let E := fresh in destruct b eqn:E; try apply andb_true_iff in E; rewrite ?Z.leb_le, ?Z.eqb_eq in E end; lia. }
  assert (R0 := R (col p 0)).
  repeat match goal with |- context [if ?b then _ else _] => destruct b; [eauto; fail|] end.
  apply atoi_is in V. unfold adv. rewrite V. cbn [bind]. unfold chk_int, in_int, int_min, int_max. replace (_ && _)%bool with true; [eauto|].
  symmetry. apply andb_true_iff. rewrite !Z.leb_le. lia.
Qed.
(** Numbers of up to nine characters always fit. *)
Lemma digits_end p : forall acc, In 0 p -> exists v, c_digits acc p = Ok v.
Proof. induction p as [|c p IH]; intros acc I; [destruct I|]. cbn [c_digits]. destruct (is_digit c) eqn:D; [|eauto]. destruct I as [->|I]; [discriminate D | apply IH, I]. Qed.
Lemma decimal_bound ds : Forall digit ds -> forall acc, 0 <= acc -> 0 <= fold_left (fun v c => 10 * v + (c - 48)) ds acc < (acc + 1) * 10 ^ Z.of_nat (length ds).
Proof.
  induction 1 as [|d ds D F IH]; intros acc P; [cbn; lia|]. cbn [fold_left length]. unfold digit in D. destruct (IH (10 * acc + (d - 48)) ltac:(lia)) as [I1 I2]. split; [exact I1|].
  eapply Z.lt_le_trans; [exact I2|]. rewrite Nat2Z.inj_succ, Z.pow_succ_r by lia. rewrite Z.mul_assoc. apply Z.mul_le_mono_nonneg_r; [apply Z.pow_nonneg; lia | lia].
Qed.
Lemma short_ok t : (length t <= 9)%nat -> a_number (t ++ [0]).
Proof.
  intros L. enough (exists v, c_atoi (t ++ [0]) = Ok v) as [v H] by (exists v; apply atoi_only, H).
  unfold c_atoi, c_strtol. destruct (white_shape (t ++ [0])) as (b & E & W & N). set (q := c_skip_space (t ++ [0])) in *. clearbody q.
  assert (I : In 0 q).
  { assert (I : In 0 (b ++ q)) by (rewrite <- E; apply in_or_app; right; left; reflexivity). apply in_app_or in I. destruct I as [I|I]; [|exact I].
    exfalso. rewrite Forall_forall in W. specialize (W _ I). unfold white in W. lia. }
  assert (Lq : (length q <= 10)%nat) by (apply (f_equal (@length Z)) in E; rewrite !app_length in E; cbn in E; lia).
  assert (G : forall p, In 0 p -> (length p <= 10)%nat -> exists v, c_digits 0 p = Ok v /\ 0 <= v < 10 ^ 9).
  { intros p Ip Lp. destruct (digits_end p 0 Ip) as [v V]. exists v. split; [exact V|]. destruct (digits_shape p 0 v V) as (ds & c & rest & -> & F & _ & ->). rewrite app_length in Lp. cbn [length] in Lp.
    assert (B := decimal_bound ds F 0 ltac:(lia)). assert (10 ^ Z.of_nat (length ds) <= 10 ^ 9) by (apply Z.pow_le_mono_r; lia). lia. }
  assert (C : forall w, - 10 ^ 9 <= w <= 10 ^ 9 -> exists v, chk_int w = Ok v).
  { intros w B. change (10 ^ 9) with 1000000000 in B. unfold chk_int, in_int, int_min, int_max. replace (_ && _)%bool with true; [eauto | symmetry; apply andb_true_iff; rewrite !Z.leb_le; lia]. }
  destruct q as [|c q]; [destruct I|]. cbn [length] in Lq. destruct (Z.eqb_spec c 45) as [->|_]; [|destruct (Z.eqb_spec c 43) as [->|_]].
  - destruct (G q) as (v & -> & B); [destruct I; [discriminate | assumption] | lia|]. cbn [bind]. apply C. lia.
  - destruct (G q) as (v & -> & B); [destruct I; [discriminate | assumption] | lia|]. cbn [bind]. apply C. lia.
  - destruct (G (c :: q)) as (v & -> & B); [exact I | cbn [length]; lia|]. cbn [bind]. apply C. lia.
Qed.
Lemma take_ok p n : (n <= length p)%nat -> c_take p n = Ok (firstn n p).
Proof. intros L. unfold c_take. replace (n <=? length p)%nat with true by (symmetry; apply Nat.leb_le; exact L). reflexivity. Qed.
Lemma skip_skip (p : list Z) a b : skipn a (skipn b p) = skipn (b + a) p.
Proof. revert p. induction b as [|b IH]; intros p; [reflexivity|]. destruct p as [|c p]; [destruct a; reflexivity | exact (IH p)]. Qed.
Lemma eight_ok p : a_number p -> a_number (skipn 4 p) -> exists q, get_eight_places p = Ok q.
Proof. intros H1 H2. unfold get_eight_places, adv. destruct (atoi_ok _ H1) as [a ->]. destruct (atoi_ok _ H2) as [b ->]. cbn [bind]. eauto. Qed.
Lemma common_ok l1 l2 s : (70 <= length l1)%nat -> (70 <= length l2)%nat -> numbers_fit l1 ->
  exists s', parse_common l1 l2 s = Ok s' /\ ephemeris_type s' = col l1 62.
Proof.
  intros L1 L2 (N & E1 & E2). assert (B := short_ok (firstn 4 (skipn 64 l1)) ltac:(rewrite firstn_length; lia)). assert (R := short_ok (firstn 5 (skipn 63 l2)) ltac:(rewrite firstn_length; lia)). unfold parse_common. rewrite !rd_ok by lia. cbn [bind].
  destruct (eight_ok (adv l1 20)) as [q ->]; [exact E1 | unfold adv; rewrite skip_skip; exact E2|]. cbn [bind].
  destruct (norad_ok (adv l1 2)) as [n ->]; [unfold adv; rewrite skipn_length; lia | unfold adv; rewrite skip_skip; exact N|]. cbn [bind].
  rewrite !take_ok by (unfold adv; rewrite skipn_length; lia). cbn [bind]. unfold adv. destruct (atoi_ok _ B) as [bn ->]. cbn [bind]. destruct (atoi_ok _ R) as [rn ->]. cbn [bind].
  eexists. split; reflexivity.
Qed.
Lemma high_ok_iff l1 l2 s : (70 <= length l1)%nat -> (70 <= length l2)%nat -> (exists s', parse_high l1 l2 s = Ok s') <-> high_fits l1 l2.
Proof.
  intros L1 L2.
  assert (H : forall l k, (70 <= length l)%nat -> (k <= 53)%nat -> (exists v, get_high_value (adv l k) = Ok v) <-> a_high (skipn k l)).
  { intros l k L K. apply high_iff. unfold adv. rewrite skipn_length. lia. }
  unfold high_fits. split.
  - intros [s' E]. unfold parse_high in E. repeat match type of E with context [get_high_value (adv ?l ?k)] => let X := fresh in
      destruct (get_high_value (adv l k)) eqn:X; [assert (a_high (skipn k l)) by (apply H; [assumption | lia | eauto]); clear X; cbn [bind] in E | discriminate E] end.
    constructor; [split; assumption|]. constructor; [split; assumption|]. constructor; [split; assumption | constructor].
  - intros F. inversion F as [|? ? [A1 A2] F1]; subst. inversion F1 as [|? ? [A3 A4] F2]; subst. inversion F2 as [|? ? [A5 A6] _]; subst. unfold parse_high.
    repeat match goal with |- context [get_high_value (adv ?l ?k)] => let X := fresh in destruct (proj2 (H l k ltac:(assumption) ltac:(lia))) as [? X]; [assumption|]; rewrite X; clear X; cbn [bind] end. eauto.
Qed.
Lemma mean_ok l1 l2 s : (70 <= length l1)%nat -> (70 <= length l2)%nat -> mean_fits l1 l2 -> exists s', parse_mean l1 l2 s = Ok s'.
Proof.
  intros L1 L2 (F & E & M1 & D & S1 & S2). assert (M2 := short_ok (firstn 8 (skipn 55 l2)) ltac:(rewrite firstn_length; lia)). inversion F as [|? ? A1 F1]; subst. inversion F1 as [|? ? A2 F2]; subst. inversion F2 as [|? ? A3 F3]; subst. inversion F3 as [|? ? A4 _]; subst.
  unfold parse_mean. cbv zeta. destruct (angle_ok _ A4) as [ma H4], (angle_ok _ A2) as [nd H2], (angle_ok _ A3) as [ap H3], (angle_ok _ A1) as [ic H1].
  unfold adv. rewrite H4, H2, H3, H1. cbn [bind]. destruct (atoi_ok _ E) as [ec ->]. cbn [bind]. rewrite take_ok by (rewrite skipn_length; lia). cbn [bind].
  destruct (eight_ok (firstn 12 (skipn 51 l2) ++ [0])) as [mm ->]; [exact M1| |].
  { replace (skipn 4 (firstn 12 (skipn 51 l2) ++ [0])) with (firstn 8 (skipn 55 l2) ++ [0]); [exact M2|].
    rewrite skipn_app, skipn_firstn_comm, skip_skip, firstn_length, skipn_length. replace (4 - Nat.min 12 (length l2 - 51))%nat with 0%nat by lia. reflexivity. }
  cbn [bind]. destruct (atoi_ok _ D) as [n1 ->]. cbn [bind]. rewrite rd_ok by lia. cbn [bind].
  destruct (sci_ok (skipn 44 l1)) as [n2 ->]; [rewrite skipn_length; lia | exact S1|]. cbn [bind].
  destruct (sci_ok (skipn 53 l1)) as [bs ->]; [rewrite skipn_length; lia | exact S2|]. cbn [bind]. eauto.
Qed.
Lemma parse_fits l1 l2 s : (70 <= length l1)%nat -> (70 <= length l2)%nat -> numbers_fit l1 ->
  (col l1 62 = 72 -> high_fits l1 l2) -> (col l1 62 <> 72 -> mean_fits l1 l2) -> exists c s', parse_elements l1 l2 s = Ok (c, s').
Proof.
  intros L1 L2 N Hi Me. unfold parse_elements. rewrite (rd_ok l1 0) by lia. cbn [bind].
  destruct (checksum_defined l1 L1) as [k1 K1]. destruct (checksum_defined l2 L2) as [k2 K2]. destruct (common_ok l1 l2 s L1 L2 N) as (s1 & C & T).
  assert (Bd : exists b, (if col l1 0 =? 49 then rd l2 0 else Ok 0) = Ok b) by (destruct (col l1 0 =? 49); [rewrite rd_ok by lia|]; eauto). destruct Bd as [b ->]. cbn [bind].
  assert (Kd : exists k, (if negb (col l1 0 =? 49) || negb (b =? 50) then Ok (-4) else tle_checksum l1) = Ok k) by (destruct (negb _ || negb _)%bool; [eauto | rewrite K1; eauto]).
  destruct Kd as [k ->]. cbn [bind]. destruct (negb ((if 0 <? k then 0 else k) =? 0)); [eauto|]. rewrite K2. cbn [bind]. destruct (negb ((if 0 <? k2 then 0 else k2) =? 0)); [eauto|].
  rewrite C. cbn [bind]. rewrite T. destruct (Z.eqb_spec (col l1 62) 72) as [E|E].
  - destruct (proj2 (high_ok_iff l1 l2 s1 L1 L2) (Hi E)) as [s' ->]. cbn [bind]. eauto.
  - destruct (mean_ok l1 l2 s1 L1 L2 (Me E)) as [s' ->]. cbn [bind]. eauto.
Qed.
(** Lines of the state-vector type that pass the checks: exactly. *)
Lemma parse_high_iff l1 l2 s : (70 <= length l1)%nat -> (70 <= length l2)%nat -> numbers_fit l1 -> col l1 62 = 72 -> tle_checksum l1 = Ok 0 -> tle_checksum l2 = Ok 0 -> col l1 0 = 49 -> col l2 0 = 50 ->
  (exists c s', parse_elements l1 l2 s = Ok (c, s')) <-> high_fits l1 l2.
Proof.
  intros L1 L2 N T K1 K2 C1 C2. unfold parse_elements. rewrite (rd_ok l1 0), C1 by lia. cbn [bind Z.eqb Pos.eqb]. rewrite (rd_ok l2 0), C2 by lia. cbn [bind Z.eqb Pos.eqb negb orb]. rewrite K1, K2. cbn [bind Z.ltb Z.compare Z.eqb negb].
  destruct (common_ok l1 l2 s L1 L2 N) as (s1 & C & Ty). rewrite C. cbn [bind]. rewrite Ty, T. cbn [Z.eqb Pos.eqb]. rewrite <- (high_ok_iff l1 l2 s1 L1 L2).
  split; [intros (c & s' & E); destruct (parse_high l1 l2 s1); [eauto | discriminate E] | intros [s' ->]; cbn [bind]; eauto].
Qed.
