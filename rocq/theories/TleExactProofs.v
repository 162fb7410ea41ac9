(** Decoding of TLE lines: exactly when it is defined. *)
From Coq Require Import ZArith List Lia Bool QArith.
From Verif Require Import CLib TleModel TleSpec TleProofs1 TleProofs2 TleProofs3 TleProofs5 TleProofs6 TleSafeSpec TleSafeProofs TleExactSpec.
Import ListNotations.
Open Scope Z_scope.

Lemma chk_iff w v : chk_int w = Ok v <-> v = w /\ fits w.
Proof.
  unfold chk_int, in_int, int_min, int_max, fits. destruct (_ && _)%bool eqn:E.
  - apply andb_true_iff in E. rewrite !Z.leb_le in E. split; [intros X; injection X as <-; lia | intros [-> _]; reflexivity].
  - split; [discriminate|]. intros [-> B]. apply andb_false_iff in E. rewrite !Z.leb_gt in E. lia.
Qed.
(** Angles *)
Definition partial_fit (acc : Z) (t : list Z) : Prop := forall a c b, t = a ++ c :: b ->
  fits (10 * fold_left (fun v c => 10 * v + (c - 48)) a acc) /\ fits (fold_left (fun v c => 10 * v + (c - 48)) (a ++ [c]) acc).
Lemma partial_cons acc c t : partial_fit acc (c :: t) <-> (fits (10 * acc) /\ fits (10 * acc + (c - 48))) /\ partial_fit (10 * acc + (c - 48)) t.
Proof.
  split.
  - intros H. split; [exact (H [] c t eq_refl)|]. intros a d b ->. exact (H (c :: a) d b eq_refl).
  - intros [H0 H] a d b E. destruct a as [|a0 a]; cbn [app] in E; injection E as <- E; [exact H0 | exact (H a d b E)].
Qed.
Lemma angle_acc_iff p : forall acc v, get_angle_acc acc p = Ok v <->
  exists tok rest, p = tok ++ 32 :: rest /\ ~ In 32 tok /\ v = fold_left (fun v c => 10 * v + (c - 48)) (undotted tok) acc /\ partial_fit acc (undotted tok).
Proof.
  induction p as [|c p IH]; intros acc v.
  - split; [discriminate | intros (tok & rest & E & _); destruct tok; discriminate E].
  - cbn [get_angle_acc]. destruct (Z.eqb_spec c 32) as [->|N32].
    + split.
      * intros E. injection E as <-. exists [], p. split; [reflexivity|]. split; [intros []|]. split; [reflexivity|]. intros a d b E. destruct a; discriminate E.
      * intros (tok & rest & E & N & V & _). destruct tok as [|t tok]; [rewrite V; reflexivity|]. cbn [app] in E. injection E as <- _. destruct N. left. reflexivity.
    + assert (Sh : forall Q : list Z -> Prop, (exists tok rest, c :: p = tok ++ 32 :: rest /\ ~ In 32 tok /\ Q tok) <-> (exists tok rest, p = tok ++ 32 :: rest /\ ~ In 32 tok /\ Q (c :: tok))).
      { intros Q. split.
        - intros (tok & rest & E & N & X). destruct tok as [|t tok]; cbn [app] in E; injection E as -> E; [congruence|]. exists tok, rest. split; [exact E|]. split; [intros I; apply N; right; exact I | exact X].
        - intros (tok & rest & -> & N & X). exists (c :: tok), rest. split; [reflexivity|]. split; [intros [I|I]; [congruence | exact (N I)] | exact X]. }
      rewrite (Sh (fun tok => v = fold_left (fun v c => 10 * v + (c - 48)) (undotted tok) acc /\ partial_fit acc (undotted tok))). clear Sh.
      destruct (Z.eqb_spec c 46) as [->|N46].
      * rewrite IH. reflexivity.
      * assert (U : forall tok, undotted (c :: tok) = c :: undotted tok) by (intros tok; unfold undotted; cbn [filter]; rewrite (proj2 (Z.eqb_neq c 46) N46); reflexivity).
        assert (Eq : (exists tok rest, p = tok ++ 32 :: rest /\ ~ In 32 tok /\ v = fold_left (fun v c => 10 * v + (c - 48)) (undotted (c :: tok)) acc /\ partial_fit acc (undotted (c :: tok)))
          <-> (fits (10 * acc) /\ fits (10 * acc + (c - 48))) /\ get_angle_acc (10 * acc + (c - 48)) p = Ok v).
        { rewrite IH. split.
          - intros (tok & rest & E & N & V & F). rewrite U in V, F. apply partial_cons in F. destruct F as [F0 F]. split; [exact F0|]. exists tok, rest. auto.
          - intros [F0 (tok & rest & E & N & V & F)]. exists tok, rest. split; [exact E|]. split; [exact N|]. rewrite U. split; [exact V | apply partial_cons; auto]. }
        rewrite Eq. clear Eq. replace (acc * 10) with (10 * acc) by ring. destruct (chk_int (10 * acc)) as [r1|] eqn:C1.
        -- apply chk_iff in C1. destruct C1 as [-> F1]. cbn [bind]. destruct (chk_int (10 * acc + (c - 48))) as [r2|] eqn:C2.
           ++ apply chk_iff in C2. destruct C2 as [-> F2]. cbn [bind]. tauto.
           ++ cbn [bind]. split; [discriminate|]. intros [[_ F2] _]. assert (X := proj2 (chk_iff _ _) (conj eq_refl F2)). rewrite C2 in X. discriminate X.
        -- cbn [bind]. split; [discriminate|]. intros [[F1 _] _]. assert (X := proj2 (chk_iff _ _) (conj eq_refl F1)). rewrite C1 in X. discriminate X.
Qed.
Lemma angle_iff p v : get_angle p = Ok v <-> some_angle p v.
Proof.
  unfold some_angle. induction p as [|c p IH].
  - split; [discriminate | intros (k & tok & rest & E & T & _)]. destruct k; [destruct tok; [congruence|]|]; discriminate E.
  - cbn [get_angle]. destruct (Z.eqb_spec c 32) as [->|N].
    + rewrite IH. split.
      * intros (k & tok & rest & -> & X). exists (S k), tok, rest. split; [reflexivity | exact X].
      * intros (k & tok & rest & E & T & N & X). destruct k as [|k]; [|injection E as E; exists k, tok, rest; auto].
        destruct tok as [|t tok]; [congruence|]. cbn [repeat app] in E. injection E as <- _. destruct N. left. reflexivity.
    + rewrite (angle_acc_iff (c :: p) 0 v). split.
      * intros (tok & rest & E & Nb & V & F). exists O, tok, rest. split; [exact E|]. split; [intros ->; cbn [app] in E; injection E as -> _; congruence|]. auto.
      * intros (k & tok & rest & E & T & Nb & V & F). destruct k as [|k]; [exists tok, rest; auto|]. injection E as -> _. congruence.
Qed.
Lemma sci_iff p : (8 <= length p)%nat -> (exists q, sci p = Ok q) <-> some_sci p.
Proof.
  intros L. unfold sci, some_sci. rewrite rd_ok by lia. cbn [bind]. destruct (Z.eqb_spec (col p 1) 32) as [E|E]; [split; eauto|].
  destruct (c_atoi p) as [v|] eqn:A; cbn [bind].
  - assert (Nv := proj1 (atoi_iff p v) A). destruct (Z.eqb_spec v 0) as [V|V]; [split; [right; exists v; auto | eauto]|]. rewrite rd_ok by lia. cbn [bind].
    destruct (Z.eqb_spec (col p 7) 48) as [W|W]; [split; [right; exists v; split; [exact Nv | right; lia] | eauto]|]. rewrite rd_ok by lia. cbn [bind]. unfold sci_loop.
    destruct (Z.ltb_spec (col p 7 - 48) 0) as [B|B].
    + split; [destruct (col p 6 =? 45); intros [q X]; discriminate X|]. intros [X|[w [X Y]]]; [tauto|]. apply atoi_iff in X. rewrite A in X. injection X as <-. destruct Y; [tauto | lia].
    + split; [intros _; right; exists v; split; [exact Nv | right; lia] | destruct (col p 6 =? 45); eauto].
  - split; [intros [q X]; discriminate X|]. intros [X|[w [X _]]]; [tauto|]. apply atoi_iff in X. rewrite A in X. discriminate X.
Qed.
Lemma first_is c d : (c = 32 /\ d = 0 \/ 0 <= d < 34 /\ c = sym d) <-> base34_to_int c = d /\ d <> -1.
Proof.
  split.
  - intros [[-> ->]|[B ->]]; [split; [reflexivity | discriminate]|]. split; [apply base34_sym, B | lia].
  - intros [E N]. destruct (Z.eq_dec c 32) as [->|N32]; [left; split; [reflexivity | exact (eq_sym E)]|]. right.
    destruct (in_dec Z.eq_dec c symbols) as [I|I]; [|rewrite base34_not_symbol in E by assumption; congruence]. destruct (sym_of_base34 c I) as [S B]. rewrite E in S, B. split; [exact B | exact (eq_sym S)].
Qed.
Lemma plain_is c : plain c <-> base34_to_int c <> -1 /\ (9 <? base34_to_int c) = false.
Proof.
  unfold plain, digit, base34_to_int. rewrite Z.ltb_ge. destruct (Z.eqb_spec c 32) as [->|N]; [split; [split; lia | auto]|].
  repeat match goal with |- context [if ?b then _ else _] => let E := fresh in destruct b eqn:E; [apply andb_true_iff in E | apply andb_false_iff in E]; rewrite ?Z.leb_le, ?Z.leb_gt in E end; lia.
Qed.
Ltac bad c Bad := split; [intros _ d D F; exact (Bad c ltac:(cbn; tauto) ltac:(rewrite plain_is; intros [? ?]; congruence) _ d D F) | eauto].
Lemma catalogue_iff p : (5 <= length p)%nat -> (exists n, get_norad_number p = Ok n) <-> some_catalogue p.
Proof.
  intros L. destruct p as [|c0 [|c1 [|c2 [|c3 [|c4 r]]]]]; try (cbn in L; lia). clear L. unfold some_catalogue. change (col (c0 :: _) 0) with c0. unfold adv. cbn [skipn firstn].
  unfold get_norad_number, adv, rd. cbn [nth_error bind skipn].
  assert (Bad : forall c, In c [c1; c2; c3; c4] -> ~ plain c -> forall A : Z -> Prop, forall d, (c0 = 32 /\ d = 0 \/ 0 <= d < 34 /\ c0 = sym d) -> Forall plain [c1; c2; c3; c4] -> exists v, A v).
  { intros c I N A d _ F. rewrite Forall_forall in F. destruct (N (F c I)). }
  destruct (Z.eqb_spec (base34_to_int c0) (-1)) as [E0|E0]; [split; [intros _ d D; apply first_is in D; destruct D; congruence | eauto]|].
  destruct (Z.eqb_spec (base34_to_int c1) (-1)) as [E1|E1]; [bad c1 Bad|].
  destruct (Z.eqb_spec (base34_to_int c2) (-1)) as [E2|E2]; [bad c2 Bad|].
  destruct (Z.eqb_spec (base34_to_int c3) (-1)) as [E3|E3]; [bad c3 Bad|].
  destruct (Z.eqb_spec (base34_to_int c4) (-1)) as [E4|E4]; [bad c4 Bad|].
  destruct (9 <? base34_to_int c4) eqn:G4; [bad c4 Bad|]. destruct (9 <? base34_to_int c3) eqn:G3; [bad c3 Bad|].
  destruct (9 <? base34_to_int c2) eqn:G2; [bad c2 Bad|]. destruct (9 <? base34_to_int c1) eqn:G1; [bad c1 Bad|].
  assert (F : Forall plain [c1; c2; c3; c4]) by (repeat (apply Forall_cons; [apply plain_is; auto|]); apply Forall_nil). set (q := c1 :: c2 :: c3 :: c4 :: r). clearbody q.
  split.
  - intros [n H] d D _. apply first_is in D. destruct D as [<- _]. destruct (c_atoi q) as [v|] eqn:A; [|discriminate H]. cbn [bind] in H. apply chk_iff in H. exists v. split; [apply atoi_iff, A|].
    destruct H as [_ H]. rewrite Z.mul_comm. exact H.
  - intros H. destruct (H (base34_to_int c0) (proj2 (first_is _ _) (conj eq_refl E0)) F) as (v & Nv & B). apply atoi_iff in Nv. rewrite Nv. cbn [bind]. eexists. apply chk_iff. split; [reflexivity | rewrite Z.mul_comm; exact B].
Qed.
Lemma eight_iff p : (exists q, get_eight_places p = Ok q) <-> a_number p /\ a_number (skipn 4 p).
Proof.
  unfold get_eight_places, adv. split.
  - intros [q H]. destruct (c_atoi p) as [a|] eqn:A; [|discriminate H]. cbn [bind] in H. destruct (c_atoi (skipn 4 p)) as [b|] eqn:B; [|discriminate H]. split; [exists a | exists b]; apply atoi_iff; assumption.
  - intros [H1 H2]. apply eight_ok; assumption.
Qed.
Lemma common_iff l1 l2 s : (70 <= length l1)%nat -> (70 <= length l2)%nat ->
  (exists s', parse_common l1 l2 s = Ok s') <-> a_number (skipn 20 l1) /\ a_number (skipn 24 l1) /\ some_catalogue (skipn 2 l1).
Proof.
  intros L1 L2. assert (B := short_ok (firstn 4 (skipn 64 l1)) ltac:(rewrite firstn_length; lia)). assert (R := short_ok (firstn 5 (skipn 63 l2)) ltac:(rewrite firstn_length; lia)).
  assert (E := eight_iff (skipn 20 l1)). rewrite skip_skip in E. cbn [Nat.add] in E.
  assert (C := catalogue_iff (skipn 2 l1) ltac:(rewrite skipn_length; lia)).
  unfold parse_common. rewrite !rd_ok by lia. cbn [bind]. unfold adv. split.
  - intros [s' H]. destruct (get_eight_places (skipn 20 l1)) as [q|]; [|discriminate H]. cbn [bind] in H. destruct (get_norad_number (skipn 2 l1)) as [n|]; [|discriminate H].
    destruct (proj1 E (ex_intro _ q eq_refl)) as [E1 E2]. exact (conj E1 (conj E2 (proj1 C (ex_intro _ n eq_refl)))).
  - intros (H1 & H2 & H3). destruct (proj2 E (conj H1 H2)) as [q ->]. destruct (proj2 C H3) as [n ->]. cbn [bind]. rewrite !take_ok by (rewrite skipn_length; lia). cbn [bind].
    destruct (atoi_ok _ B) as [bn ->]. cbn [bind]. destruct (atoi_ok _ R) as [rn ->]. cbn [bind]. eauto.
Qed.
Lemma common_type l1 l2 s s' : (70 <= length l1)%nat -> parse_common l1 l2 s = Ok s' -> ephemeris_type s' = col l1 62.
Proof.
  intros L. unfold parse_common. rewrite !rd_ok by lia. cbn [bind].
  repeat match goal with |- bind ?m _ = _ -> _ => destruct m; [cbn [bind] | discriminate] end. intros H. injection H as <-. reflexivity.
Qed.
Lemma mean_iff l1 l2 s : (70 <= length l1)%nat -> (70 <= length l2)%nat -> (exists s', parse_mean l1 l2 s = Ok s') <->
  Forall (fun k => exists v, some_angle (skipn k l2) v) [8; 17; 34; 43]%nat /\ a_number (skipn 26 l2)
  /\ a_number (firstn 12 (skipn 51 l2) ++ [0]) /\ a_number (skipn 35 l1) /\ some_sci (skipn 44 l1) /\ some_sci (skipn 53 l1).
Proof.
  intros L1 L2. assert (M2 := short_ok (firstn 8 (skipn 55 l2)) ltac:(rewrite firstn_length; lia)).
  assert (Ei := eight_iff (firstn 12 (skipn 51 l2) ++ [0])).
  replace (skipn 4 (firstn 12 (skipn 51 l2) ++ [0])) with (firstn 8 (skipn 55 l2) ++ [0]) in Ei
    by (rewrite skipn_app, skipn_firstn_comm, skip_skip, firstn_length, skipn_length; replace (4 - Nat.min 12 (length l2 - 51))%nat with 0%nat by lia; reflexivity).
  assert (S1 := sci_iff (skipn 44 l1) ltac:(rewrite skipn_length; lia)). assert (S2 := sci_iff (skipn 53 l1) ltac:(rewrite skipn_length; lia)).
  unfold parse_mean, adv. cbv zeta. rewrite !take_ok by (rewrite skipn_length; lia). rewrite !rd_ok by lia. cbn [bind]. split.
  - intros [s' H].
    destruct (get_angle (skipn 43 l2)) as [a4|] eqn:A4; [|discriminate H]. destruct (get_angle (skipn 17 l2)) as [a2|] eqn:A2; [|discriminate H].
    destruct (get_angle (skipn 34 l2)) as [a3|] eqn:A3; [|discriminate H]. destruct (get_angle (skipn 8 l2)) as [a1|] eqn:A1; [|discriminate H]. cbn [bind] in H.
    destruct (c_atoi (skipn 26 l2)) as [ec|] eqn:Ec; [|discriminate H]. cbn [bind] in H. destruct (get_eight_places _) as [mm|]; [|discriminate H]. cbn [bind] in H.
    destruct (c_atoi (skipn 35 l1)) as [n1|] eqn:N1; [|discriminate H]. cbn [bind] in H. destruct (sci (skipn 44 l1)) as [q1|]; [|discriminate H]. cbn [bind] in H. destruct (sci (skipn 53 l1)) as [q2|]; [|discriminate H].
    apply angle_iff in A1, A2, A3, A4. apply atoi_iff in Ec, N1.
    split; [constructor; [eauto|constructor; [eauto|constructor; [eauto|constructor; [eauto|constructor]]]]|]. split; [exists ec; exact Ec|]. split; [exact (proj1 (proj1 Ei (ex_intro _ mm eq_refl)))|].
    split; [exists n1; exact N1|]. split; [apply S1; eauto | apply S2; eauto].
  - intros (F & E & M & D & X1 & X2). inversion F as [|? ? [a1 A1] F1]; subst. inversion F1 as [|? ? [a2 A2] F2]; subst. inversion F2 as [|? ? [a3 A3] F3]; subst. inversion F3 as [|? ? [a4 A4] _]; subst.
    apply angle_iff in A1, A2, A3, A4. rewrite A1, A2, A3, A4. cbn [bind]. destruct (atoi_ok _ E) as [ec ->]. cbn [bind]. destruct (proj2 Ei (conj M M2)) as [mm ->]. cbn [bind].
    destruct (atoi_ok _ D) as [n1 ->]. cbn [bind]. destruct (proj2 S1 X1) as [q1 ->]. cbn [bind]. destruct (proj2 S2 X2) as [q2 ->]. cbn [bind]. eauto.
Qed.
Lemma checked l k : (70 <= length l)%nat -> tle_checksum l = Ok k -> 0 <= k <-> line_start l /\ data_ok l /\ col l 69 <= 32.
Proof.
  intros L K. destruct (checksum_cases l L) as (C1 & C2 & C3 & C4). split.
  - intros P.
    assert (Hs : line_start l).
    { unfold line_start in *. destruct (Z.eq_dec (col l 0) 49), (Z.eq_dec (col l 0) 50), (Z.eq_dec (col l 1) 32); try tauto; rewrite C1 in K by tauto; apply Ok_inj in K; lia. }
    assert (Hd : data_ok l).
    { unfold data_ok in *. destruct (forallb printableb (firstn 68 l)) eqn:E; [now apply forallb_printable|].
      rewrite C2 in K; [apply Ok_inj in K; lia|assumption|]. intro C. apply forallb_printable in C. congruence. }
    split; [exact Hs|]. split; [exact Hd|]. destruct (Z_le_gt_dec (col l 69) 32) as [|G]; [assumption|]. rewrite C3 in K by (assumption || lia). apply Ok_inj in K. lia.
  - intros (S & D & E). destruct (C4 S D E) as (r & R & B & _). rewrite K in R. apply Ok_inj in R. lia.
Qed.
Lemma accepted_iff l : (70 <= length l)%nat -> tle_checksum l = Ok 0 <-> line_start l /\ data_ok l /\ col l 69 <= 32 /\ (col l 68 - 48) mod 10 = total (firstn 68 l) mod 10.
Proof.
  intros L. split.
  - apply checksum_zero_inv, L.
  - intros (S & D & E & M). destruct (checksum_cases l L) as (_ & _ & _ & C4). destruct (C4 S D E) as (r & R & B & V). rewrite R. f_equal. rewrite <- V.
    rewrite Zminus_mod, M, Z.sub_diag. reflexivity.
Qed.
Lemma parse_iff l1 l2 s : (70 <= length l1)%nat -> (70 <= length l2)%nat ->
  (exists c s', parse_elements l1 l2 s = Ok (c, s')) <-> (tle_pair l1 l2 -> fields_defined l1 l2).
Proof.
  intros L1 L2. unfold parse_elements. rewrite (rd_ok l1 0) by lia. cbn [bind].
  destruct (checksum_defined l1 L1) as [k1 K1]. destruct (checksum_defined l2 L2) as [k2 K2].
  assert (G1 := checked l1 k1 L1 K1). assert (G2 := checked l2 k2 L2 K2).
  destruct (Z.eqb_spec (col l1 0) 49) as [E1|E1]; [|cbn; split; [intros _ [[? _] _]; congruence | eauto]]. rewrite (rd_ok l2 0) by lia. cbn [bind negb orb].
  destruct (Z.eqb_spec (col l2 0) 50) as [E2|E2]; [|cbn; split; [intros _ [_ [? _]]; congruence | eauto]]. cbn [negb]. rewrite K1. cbn [bind].
  assert (T : tle_pair l1 l2 <-> 0 <= k1 /\ 0 <= k2) by (rewrite G1, G2; unfold tle_pair, line_start; tauto).
  assert (Z1 : ((if 0 <? k1 then 0 else k1) =? 0) = (0 <=? k1)) by (destruct (Z.ltb_spec 0 k1), (Z.leb_spec 0 k1); try lia; try reflexivity; rewrite Z.eqb_eq || rewrite Z.eqb_neq; lia).
  assert (Z2 : ((if 0 <? k2 then 0 else k2) =? 0) = (0 <=? k2)) by (destruct (Z.ltb_spec 0 k2), (Z.leb_spec 0 k2); try lia; try reflexivity; rewrite Z.eqb_eq || rewrite Z.eqb_neq; lia).
  rewrite Z1. destruct (Z.leb_spec 0 k1) as [P1|P1]; cbn [negb]; [|split; [intros _ X; apply T in X; lia | eauto]].
  rewrite K2. cbn [bind]. rewrite Z2. destruct (Z.leb_spec 0 k2) as [P2|P2]; cbn [negb]; [|split; [intros _ X; apply T in X; lia | eauto]].
  assert (T' : tle_pair l1 l2) by (apply T; split; assumption). clear T Z1 Z2.
  assert (C := common_iff l1 l2 s L1 L2). unfold fields_defined. destruct (parse_common l1 l2 s) as [s1|] eqn:Pc.
  - assert (Ty := common_type l1 l2 s s1 L1 Pc). destruct (proj1 C (ex_intro _ s1 eq_refl)) as (C1 & C2 & C3). cbn [bind]. rewrite Ty. destruct (Z.eqb_spec (col l1 62) 72) as [H|H].
    + assert (Q := high_ok_iff l1 l2 s1 L1 L2). split.
      * intros (c & s' & X) _. split; [exact C1|]. split; [exact C2|]. split; [exact C3|]. split; [intros _; apply Q; destruct (parse_high l1 l2 s1); [eauto | discriminate X] | intros; congruence].
      * intros X. destruct (X T') as (_ & _ & _ & X4 & _). destruct (proj2 Q (X4 H)) as [s' ->]. cbn [bind]. eauto.
    + assert (Q := mean_iff l1 l2 s1 L1 L2). split.
      * intros (c & s' & X) _. split; [exact C1|]. split; [exact C2|]. split; [exact C3|]. split; [intros; congruence | intros _; apply Q; destruct (parse_mean l1 l2 s1); [eauto | discriminate X]].
      * intros X. destruct (X T') as (_ & _ & _ & _ & X5). destruct (proj2 Q (X5 H)) as [s' ->]. cbn [bind]. eauto.
  - cbn [bind]. split; [intros (c & s' & X); discriminate X|]. intros X. destruct (X T') as (X1 & X2 & X3 & _). destruct (proj2 C (conj X1 (conj X2 X3))) as [s' Y]. discriminate Y.
Qed.
(** The catalogue number: which columns it depends on. *)
Lemma decimal_code p d n : (5 <= length p)%nat -> leads (col p 0) d -> Forall plain (firstn 4 (skipn 1 p)) ->
  get_norad_number p = Ok n <-> exists v, number (skipn 1 p) v /\ n = 10000 * d + v /\ fits n.
Proof.
  intros L D F. destruct p as [|c0 [|c1 [|c2 [|c3 [|c4 r]]]]]; try (cbn in L; lia). clear L. change (col (c0 :: _) 0) with c0 in D. cbn [skipn firstn] in F |- *.
  apply first_is in D. destruct D as [D Dn]. inversion F as [|? ? P1 F1]; subst. inversion F1 as [|? ? P2 F2]; subst. inversion F2 as [|? ? P3 F3]; subst. inversion F3 as [|? ? P4 _]; subst. clear F F1 F2 F3.
  apply plain_is in P1, P2, P3, P4. destruct P1 as [M1 G1], P2 as [M2 G2], P3 as [M3 G3], P4 as [M4 G4].
  unfold get_norad_number, adv, rd. cbn [nth_error bind skipn].
  rewrite (proj2 (Z.eqb_neq _ _) Dn), (proj2 (Z.eqb_neq _ _) M1), (proj2 (Z.eqb_neq _ _) M2), (proj2 (Z.eqb_neq _ _) M3), (proj2 (Z.eqb_neq _ _) M4), G1, G2, G3, G4.
  set (q := c1 :: c2 :: c3 :: c4 :: r). clearbody q. split.
  - intros H. destruct (c_atoi q) as [v|] eqn:A; [|discriminate H]. cbn [bind] in H. apply chk_iff in H. destruct H as [-> H]. exists v. split; [apply atoi_iff, A|]. split; [ring | exact H].
  - intros (v & N & -> & B). apply atoi_iff in N. rewrite N. cbn [bind]. apply chk_iff. split; [ring|]. rewrite Z.mul_comm. exact B.
Qed.
Lemma other_code p q : (5 <= length p)%nat -> (5 <= length q)%nat -> firstn 5 p = firstn 5 q -> (forall d, leads (col p 0) d -> ~ Forall plain (firstn 4 (skipn 1 p))) ->
  exists n, get_norad_number p = Ok n /\ get_norad_number q = Ok n.
Proof.
  intros Lp Lq E X. destruct p as [|c0 [|c1 [|c2 [|c3 [|c4 r]]]]]; try (cbn in Lp; lia). destruct q as [|e0 [|e1 [|e2 [|e3 [|e4 t]]]]]; try (cbn in Lq; lia). clear Lp Lq.
  cbn [firstn] in E. injection E as <- <- <- <- <-. change (col (c0 :: _) 0) with c0 in X. cbn [skipn firstn] in X.
  unfold get_norad_number, adv, rd. cbn [nth_error bind skipn].
  destruct (Z.eqb_spec (base34_to_int c0) (-1)) as [E0|E0]; [eauto|]. destruct (Z.eqb_spec (base34_to_int c1) (-1)) as [E1|E1]; [eauto|]. destruct (Z.eqb_spec (base34_to_int c2) (-1)) as [E2|E2]; [eauto|].
  destruct (Z.eqb_spec (base34_to_int c3) (-1)) as [E3|E3]; [eauto|]. destruct (Z.eqb_spec (base34_to_int c4) (-1)) as [E4|E4]; [eauto|].
  destruct (9 <? base34_to_int c4) eqn:G4; [eauto|]. destruct (9 <? base34_to_int c3) eqn:G3; [eauto|]. destruct (9 <? base34_to_int c2) eqn:G2; [eauto|]. destruct (9 <? base34_to_int c1) eqn:G1; [eauto|].
  exfalso. apply (X (base34_to_int c0)); [apply first_is; auto|]. repeat (apply Forall_cons; [apply plain_is; auto|]). apply Forall_nil.
Qed.
