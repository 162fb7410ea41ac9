(** Return codes, propagator choice, small facts about the check column. *)
From Coq Require Import ZArith List Bool Lia QArith.
From Verif Require Import ListLemmas CLib TleModel TleSpec TleProofs1 TleProofs2 TleProofs3 TleProofs4.
Import ListNotations.
Open Scope Z_scope.
Ltac Zify.zify_post_hook ::= Z.div_mod_to_equations.

Lemma checksum_range : forall l r, tle_checksum l = Ok r -> -3 <= r < 10.
Proof.
  intros l r H. rewrite tle_checksum_full in H.
  repeat match type of H with
  | match ?x with [] => _ | _ :: _ => _ end = _ => destruct x
  | (if ?b then _ else _) = _ => destruct b
  end; try discriminate H; apply Ok_inj in H; subst r; try lia.
  match goal with |- context [if ?b then _ else _] => destruct b end; [lia|].
  match goal with |- context [?t mod 10] => pose proof (Z.mod_pos_bound t 10 ltac:(lia)) end. lia.
Qed.

Lemma parse_common_type : forall l1 l2 s s', parse_common l1 l2 s = Ok s' -> ephemeris_type s' = col l1 62.
Proof.
  intros l1 l2 s s' H. unfold parse_common in H.
  repeat match type of H with
  | bind ?m _ = _ => let E := fresh "E" in destruct m eqn:E; cbn [bind] in H; [|discriminate H]
  end.
  apply Ok_inj in H. subst s'. cbn [ephemeris_type].
  unfold rd in *.
  match goal with E : match nth_error l1 62 with _ => _ end = _ |- _ =>
    destruct (nth_error l1 62) eqn:N; [|discriminate E]; apply Ok_inj in E; subst end.
  unfold col. symmetry. now apply nth_error_nth.
Qed.

Definition flag (k : Z) (w : Z) : Z := if k =? 0 then 0 else w.

Lemma parse_codes : forall l1 l2 s c s', parse_elements l1 l2 s = Ok (c, s') ->
  (c < 0 /\ s' = s /\
    (c = -104 /\ (col l1 0 <> 49 \/ col l2 0 <> 50) \/
     (exists k, tle_checksum l1 = Ok k /\ k < 0 /\ c = k - 100) \/
     (exists k, tle_checksum l2 = Ok k /\ k < 0 /\ c = k))) \/
  (exists k1 k2, col l1 0 = 49 /\ col l2 0 = 50 /\
     tle_checksum l1 = Ok k1 /\ tle_checksum l2 = Ok k2 /\ 0 <= k1 /\ 0 <= k2 /\
     (col l1 62 <> 72 -> c = flag k1 1 + flag k2 2) /\ (col l1 62 = 72 -> c = 0)).
Proof.
  intros l1 l2 s c s' H. unfold parse_elements in H.
  destruct (rd l1 0) as [a|] eqn:Ea; [|discriminate H]. cbn [bind] in H.
  assert (Ca: col l1 0 = a).
  { unfold rd in Ea. destruct (nth_error l1 0) eqn:N; [|discriminate]. apply Ok_inj in Ea. subst.
    unfold col. now apply nth_error_nth. }
  destruct (Z.eqb_spec a 49) as [->|Hna].
  2:{ cbn in H. apply Ok_inj in H. left. injection H as <- <-. repeat split; try lia; left; lia. }
  destruct (rd l2 0) as [b|] eqn:Eb; [|discriminate H]. cbn [bind] in H.
  assert (Cb: col l2 0 = b).
  { unfold rd in Eb. destruct (nth_error l2 0) eqn:N; [|discriminate]. apply Ok_inj in Eb. subst.
    unfold col. now apply nth_error_nth. }
  destruct (Z.eqb_spec b 50) as [->|Hnb].
  2:{ cbn in H. apply Ok_inj in H. left. injection H as <- <-. repeat split; try lia; left; lia. }
  cbn [negb orb] in H.
  destruct (tle_checksum l1) as [k1|] eqn:K1; [|discriminate H]. cbn [bind] in H.
  pose proof (checksum_range _ _ K1) as B1.
  destruct (Z.ltb_spec 0 k1) as [P1|P1].
  - cbn in H.
    destruct (tle_checksum l2) as [k2|] eqn:K2; [|discriminate H]. cbn [bind] in H.
    pose proof (checksum_range _ _ K2) as B2.
    destruct (Z.ltb_spec 0 k2) as [P2|P2]; cbn [Z.eqb negb] in H.
    + right. exists k1, k2. repeat split; auto; try lia.
      all: intros HT; destruct (parse_common l1 l2 s) as [sc|] eqn:EC; [|discriminate H]; cbn [bind] in H;
        rewrite (parse_common_type _ _ _ _ EC) in H.
      * replace (col l1 62 =? 72) with false in H by (symmetry; now apply Z.eqb_neq).
        destruct (parse_mean l1 l2 sc); [|discriminate H]. apply Ok_inj in H. injection H as <- _.
        unfold flag. destruct (Z.eqb_spec k1 0), (Z.eqb_spec k2 0); try lia; reflexivity.
      * rewrite HT in H. cbn [Z.eqb Pos.eqb] in H.
        destruct (parse_high l1 l2 sc); [|discriminate H]. apply Ok_inj in H. now injection H as <- _.
    + destruct (Z.eqb_spec k2 0) as [->|N2]; cbn [negb] in H.
      * right. exists k1, 0. repeat split; auto; try lia.
        all: intros HT; destruct (parse_common l1 l2 s) as [sc|] eqn:EC; [|discriminate H]; cbn [bind] in H;
          rewrite (parse_common_type _ _ _ _ EC) in H.
        -- replace (col l1 62 =? 72) with false in H by (symmetry; now apply Z.eqb_neq).
           destruct (parse_mean l1 l2 sc); [|discriminate H]. apply Ok_inj in H. injection H as <- _.
           unfold flag. destruct (Z.eqb_spec k1 0); try lia; reflexivity.
        -- rewrite HT in H. cbn [Z.eqb Pos.eqb] in H.
           destruct (parse_high l1 l2 sc); [|discriminate H]. apply Ok_inj in H. now injection H as <- _.
      * apply Ok_inj in H. injection H as <- <-. left. repeat split; try lia.
        right. right. exists k2. repeat split; auto. lia.
  - destruct (Z.eqb_spec k1 0) as [->|N1]; cbn [negb] in H.
    2:{ apply Ok_inj in H. injection H as <- <-. left. repeat split; try lia.
        right. left. exists k1. repeat split; auto. lia. }
    destruct (tle_checksum l2) as [k2|] eqn:K2; [|discriminate H]. cbn [bind] in H.
    pose proof (checksum_range _ _ K2) as B2.
    destruct (Z.ltb_spec 0 k2) as [P2|P2]; cbn [Z.eqb negb] in H.
    + right. exists 0, k2. repeat split; auto; try lia.
      all: intros HT; destruct (parse_common l1 l2 s) as [sc|] eqn:EC; [|discriminate H]; cbn [bind] in H;
        rewrite (parse_common_type _ _ _ _ EC) in H.
      * replace (col l1 62 =? 72) with false in H by (symmetry; now apply Z.eqb_neq).
        destruct (parse_mean l1 l2 sc); [|discriminate H]. apply Ok_inj in H. injection H as <- _.
        unfold flag. destruct (Z.eqb_spec k2 0); try lia; reflexivity.
      * rewrite HT in H. cbn [Z.eqb Pos.eqb] in H.
        destruct (parse_high l1 l2 sc); [|discriminate H]. apply Ok_inj in H. now injection H as <- _.
    + destruct (Z.eqb_spec k2 0) as [->|N2]; cbn [negb] in H.
      * right. exists 0, 0. repeat split; auto; try lia.
        all: intros HT; destruct (parse_common l1 l2 s) as [sc|] eqn:EC; [|discriminate H]; cbn [bind] in H;
          rewrite (parse_common_type _ _ _ _ EC) in H.
        -- replace (col l1 62 =? 72) with false in H by (symmetry; now apply Z.eqb_neq).
           destruct (parse_mean l1 l2 sc); [|discriminate H]. apply Ok_inj in H. now injection H as <- _.
        -- rewrite HT in H. cbn [Z.eqb Pos.eqb] in H.
           destruct (parse_high l1 l2 sc); [|discriminate H]. apply Ok_inj in H. now injection H as <- _.
      * apply Ok_inj in H. injection H as <- <-. left. repeat split; try lia.
        right. right. exists k2. repeat split; auto. lia.
Qed.

Lemma parse_zero : forall l1 l2 s s', parse_elements l1 l2 s = Ok (0, s') -> col l1 62 <> 72 ->
  tle_checksum l1 = Ok 0 /\ tle_checksum l2 = Ok 0.
Proof.
  intros l1 l2 s s' H HT. destruct (parse_codes _ _ _ _ _ H) as [(? & _)|(k1 & k2 & _ & _ & E1 & E2 & _ & _ & HC & _)]; [lia|].
  specialize (HC HT). unfold flag in HC.
  destruct (Z.eqb_spec k1 0), (Z.eqb_spec k2 0); subst; try lia; auto.
Qed.

(** *** High-precision elements *)
Lemma parse_high_ok : forall l1 l2 x y z vx vy vz s,
  (63 <= length l1)%nat -> (63 <= length l2)%nat ->
  Z.abs x < 36 ^ 8 -> Z.abs y < 36 ^ 8 -> Z.abs z < 36 ^ 8 ->
  Z.abs vx < 36 ^ 8 -> Z.abs vy < 36 ^ 8 -> Z.abs vz < 36 ^ 8 ->
  field l1 33 9 = encode36 x -> field l1 43 9 = encode36 y -> field l1 53 9 = encode36 z ->
  field l2 33 9 = encode36 vx -> field l2 43 9 = encode36 vy -> field l2 53 9 = encode36 vz ->
  parse_high l1 l2 s = Ok (mk_tle (epoch s) (xndt2o s) (xndd6o s) (bstar s)
        (inject_Z x) (inject_Z y) (inject_Z z)
        (inject_Z vx * (1 # 10000))%Q (inject_Z vy * (1 # 10000))%Q (inject_Z vz * (1 # 10000))%Q
        (norad_number s) (bulletin_number s) (revolution_number s)
        (classification s) (ephemeris_type s) (tle_intl_desig s)).
Proof.
  intros l1 l2 x y z vx vy vz s H1 H2 Bx By Bz Bvx Bvy Bvz Ex Ey Ez Evx Evy Evz.
  unfold parse_high.
  rewrite (adv_field l1 33 9), Ex, high_roundtrip by (assumption || lia). cbn [bind].
  rewrite (adv_field l2 33 9), Evx, high_roundtrip by (assumption || lia). cbn [bind].
  rewrite (adv_field l1 43 9), Ey, high_roundtrip by (assumption || lia). cbn [bind].
  rewrite (adv_field l2 43 9), Evy, high_roundtrip by (assumption || lia). cbn [bind].
  rewrite (adv_field l1 53 9), Ez, high_roundtrip by (assumption || lia). cbn [bind].
  rewrite (adv_field l2 53 9), Evz, high_roundtrip by (assumption || lia). reflexivity.
Qed.

Lemma parse_high_elements : forall l1 l2 x y z vx vy vz s,
  (70 <= length l1)%nat -> (70 <= length l2)%nat ->
  col l1 62 = 72 -> col l1 0 = 49 -> col l2 0 = 50 ->
  Z.abs x < 36 ^ 8 -> Z.abs y < 36 ^ 8 -> Z.abs z < 36 ^ 8 ->
  Z.abs vx < 36 ^ 8 -> Z.abs vy < 36 ^ 8 -> Z.abs vz < 36 ^ 8 ->
  field l1 33 9 = encode36 x -> field l1 43 9 = encode36 y -> field l1 53 9 = encode36 z ->
  field l2 33 9 = encode36 vx -> field l2 43 9 = encode36 vy -> field l2 53 9 = encode36 vz ->
  forall k1 k2 sc, tle_checksum l1 = Ok k1 -> tle_checksum l2 = Ok k2 -> 0 <= k1 -> 0 <= k2 ->
  parse_common l1 l2 s = Ok sc ->
  exists s', parse_elements l1 l2 s = Ok (0, s') /\
    xincl s' = inject_Z x /\ xnodeo s' = inject_Z y /\ eo s' = inject_Z z /\
    (omegao s' == inject_Z vx / inject_Z (10 ^ 4))%Q /\ (xmo s' == inject_Z vy / inject_Z (10 ^ 4))%Q /\
    (xno s' == inject_Z vz / inject_Z (10 ^ 4))%Q /\
    epoch s' = epoch sc /\ norad_number s' = norad_number sc /\ ephemeris_type s' = 72.
Proof.
  intros l1 l2 x y z vx vy vz s H1 H2 HT A1 A2 Bx By Bz Bvx Bvy Bvz Ex Ey Ez Evx Evy Evz k1 k2 sc K1 K2 P1 P2 HC.
  pose proof (parse_common_type _ _ _ _ HC) as TC.
  eexists. split.
  - unfold parse_elements. rewrite (rd_col l1 0), A1 by lia. cbn [bind].
    change (49 =? 49) with true. cbv iota. rewrite (rd_col l2 0), A2 by lia. cbn [bind].
    change (50 =? 50) with true. cbn [negb orb]. rewrite K1. cbn [bind].
    replace (negb ((if 0 <? k1 then 0 else k1) =? 0)) with false.
    2:{ destruct (Z.ltb_spec 0 k1); [reflexivity|]. replace k1 with 0 by lia. reflexivity. }
    rewrite K2. cbn [bind].
    replace (negb ((if 0 <? k2 then 0 else k2) =? 0)) with false.
    2:{ destruct (Z.ltb_spec 0 k2); [reflexivity|]. replace k2 with 0 by lia. reflexivity. }
    rewrite HC. cbn [bind]. rewrite TC, HT. change (72 =? 72) with true. cbv iota.
    rewrite (parse_high_ok l1 l2 x y z vx vy vz sc) by (assumption || lia). reflexivity.
  - cbn [xincl xnodeo eo omegao xmo xno epoch norad_number ephemeris_type].
    rewrite TC, HT. repeat split; reflexivity.
Qed.

(** *** Choice of the propagator *)
Lemma high_chosen_iff : forall deep t, ephemeris_type t = 72 ->
  (chosen_propagator deep t = StateVector <->
   (xno t <= 0)%Q \/ (1 < eo t)%Q \/ (eo t < 0)%Q \/ deep t = true).
Proof.
  intros deep t HT. unfold chosen_propagator, select_ephemeris. rewrite HT. cbn [Z.eqb Pos.eqb orb].
  destruct (Qle_bool (xno t) 0) eqn:E1; cbn [orb negb].
  { apply Qle_bool_iff in E1. cbn. intuition. }
  destruct (Qle_bool (eo t) 1) eqn:E2; cbn [orb negb].
  2:{ cbn. split; [intros _|reflexivity]. right. left.
      apply Qnot_le_lt. intro C. apply Qle_bool_iff in C. congruence. }
  destruct (Qle_bool 0 (eo t)) eqn:E3; cbn [orb negb].
  2:{ cbn. split; [intros _|reflexivity]. right. right. left.
      apply Qnot_le_lt. intro C. apply Qle_bool_iff in C. congruence. }
  apply Qle_bool_iff in E2, E3.
  assert (N1: ~ (xno t <= 0)%Q) by (intro C; apply Qle_bool_iff in C; congruence).
  destruct (deep t); cbn; split; auto; try discriminate.
  intros [C|[C|[C|C]]]; [contradiction|apply Qlt_not_le in C; contradiction|apply Qlt_not_le in C; contradiction|discriminate].
Qed.
