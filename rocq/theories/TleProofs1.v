(** Lemmas on the checksum and on catalogue codes. *)
From Coq Require Import ZArith List Bool Lia QArith.
From Verif Require Import ListLemmas CLib TleModel TleSpec.
Import ListNotations.
Open Scope Z_scope.
Ltac Zify.zify_post_hook ::= Z.div_mod_to_equations.

Lemma rd_nth : forall p i, (i < length p)%nat -> rd p i = Ok (nth i p 0).
Proof.
  intros p i H. unfold rd.
  rewrite (nth_error_nth' p 0 H). reflexivity.
Qed.

Lemma Ok_inj : forall (A : Type) (a b : A), Ok a = Ok b -> a = b.
Proof. intros A a b H. congruence. Qed.

Lemma rd_oob : forall p i, (length p <= i)%nat -> rd p i = UB OutOfBounds.
Proof. intros p i H. unfold rd. apply nth_error_None in H. now rewrite H. Qed.

Definition printableb (c : Z) : bool := (32 <=? c) && (c <=? 122).

Lemma printableb_ok : forall c, printableb c = true <-> printable c.
Proof. intros; unfold printableb, printable. rewrite andb_true_iff, !Z.leb_le. tauto. Qed.

Lemma weight_code : forall c r,
  (if (48 <? c) && (c <=? 57) then r + (c - 48) else if c =? 45 then r + 1 else r)
  = r + weight c.
Proof.
  intros.
  destruct ((48 <? c) && (c <=? 57)) eqn:E.
  - apply andb_true_iff in E. rewrite Z.ltb_lt, Z.leb_le in E.
    assert (H: c = 49 \/ c = 50 \/ c = 51 \/ c = 52 \/ c = 53 \/ c = 54 \/ c = 55 \/ c = 56 \/ c = 57) by lia.
    repeat (destruct H as [->|H]; [reflexivity|]). subst; reflexivity.
  - destruct (c =? 45) eqn:E2.
    + apply Z.eqb_eq in E2; subst; reflexivity.
    + apply Z.eqb_neq in E2.
      rewrite andb_false_iff, Z.ltb_ge, Z.leb_gt in E.
      assert (weight c = 0); [|lia].
      assert (~ (49 <= c <= 57)) by lia.
      clear E. unfold weight.
      destruct c as [|p|p]; try reflexivity.
      do 6 (destruct p as [p|p|]; try reflexivity; try lia).
Qed.

Lemma checksum_loop_eq : forall n rval p,
  checksum_loop n rval p =
  if forallb printableb (firstn n p)
  then if (n <=? length p)%nat
       then Ok (Some (rval + total (firstn n p), skipn n p))
       else UB OutOfBounds
  else Ok None.
Proof.
  induction n as [|n IH]; intros rval p.
  - cbn. now rewrite Z.add_0_r.
  - destruct p as [|c p].
    + reflexivity.
    + cbn [checksum_loop]. change (rd (c :: p) 0) with (@Ok Z c). cbn [bind].
      rewrite weight_code.
      change (adv (c :: p) 1) with p.
      rewrite IH. cbn [firstn forallb total skipn length].
      replace (S n <=? S (length p))%nat with (n <=? length p)%nat by reflexivity.
      unfold printableb at 2.
      destruct (c <? 32) eqn:E1; destruct (122 <? c) eqn:E2;
        destruct (32 <=? c) eqn:E3; destruct (c <=? 122) eqn:E4;
        cbn [orb andb]; try reflexivity; try lia.
      rewrite Z.add_assoc. reflexivity.
Qed.

(** Complete description of the checksum routine, including undefined reads. *)
Lemma tle_checksum_full : forall l,
  tle_checksum l =
  match l with
  | [] => UB OutOfBounds
  | c0 :: l' =>
      if (c0 =? 49) || (c0 =? 50) then
        match l' with
        | [] => UB OutOfBounds
        | c1 :: _ =>
            if c1 =? 32 then
              if forallb printableb (firstn 68 l) then
                if (70 <=? length l)%nat then
                  Ok (if 32 <? col l 69 then -3
                      else (total (firstn 68 l) - (col l 68 - 48)) mod 10)
                else UB OutOfBounds
              else Ok (-2)
            else Ok (-1)
        end
      else Ok (-1)
  end.
Proof.
  intros l. unfold tle_checksum.
  destruct l as [|c0 l']; [reflexivity|].
  change (rd (c0 :: l') 0) with (@Ok Z c0). cbn [bind].
  destruct (c0 =? 49) eqn:E1; destruct (c0 =? 50) eqn:E2; cbn [negb andb orb]; try reflexivity;
  (destruct l' as [|c1 l'']; [reflexivity|];
   change (rd (c0 :: c1 :: l'') 1) with (@Ok Z c1); cbn [bind];
   destruct (c1 =? 32) eqn:E3; cbn [negb]; [|reflexivity];
   remember (c0 :: c1 :: l'') as l eqn:Hl;
   rewrite checksum_loop_eq;
   destruct (forallb printableb (firstn 68 l)) eqn:Ef; [|reflexivity];
   destruct (68 <=? length l)%nat eqn:E68; cbn [bind];
    [| destruct (70 <=? length l)%nat eqn:E70; [|reflexivity];
       apply Nat.leb_le in E70; apply Nat.leb_gt in E68; lia];
   apply Nat.leb_le in E68;
   destruct (70 <=? length l)%nat eqn:E70;
   [ apply Nat.leb_le in E70;
     rewrite rd_nth by (rewrite skipn_length; lia); cbn [bind];
     rewrite rd_nth by (unfold adv; rewrite !skipn_length; lia); cbn [bind];
     unfold adv; rewrite !nth_skipn;
     change (68 + 0)%nat with 68%nat; replace (68 + (1 + 0))%nat with 69%nat by reflexivity;
     unfold col; rewrite Z.add_0_l;
     set (t := total (firstn 68 l) - (nth 68 l 0 - 48));
     destruct (32 <? nth 69 l 0) eqn:E69; [reflexivity|];
     f_equal;
     pose proof (Z.rem_bound_pos 10 10) as _;
     destruct (Z.rem t 10 <? 0) eqn:Er;
       [apply Z.ltb_lt in Er | apply Z.ltb_ge in Er];
       pose proof (Z.quot_rem t 10 ltac:(lia));
       pose proof (Z.rem_bound_abs t 10 ltac:(lia));
       rewrite Z.rem_small by lia;
       [apply (Z.mod_unique_pos t 10 (Z.quot t 10 - 1)) | apply (Z.mod_unique_pos t 10 (Z.quot t 10))]; lia
   | apply Nat.leb_gt in E70;
     destruct (Nat.eq_dec (length l) 68) as [H68|H68];
     [ rewrite rd_oob by (rewrite skipn_length; lia); reflexivity
     | rewrite rd_nth by (rewrite skipn_length; lia); cbn [bind];
       rewrite rd_oob by (unfold adv; rewrite !skipn_length; lia); reflexivity ] ]).
Qed.

Lemma forallb_printable : forall l, forallb printableb l = true <-> Forall printable l.
Proof.
  intros. rewrite forallb_forall, Forall_forall.
  split; intros H x Hx; apply printableb_ok; auto.
Qed.

(** *** C01 *)
Lemma checksum_cases : forall l, (70 <= length l)%nat ->
  (~ line_start l -> tle_checksum l = Ok (-1)) /\
  (line_start l -> ~ data_ok l -> tle_checksum l = Ok (-2)) /\
  (line_start l -> data_ok l -> 32 < col l 69 -> tle_checksum l = Ok (-3)) /\
  (line_start l -> data_ok l -> col l 69 <= 32 ->
     exists r, tle_checksum l = Ok r /\ 0 <= r < 10 /\
       (total (firstn 68 l) - (col l 68 - 48)) mod 10 = r).
Proof.
  intros l Hlen. rewrite tle_checksum_full.
  destruct l as [|c0 [|c1 l']]; [cbn in Hlen; lia|cbn in Hlen; lia|].
  unfold line_start. change (col (c0 :: c1 :: l') 0) with c0.
  change (col (c0 :: c1 :: l') 1) with c1.
  remember (c0 :: c1 :: l') as l.
  unfold data_ok. rewrite <- forallb_printable.
  replace (70 <=? length l)%nat with true by (symmetry; apply Nat.leb_le; lia).
  destruct (Z.eqb_spec c0 49), (Z.eqb_spec c0 50), (Z.eqb_spec c1 32); cbn [orb];
    destruct (forallb printableb (firstn 68 l)) eqn:Ef;
    repeat split; intros; try reflexivity; try tauto; try congruence;
    try (destruct (Z.ltb_spec 32 (col l 69)); [reflexivity|lia]);
    try (destruct (Z.ltb_spec 32 (col l 69)); [lia|];
         eexists; repeat split; try reflexivity; apply Z.mod_pos_bound; lia).
Qed.

Lemma total_nonneg_mod : forall a b, (a - b) mod 10 = 0 -> 0 <= b <= 9 -> b = a mod 10.
Proof. intros. lia. Qed.

Lemma checksum_zero_iff : forall l, (70 <= length l)%nat ->
  line_start l -> data_ok l -> col l 69 <= 32 -> digit (col l 68) ->
  (tle_checksum l = Ok 0 <-> check_digit_ok l).
Proof.
  intros l Hlen Hs Hd H69 Hdig.
  destruct (checksum_cases l Hlen) as (_ & _ & _ & H).
  destruct (H Hs Hd H69) as (r & Hr & Hb & Hm). rewrite Hr.
  unfold check_digit_ok, digit in *. split; intros HH.
  - injection HH as ->. lia.
  - f_equal. lia.
Qed.

(** *** C04 *)
Lemma forallb_firstn_0 : forall t, ~ In 0 t -> (length t < 68)%nat ->
  forallb printableb (firstn 68 (t ++ [0])) = false.
Proof.
  intros t _ Hl. rewrite firstn_all2 by (rewrite app_length; cbn; lia).
  rewrite forallb_app. cbn. now rewrite andb_false_r.
Qed.

Lemma checksum_text : forall t, ~ In 0 t ->
  (tle_checksum (t ++ [0]) = UB OutOfBounds <->
   (length t = 68%nat /\ line_start t /\ data_ok t)) /\
  (tle_checksum (t ++ [0]) <> UB OutOfBounds -> exists r, tle_checksum (t ++ [0]) = Ok r).
Proof.
  intros t Hnz. split.
  2:{ rewrite tle_checksum_full. destruct (t ++ [0]) as [|c0 [|c1 l]] eqn:E;
      try congruence;
      repeat match goal with |- context [if ?b then _ else _] => destruct b end; try congruence; eauto. }
  destruct t as [|c0 [|c1 t]].
  - cbn. split; [discriminate|]. intros [H _]; discriminate H.
  - split; [|intros [H _]; discriminate H].
    rewrite tle_checksum_full. cbn. destruct ((c0 =? 49) || (c0 =? 50)); discriminate.
  - remember (c0 :: c1 :: t) as s eqn:Hs.
    assert (Hfull: tle_checksum (s ++ [0]) = if (c0 =? 49) || (c0 =? 50) then
            if c1 =? 32 then
              if forallb printableb (firstn 68 (s ++ [0])) then
                if (70 <=? length (s ++ [0%Z]))%nat then
                  Ok (if 32 <? col (s ++ [0]) 69 then -3
                      else (total (firstn 68 (s ++ [0])) - (col (s ++ [0]) 68 - 48)) mod 10)
                else UB OutOfBounds
              else Ok (-2)
            else Ok (-1)
      else Ok (-1)).
    { rewrite tle_checksum_full. subst s. reflexivity. }
    rewrite Hfull. unfold line_start, data_ok.
    replace (col s 0) with c0 by (now subst). replace (col s 1) with c1 by (now subst).
    rewrite app_length. cbn [length].
    destruct (Z.eqb_spec c0 49), (Z.eqb_spec c0 50), (Z.eqb_spec c1 32); cbn [orb];
      try (split; [discriminate | intros (_ & [HH1 HH2] & _); lia]);
    (destruct (lt_dec (length s) 68) as [Hlt|Hge];
     [ rewrite forallb_firstn_0 by assumption; split; [discriminate|lia]
     | rewrite firstn_app; replace (68 - length s)%nat with 0%nat by lia; rewrite ?firstn_O;
       rewrite app_nil_r;
       destruct (forallb printableb (firstn 68 s)) eqn:Ef;
       [ destruct (70 <=? length s + 1)%nat eqn:E70;
         [ apply Nat.leb_le in E70; split; [discriminate|lia]
         | apply Nat.leb_gt in E70; split; [intros _|reflexivity];
           repeat split; try lia; now apply forallb_printable ]
       | split; [discriminate|]; intros (_ & _ & HF); apply forallb_printable in HF; congruence ] ]).
Qed.

Lemma checksum_prefix : forall l m, firstn 70 l = firstn 70 m -> (70 <= length l)%nat ->
  (70 <= length m)%nat -> tle_checksum l = tle_checksum m.
Proof.
  intros l m H Hl Hm.
  rewrite !tle_checksum_full.
  assert (Hcol: forall i, (i < 70)%nat -> col l i = col m i).
  { intros i Hi. unfold col. rewrite <- (firstn_skipn 70 l), <- (firstn_skipn 70 m), H.
    rewrite !app_nth1; auto; rewrite firstn_length; lia. }
  assert (H68: firstn 68 l = firstn 68 m).
  { change 68%nat with (Nat.min 68 70). rewrite <- !firstn_firstn, H. reflexivity. }
  destruct l as [|a [|b l]]; try (cbn in Hl; lia).
  destruct m as [|a' [|b' m]]; try (cbn in Hm; lia).
  assert (a = a') by (apply (Hcol 0%nat); lia).
  assert (b = b') by (apply (Hcol 1%nat); lia).
  subst a' b'. rewrite H68, (Hcol 69%nat), (Hcol 68%nat) by lia.
  replace (70 <=? length (a :: b :: l))%nat with true by (symmetry; apply Nat.leb_le; lia).
  replace (70 <=? length (a :: b :: m))%nat with true by (symmetry; apply Nat.leb_le; lia).
  reflexivity.
Qed.

(** *** C02 *)
Lemma weight_digit : forall c, digit c -> weight c = c - 48.
Proof.
  unfold digit; intros c H.
  assert (HH: c = 48 \/ c = 49 \/ c = 50 \/ c = 51 \/ c = 52 \/ c = 53 \/ c = 54 \/ c = 55 \/ c = 56 \/ c = 57) by lia.
  repeat (destruct HH as [->|HH]; [reflexivity|]). subst; reflexivity.
Qed.

Lemma total_app : forall a b, total (a ++ b) = total a + total b.
Proof. induction a; intros; cbn [app total]; [lia|]. rewrite IHa. lia. Qed.

Lemma retype_length : forall l i c, (i < length l)%nat -> length (retype l i c) = length l.
Proof.
  intros. unfold retype. rewrite app_length, firstn_length. cbn [length].
  rewrite skipn_length. lia.
Qed.

Lemma split_at : forall (l : list Z) i, (i < length l)%nat ->
  l = firstn i l ++ nth i l 0 :: skipn (S i) l.
Proof.
  induction l; intros i Hi; [cbn in Hi; lia|].
  destruct i; cbn [firstn nth skipn app]; [reflexivity|].
  f_equal. apply IHl. cbn in Hi; lia.
Qed.

Lemma nth_retype : forall l i c j, (i < length l)%nat ->
  nth j (retype l i c) 0 = if (j =? i)%nat then c else nth j l 0.
Proof.
  intros l i c j Hi. unfold retype.
  destruct (Nat.eqb_spec j i) as [->|Hne].
  - rewrite app_nth2; rewrite firstn_length; [|lia].
    replace (i - Nat.min i (length l))%nat with 0%nat by lia. reflexivity.
  - destruct (lt_dec j i) as [Hlt|Hge].
    + rewrite app_nth1 by (rewrite firstn_length; lia).
      rewrite <- (firstn_skipn i l) at 2. rewrite app_nth1; [reflexivity|rewrite firstn_length; lia].
    + rewrite app_nth2; rewrite firstn_length; [|lia].
      replace (j - Nat.min i (length l))%nat with (S (j - i - 1)) by lia.
      cbn [nth]. rewrite nth_skipn. f_equal. lia.
Qed.

Lemma firstn_retype : forall l i c n, (i < n)%nat -> (i < length l)%nat -> 
  firstn n (retype l i c) = retype (firstn n l) i c.
Proof.
  intros l i c n Hin Hil. unfold retype.
  rewrite firstn_app, firstn_firstn, firstn_firstn, firstn_length.
  replace (Nat.min n i) with i by lia. replace (Nat.min i n) with i by lia.
  replace (n - Nat.min i (length l))%nat with (S (n - S i)) by lia.
  cbn [firstn]. rewrite skipn_firstn_comm. reflexivity.
Qed.

Lemma total_retype : forall l i c, (i < length l)%nat ->
  total (retype l i c) = total l - weight (nth i l 0) + weight c.
Proof.
  intros l i c Hi. rewrite (split_at l i Hi) at 2. unfold retype.
  rewrite !total_app. cbn [total]. lia.
Qed.

Lemma checksum_detects : forall l i c,
  (70 <= length l)%nat -> digit (col l 68) ->
  tle_checksum l = Ok 0 -> (i <= 68)%nat -> digit (col l i) -> digit c -> c <> col l i ->
  tle_checksum (retype l i c) <> Ok 0.
Proof.
  intros l i c Hlen H68 H0 Hi Hd Hc Hne H1.
  assert (Hlen': (70 <= length (retype l i c))%nat) by (rewrite retype_length; lia).
  rewrite tle_checksum_full in H0, H1.
  destruct l as [|c0 [|c1 l]]; [cbn in Hlen; lia|cbn in Hlen; lia|].
  remember (c0 :: c1 :: l) as m eqn:Hm.
  destruct (retype m i c) as [|d0 [|d1 l']] eqn:Er; [cbn in Hlen'; lia|cbn in Hlen'; lia|].
  rewrite <- Er in *.
  destruct ((c0 =? 49) || (c0 =? 50)); [|discriminate].
  destruct (c1 =? 32); [|discriminate].
  destruct (forallb printableb (firstn 68 m)); [|discriminate].
  replace (70 <=? length m)%nat with true in H0 by (symmetry; apply Nat.leb_le; lia).
  destruct (32 <? col m 69); [discriminate|].
  destruct ((d0 =? 49) || (d0 =? 50)); [|discriminate].
  destruct (d1 =? 32); [|discriminate].
  destruct (forallb printableb (firstn 68 (retype m i c))); [|discriminate].
  replace (70 <=? length (retype m i c))%nat with true in H1 by (symmetry; apply Nat.leb_le; lia).
  destruct (32 <? col (retype m i c) 69); [discriminate|].
  apply Ok_inj in H0. apply Ok_inj in H1.
  unfold col in *. rewrite nth_retype in H1 by lia.
  destruct (Nat.eqb_spec 68 i) as [<-|Hn].
  - assert (E: firstn 68 (retype m 68 c) = firstn 68 m).
    { unfold retype. rewrite firstn_app, firstn_firstn, firstn_length.
      replace (68 - Nat.min 68 (length m))%nat with 0%nat by lia. rewrite ?firstn_O.
      rewrite app_nil_r. reflexivity. }
    rewrite E in H1. unfold digit in *. lia.
  - rewrite firstn_retype, total_retype in H1 by (try rewrite firstn_length; lia).
    replace (nth i (firstn 68 m) 0) with (nth i m 0) in H1.
    2:{ rewrite <- (firstn_skipn 68 m) at 1. rewrite app_nth1; [reflexivity|rewrite firstn_length; lia]. }
    rewrite (weight_digit c Hc), (weight_digit _ Hd) in H1. unfold digit in *. lia.
Qed.
