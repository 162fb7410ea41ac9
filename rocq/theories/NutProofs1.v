(** calcnutation reads only what it has written, whatever the arithmetic; the arrays hold the cosines and sines of known combinations. *)
From Coq Require Import ZArith List Bool Lia.
From Verif Require Import CLib ArithModel NutModel NutSpec.
Import ListNotations.
Open Scope Z_scope.

Definition vadd (a b : multiples) : multiples :=
  let '(a1, a2, a3, a4, a5) := a in let '(b1, b2, b3, b4, b5) := b in (a1 + b1, a2 + b2, a3 + b3, a4 + b4, a5 + b5).
Definition vsub (a b : multiples) : multiples :=
  let '(a1, a2, a3, a4, a5) := a in let '(b1, b2, b3, b4, b5) := b in (a1 - b1, a2 - b2, a3 - b3, a4 - b4, a5 - b5).
Definition unit (k m : Z) : multiples :=
  (if k =? 0 then m else 0, if k =? 1 then m else 0, if k =? 2 then m else 0, if k =? 3 then m else 0, if k =? 4 then m else 0).
Definition at_ {T : Type} (l : list T) (i : Z) : option T := if 0 <=? i then nth_error l (Z.to_nat i) else None.

Lemma same_length {T U} (Q : T -> U -> Prop) l m : Forall2 Q l m -> length l = length m.
Proof. induction 1; cbn; lia. Qed.
Lemma weaker {T U} (Q Q' : T -> U -> Prop) l m : (forall x y, Q x y -> Q' x y) -> Forall2 Q l m -> Forall2 Q' l m.
Proof. intros H. induction 1; constructor; auto. Qed.

(** The same loops on the multiples. *)
Definition more (ks : list multiples) (k : multiples) : option (list multiples) := if (length ks <? 106)%nat then Some (ks ++ [k]) else None.
Definition sh1 (ii : Z) (ks : list multiples) : option (list multiples) :=
  match at_ nav1 ii, at_ nav1 (1 + ii) with
  | Some k, Some m => if (0 <=? k) && (k <? 5) then more ks (unit k (m + 1)) else None
  | _, _ => None
  end.
Definition sh2 (ii : Z) (ks : list multiples) : option (list multiples) :=
  match at_ nav2 ii, at_ nav2 (1 + ii) with
  | Some i1, Some i2 => match at_ ks i1, at_ ks i2 with Some k1, Some k2 => more ks (vadd k1 k2) | _, _ => None end
  | _, _ => None
  end.
Definition sh3 (ii : Z) (ks : list multiples) : option (list multiples) :=
  match at_ nav ii, at_ nav (1 + ii), at_ nav (2 + ii) with
  | Some iop, Some i1, Some i2 =>
    match at_ ks i1, at_ ks i2 with
    | Some k1, Some k2 =>
      if iop =? 0 then more ks (vadd k1 k2) else if iop =? 1 then more ks (vsub k1 k2)
      else if iop =? 2 then match more ks (vadd k1 k2) with Some ks => more ks (vsub k1 k2) | None => None end else None
    | _, _ => None
    end
  | _, _, _ => None
  end.
Fixpoint sh_for (n : nat) (i lim step : Z) (body : Z -> list multiples -> option (list multiples)) (ks : list multiples) : option (list multiples) :=
  if i <? lim then
    match n with
    | O => None
    | S n => match body i ks with Some ks => sh_for n (i + step) lim step body ks | None => None end
    end
  else Some ks.

Section Run.
Context (A : arith) (P : multiples -> num A -> num A -> Prop) (a : list (option (num A))).
Context (Harg : forall k m, 0 <= k < 5 -> exists x, arr_get a k = Ok x /\ let y := mul A x (c_real A m) in P (unit k m) (c_cos A y) (c_sin A y)).
Context (Hadd : forall k1 k2 c1 s1 c2 s2, P k1 c1 s1 -> P k2 c2 s2 ->
  P (vadd k1 k2) (sub A (mul A c1 c2) (mul A s1 s2)) (add A (mul A s1 c2) (mul A c1 s2))).
Context (Hsub : forall k1 k2 c1 s1 c2 s2, P k1 c1 s1 -> P k2 c2 s2 ->
  P (vsub k1 k2) (add A (mul A c1 c2) (mul A s1 s2)) (sub A (mul A s1 c2) (mul A c1 s2))).
Definition holds (ks : list multiples) (st : tables A) : Prop :=
  exists ps, Forall2 (fun k p => P k (fst p) (snd p)) ks ps /\ (length ks <= 106)%nat /\
  st = (Z.of_nat (length ks), map (fun p => Some (fst p)) ps ++ repeat None (106 - length ks)%nat, map (fun p => Some (snd p)) ps ++ repeat None (106 - length ks)%nat).

Lemma set_next {T} (l : list (option T)) n v i : i = Z.of_nat (length l) -> (0 < n)%nat ->
  arr_set (l ++ repeat None n) i v = Ok ((l ++ [Some v]) ++ repeat None (n - 1)%nat).
Proof.
  intros -> N. unfold arr_set. rewrite app_length, repeat_length. replace (0 <=? _) with true by (symmetry; apply Z.leb_le; lia). replace (_ <? _) with true by (symmetry; apply Z.ltb_lt; lia).
  cbn [andb]. f_equal. rewrite Nat2Z.id. rewrite firstn_app, firstn_all, Nat.sub_diag, firstn_O, app_nil_r. rewrite skipn_app, skipn_all2 by lia.
  replace (S (length l) - length l)%nat with 1%nat by lia. destruct n; [lia|]. cbn [repeat skipn app]. replace (S n - 1)%nat with n by lia. rewrite <- app_assoc. reflexivity.
Qed.
Lemma put_ok ks st k ks' cv sv : holds ks st -> more ks k = Some ks' -> P k cv sv -> exists st', put A st cv sv = Ok st' /\ holds ks' st'.
Proof.
  intros (ps & F & L & ->) M PK. unfold more in M. destruct (length ks <? 106)%nat eqn:E; [|discriminate]. injection M as <-. apply Nat.ltb_lt in E.
  assert (LP := same_length _ _ _ F). unfold put.
  assert (L1 : Z.of_nat (length ks) = Z.of_nat (length (map (fun p : num A * num A => Some (fst p)) ps))) by (rewrite map_length, LP; reflexivity).
  assert (L2 : Z.of_nat (length ks) = Z.of_nat (length (map (fun p : num A * num A => Some (snd p)) ps))) by (rewrite map_length, LP; reflexivity).
  rewrite (set_next _ _ _ _ L1) by lia. cbn [bind]. rewrite (set_next _ _ _ _ L2) by lia. cbn [bind].
  eexists. split; [reflexivity|]. exists (ps ++ [(cv, sv)]). split; [apply Forall2_app; [exact F | constructor; [exact PK | constructor]]|].
  rewrite app_length. cbn [length]. split; [lia|]. rewrite !map_app. cbn [map fst snd].
  replace (106 - (length ks + 1))%nat with (106 - length ks - 1)%nat by lia. replace (Z.of_nat (length ks + 1)) with (Z.of_nat (length ks) + 1) by lia. reflexivity.
Qed.
Lemma get_ok ks st j k : holds ks st -> at_ ks j = Some k ->
  exists c s, P k c s /\ arr_get (snd (fst st)) j = Ok c /\ arr_get (snd st) j = Ok s.
Proof.
  intros (ps & F & L & ->) H. unfold at_ in H. unfold arr_get. cbn [fst snd]. destruct (0 <=? j); [|discriminate].
  revert H. generalize (Z.to_nat j) as n. generalize (106 - length ks)%nat as r. clear L. intros r.
  induction F as [|k' p ks' ps' H F IH]; intros n E; [destruct n; discriminate|]. destruct n as [|n]; cbn in E |- *.
  - injection E as <-. eauto.
  - apply IH. exact E.
Qed.
Lemma tab_ok t i v : at_ t i = Some v -> tab t i = Ok v.
Proof. unfold at_, tab. destruct (0 <=? i); [|discriminate]. destruct (nth_error _ _); [congruence | discriminate]. Qed.
Lemma products_ok ks st i1 i2 k1 k2 : holds ks st -> at_ ks i1 = Some k1 -> at_ ks i2 = Some k2 ->
  exists c1 s1 c2 s2, P k1 c1 s1 /\ P k2 c2 s2 /\ products A st i1 i2 = Ok (mul A c1 c2, mul A s1 s2, mul A s1 c2, mul A c1 s2).
Proof.
  intros H H1 H2. destruct (get_ok _ _ _ _ H H1) as (c1 & s1 & P1 & A1 & A2). destruct (get_ok _ _ _ _ H H2) as (c2 & s2 & P2 & A3 & A4).
  exists c1, s1, c2, s2. split; [exact P1|]. split; [exact P2|]. unfold products. destruct st as [[i c] s]. cbn [fst snd] in *. rewrite A1, A3, A2, A4. reflexivity.
Qed.
Definition turn_ok (body : Z -> tables A -> res (tables A * bool)) (sh : Z -> list multiples -> option (list multiples)) : Prop :=
  forall ii ks st ks', holds ks st -> sh ii ks = Some ks' -> exists st', body ii st = Ok (st', false) /\ holds ks' st'.
Lemma turn1_ok : turn_ok (turn1 A a) sh1.
Proof.
  intros ii ks st ks' H S. unfold sh1 in S. destruct (at_ nav1 ii) as [k|] eqn:E1; [|discriminate]. destruct (at_ nav1 (1 + ii)) as [m|] eqn:E2; [|discriminate].
  destruct ((0 <=? k) && (k <? 5)) eqn:E; [|discriminate]. apply andb_prop in E. destruct E as [E3 E4]. apply Z.leb_le in E3. apply Z.ltb_lt in E4.
  destruct (Harg k (m + 1) ltac:(lia)) as (x & X & PX). cbv zeta in PX. unfold turn1. rewrite (tab_ok _ _ _ E1), (tab_ok _ _ _ E2). cbn [bind]. rewrite X. cbn [bind].
  destruct (put_ok _ _ _ _ _ _ H S PX) as (st' & E & H'). rewrite E. exists st'. split; [reflexivity | exact H'].
Qed.
Lemma turn2_ok : turn_ok (turn2 A) sh2.
Proof.
  intros ii ks st ks' H S. unfold sh2 in S. destruct (at_ nav2 ii) as [i1|] eqn:E1; [|discriminate]. destruct (at_ nav2 (1 + ii)) as [i2|] eqn:E2; [|discriminate].
  destruct (at_ ks i1) as [k1|] eqn:E3; [|discriminate]. destruct (at_ ks i2) as [k2|] eqn:E4; [|discriminate].
  destruct (products_ok _ _ _ _ _ _ H E3 E4) as (c1 & s1 & c2 & s2 & P1 & P2 & E). unfold turn2. rewrite (tab_ok _ _ _ E1), (tab_ok _ _ _ E2). cbn [bind]. rewrite E. cbn [bind].
  destruct (put_ok _ _ _ _ _ _ H S (Hadd _ _ _ _ _ _ P1 P2)) as (st' & E' & H'). rewrite E'. exists st'. split; [reflexivity | exact H'].
Qed.
Lemma turn3_ok : turn_ok (turn3 A) sh3.
Proof.
  intros ii ks st ks' H S. unfold sh3 in S. destruct (at_ nav ii) as [iop|] eqn:E1; [|discriminate]. destruct (at_ nav (1 + ii)) as [i1|] eqn:E2; [|discriminate].
  destruct (at_ nav (2 + ii)) as [i2|] eqn:E5; [|discriminate].
  destruct (at_ ks i1) as [k1|] eqn:E3; [|discriminate]. destruct (at_ ks i2) as [k2|] eqn:E4; [|discriminate].
  destruct (products_ok _ _ _ _ _ _ H E3 E4) as (c1 & s1 & c2 & s2 & P1 & P2 & E). unfold turn3. rewrite (tab_ok _ _ _ E1), (tab_ok _ _ _ E2), (tab_ok _ _ _ E5). cbn [bind].
  rewrite E. cbn [bind].
  destruct (iop =? 0) eqn:I0; [|destruct (iop =? 1) eqn:I1; [|destruct (iop =? 2) eqn:I2; [|discriminate]]].
  - destruct (put_ok _ _ _ _ _ _ H S (Hadd _ _ _ _ _ _ P1 P2)) as (st' & E' & H'). rewrite E'. apply Z.eqb_eq in I0. subst iop. exists st'. split; [reflexivity | exact H'].
  - destruct (put_ok _ _ _ _ _ _ H S (Hsub _ _ _ _ _ _ P1 P2)) as (st' & E' & H'). rewrite E'. apply Z.eqb_eq in I1. subst iop. exists st'. split; [reflexivity | exact H'].
  - destruct (more ks (vadd k1 k2)) as [ks1|] eqn:M; [|discriminate].
    destruct (put_ok _ _ _ _ _ _ H M (Hadd _ _ _ _ _ _ P1 P2)) as (st1 & F1 & H1). rewrite F1. cbn [bind].
    destruct (put_ok _ _ _ _ _ _ H1 S (Hsub _ _ _ _ _ _ P1 P2)) as (st' & E' & H'). rewrite E'. apply Z.eqb_eq in I2. subst iop. exists st'. split; [reflexivity | exact H'].
Qed.
Lemma for_ok body sh : turn_ok body sh -> forall n i lim step ks st ks', holds ks st -> sh_for n i lim step sh ks = Some ks' ->
  exists st', for_ n i lim step body st = Ok st' /\ holds ks' st'.
Proof.
  intros T. induction n as [|n IH]; intros i lim step ks st ks' H S; cbn [sh_for for_] in *; destruct (i <? lim); try discriminate; try (injection S as <-; eauto).
  destruct (sh i ks) as [k1|] eqn:E; [|discriminate]. destruct (T _ _ _ _ H E) as (st1 & E1 & H1). rewrite E1. cbn [bind]. eapply IH; eauto.
Qed.
End Run.

(** The combinations, computed by the loops on the multiples. *)
Definition Ks1 : list multiples := Eval vm_compute in match sh_for 5 0 10 2 sh1 [] with Some k => k | None => [] end.
Definition Ks2 : list multiples := Eval vm_compute in match sh_for 5 0 10 2 sh2 Ks1 with Some k => k | None => [] end.
Definition Ks : list multiples := Eval vm_compute in match sh_for 61 0 183 3 sh3 Ks2 with Some k => k | None => [] end.
Lemma Ks1_eq : sh_for 5 0 10 2 sh1 [] = Some Ks1. Proof. vm_compute. reflexivity. Qed.
Lemma Ks2_eq : sh_for 5 0 10 2 sh2 Ks1 = Some Ks2. Proof. vm_compute. reflexivity. Qed.
Lemma Ks_eq : sh_for 61 0 183 3 sh3 Ks2 = Some Ks. Proof. vm_compute. reflexivity. Qed.

Section Fill.
Context (A : arith) (P : multiples -> num A -> num A -> Prop) (t : num A).
Context (Harg : forall k m, 0 <= k < 5 -> exists x, arr_get (arguments A t) k = Ok x /\ let y := mul A x (c_real A m) in P (unit k m) (c_cos A y) (c_sin A y)).
Context (Hadd : forall k1 k2 c1 s1 c2 s2, P k1 c1 s1 -> P k2 c2 s2 ->
  P (vadd k1 k2) (sub A (mul A c1 c2) (mul A s1 s2)) (add A (mul A s1 c2) (mul A c1 s2))).
Context (Hsub : forall k1 k2 c1 s1 c2 s2, P k1 c1 s1 -> P k2 c2 s2 ->
  P (vsub k1 k2) (add A (mul A c1 c2) (mul A s1 s2)) (sub A (mul A s1 c2) (mul A c1 s2))).
Lemma fill_ok : exists ps, Forall2 (fun k p => P k (fst p) (snd p)) Ks ps /\ fill A t = Ok (106, map (fun p => Some (fst p)) ps, map (fun p => Some (snd p)) ps).
Proof.
  unfold fill.
  assert (H0 : holds A P [] (0, repeat None 106, repeat None 106)). { exists []. split; [constructor|]. split; [cbn; lia|]. reflexivity. }
  destruct (for_ok A P _ _ (turn1_ok A P _ Harg) _ _ _ _ _ _ _ H0 Ks1_eq) as (st1 & E1 & H1). rewrite E1. cbn [bind].
  destruct H1 as (p1 & F1 & L1 & ->). assert (H1 : holds A P Ks1 (5, map (fun p => Some (fst p)) p1 ++ repeat None (106 - length Ks1), map (fun p => Some (snd p)) p1 ++ repeat None (106 - length Ks1))).
  { exists p1. split; [exact F1|]. split; [exact L1|]. reflexivity. }
  destruct (for_ok A P _ _ (turn2_ok A P Hadd) _ _ _ _ _ _ _ H1 Ks2_eq) as (st2 & E2 & H2). rewrite E2. cbn [bind].
  destruct H2 as (p2 & F2 & L2 & ->). assert (H2 : holds A P Ks2 (10, map (fun p => Some (fst p)) p2 ++ repeat None (106 - length Ks2), map (fun p => Some (snd p)) p2 ++ repeat None (106 - length Ks2))).
  { exists p2. split; [exact F2|]. split; [exact L2|]. reflexivity. }
  destruct (for_ok A P _ _ (turn3_ok A P Hadd Hsub) _ _ _ _ _ _ _ H2 Ks_eq) as (st3 & E3 & H3). rewrite E3.
  destruct H3 as (p3 & F3 & L3 & ->). exists p3. split; [exact F3|]. change (106 - length Ks)%nat with 0%nat. cbn [repeat]. rewrite !app_nil_r. reflexivity.
Qed.
End Fill.

(** The sums. *)
Lemma tab_app l1 k l2 : tab (l1 ++ k :: l2) (Z.of_nat (length l1)) = Ok k.
Proof. unfold tab. replace (0 <=? _) with true by (symmetry; apply Z.leb_le; lia). rewrite Nat2Z.id, nth_error_app2, Nat.sub_diag by lia. reflexivity. Qed.
Lemma total_from A coef v : forall ix2 cs2 xs cs1 ix1 acc, length cs1 = length ix1 -> length cs2 = length ix2 -> Forall2 (fun j x => arr_get v j = Ok x) ix2 xs ->
  for_ (length ix2) (Z.of_nat (length ix1)) (Z.of_nat (length ix1 + length ix2)) 1
    (fun i s => k <- tab (cs1 ++ cs2) i ;; j <- tab (ix1 ++ ix2) i ;; x <- arr_get v j ;; Ok (add A s (mul A (coef k) x), false)) acc
  = Ok (fold_left (fun s p => add A s (mul A (coef (fst p)) (snd p))) (combine cs2 xs) acc).
Proof.
  induction ix2 as [|j ix2 IH]; intros cs2 xs cs1 ix1 acc L1 L2 F.
  - cbn [length for_]. replace (_ <? _) with false by (symmetry; apply Z.ltb_ge; lia). destruct cs2; [reflexivity | discriminate].
  - destruct cs2 as [|k cs2]; [discriminate|]. inversion F as [|? x ? xs' E F' Q1 Q2]; subst. cbn [length for_].
    replace (_ <? _) with true by (symmetry; apply Z.ltb_lt; lia). rewrite <- L1 at 1. rewrite tab_app. cbn [bind]. rewrite tab_app. cbn [bind]. rewrite E. cbn [bind combine fold_left fst snd].
    specialize (IH cs2 xs' (cs1 ++ [k]) (ix1 ++ [j]) (add A acc (mul A (coef k) x))).
    rewrite !app_length in IH. cbn [length] in IH. specialize (IH ltac:(lia) ltac:(cbn in L2; lia) F').
    rewrite <- !app_assoc in IH. cbn [app] in IH. replace (Z.of_nat (length ix1) + 1) with (Z.of_nat (length ix1 + 1)) by lia.
    replace (length ix1 + S (length ix2))%nat with (length ix1 + 1 + length ix2)%nat by lia. exact IH.
Qed.
Lemma total_ok A coef v cs ix xs : length cs = length ix -> Forall2 (fun j x => arr_get v j = Ok x) ix xs ->
  total A (length ix) coef cs ix v = Ok (fold_left (fun s p => add A s (mul A (coef (fst p)) (snd p))) (combine cs xs) (int A 0)).
Proof. intros L F. exact (total_from A coef v ix cs xs [] [] (int A 0) eq_refl L F). Qed.
Lemma reads {T} (vs : list T) ix : forallb (fun j => (0 <=? j) && (j <? Z.of_nat (length vs))) ix = true ->
  exists xs, Forall2 (fun j x => at_ vs j = Some x /\ arr_get (map Some vs) j = Ok x) ix xs.
Proof.
  induction ix as [|j ix IH]; cbn [forallb]; intros H; [exists []; constructor|]. apply andb_prop in H. destruct H as [H1 H2]. apply andb_prop in H1. destruct H1 as [H0 H1].
  destruct (IH H2) as (xs & F). apply Z.leb_le in H0. apply Z.ltb_lt in H1. destruct (nth_error vs (Z.to_nat j)) as [x|] eqn:E; [|apply nth_error_None in E; lia].
  exists (x :: xs). constructor; [|exact F]. unfold at_, arr_get. replace (0 <=? j) with true by (symmetry; apply Z.leb_le; lia). rewrite nth_error_map, E. split; reflexivity.
Qed.
Definition listed (ix : list Z) : bool := forallb (fun j => (0 <=? j) && (j <? 106)) ix.

(** No undefined behaviour, for any arithmetic and date. *)
Lemma defined A t : exists r, calcnutation A t = Ok r.
Proof.
  destruct (fill_ok A (fun _ _ _ => True) t) as (ps & F & E); auto.
  { intros k m K. assert (C : k = 0 \/ k = 1 \/ k = 2 \/ k = 3 \/ k = 4) by lia. destruct C as [C|[C|[C|[C|C]]]]; subst k; eexists; (split; [reflexivity | exact I]). }
  apply same_length in F. change (length Ks) with 106%nat in F.
  unfold calcnutation. rewrite E. cbn [bind].
  assert (R : forall (f : num A * num A -> num A) ix, listed ix = true -> exists xs, Forall2 (fun j x => arr_get (map (fun p => Some (f p)) ps) j = Ok x) ix xs).
  { intros f ix H. destruct (reads (map f ps) ix) as (xs & G); [rewrite map_length, <- F; exact H|]. exists xs. rewrite map_map in G. eapply weaker; [|exact G]. cbv beta. tauto. }
  destruct (R snd llng ltac:(vm_compute; reflexivity)) as (x1 & F1). destruct (R snd llngx ltac:(vm_compute; reflexivity)) as (x2 & F2).
  destruct (R fst lobl ltac:(vm_compute; reflexivity)) as (x3 & F3). destruct (R fst loblx ltac:(vm_compute; reflexivity)) as (x4 & F4).
  change 106%nat with (length llng). change 64%nat with (length lobl). change 14%nat with (length llngx). change 8%nat with (length loblx).
  rewrite (total_ok A _ _ clng llng x1 eq_refl F1). cbn [bind].
  rewrite (total_ok A _ _ clngx10 llngx x2 eq_refl F2). cbn [bind].
  rewrite (total_ok A _ _ cobl lobl x3 eq_refl F3). cbn [bind].
  rewrite (total_ok A _ _ coblx10 loblx x4 eq_refl F4). cbn [bind]. eauto.
Qed.
