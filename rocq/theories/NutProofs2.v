(** In the real numbers calcnutation is the series of the 1980 theory. *)
From Coq Require Import ZArith List Bool Reals Lra Lia Permutation.
From Verif Require Import CLib ArithModel GeoLemmas NutModel NutSpec NutProofs1.
Import ListNotations.
Open Scope R_scope.

Definition arg_of (t : R) (i : nat) : R := match nth i (arguments ideal t) None with Some x => x | None => 0 end.
Definition code_args (t : R) : R * R * R * R * R := (arg_of t 0, arg_of t 1, arg_of t 2, arg_of t 3, arg_of t 4).
Lemma phase_add k1 k2 a : phase (vadd k1 k2) a = phase k1 a + phase k2 a.
Proof. destruct k1 as [[[[? ?] ?] ?] ?], k2 as [[[[? ?] ?] ?] ?], a as [[[[? ?] ?] ?] ?]. cbn [phase vadd]. rewrite !plus_IZR. ring. Qed.
Lemma phase_sub k1 k2 a : phase (vsub k1 k2) a = phase k1 a - phase k2 a.
Proof. destruct k1 as [[[[? ?] ?] ?] ?], k2 as [[[[? ?] ?] ?] ?], a as [[[[? ?] ?] ?] ?]. cbn [phase vsub]. rewrite !minus_IZR. ring. Qed.
Definition holds_angle (a : R * R * R * R * R) (k : multiples) (c s : R) : Prop := c = cos (phase k a) /\ s = sin (phase k a).

Lemma angle_tables (a : R * R * R * R * R) ks ps : Forall2 (fun k p => holds_angle a k (fst p) (snd p)) ks ps -> ps = map (fun k => (cos (phase k a), sin (phase k a))) ks.
Proof. induction 1 as [|k [c s] ks ps [H1 H2] F IH]; cbn [map]; [reflexivity|]. cbn [fst snd] in *. subst. reflexivity. Qed.
Lemma fill_angles t : fill ideal t = Ok (106%Z, map (fun k => Some (cos (phase k (code_args t)))) Ks, map (fun k => Some (sin (phase k (code_args t)))) Ks).
Proof.
  destruct (fill_ok ideal (holds_angle (code_args t)) t) as (ps & F & E).
  - intros k m K. assert (C : (k = 0 \/ k = 1 \/ k = 2 \/ k = 3 \/ k = 4)%Z) by lia. unfold holds_angle, code_args.
    destruct C as [C|[C|[C|[C|C]]]]; subst k; eexists; (split; [reflexivity|]);
      cbv [unit phase Z.eqb Pos.eqb]; rewrite ?Rmult_0_l, ?Rplus_0_l, ?Rplus_0_r;
      match goal with |- _ = _ (_ * ?x) /\ _ => cbn [c_cos c_sin mul c_real ideal]; change (num ideal) with R; split; f_equal; apply Rmult_comm end.
  - intros k1 k2 c1 s1 c2 s2 [-> ->] [-> ->]. split; cbn [add sub mul ideal]; rewrite phase_add; [rewrite cos_plus | rewrite sin_plus]; ring.
  - intros k1 k2 c1 s1 c2 s2 [-> ->] [-> ->]. split; cbn [add sub mul ideal]; rewrite phase_sub; [rewrite cos_minus | rewrite sin_minus]; ring.
  - apply angle_tables in F. subst ps. rewrite E, !map_map. reflexivity.
Qed.

(** ** Sums do not depend on the order *)
Lemma phase_neg k a : phase (opposite k) a = - phase k a.
Proof. destruct k as [[[[? ?] ?] ?] ?], a as [[[[? ?] ?] ?] ?]. cbn [phase opposite]. rewrite !opp_IZR. ring. Qed.
Definition veq (k1 k2 : multiples) : bool :=
  let '(a1, a2, a3, a4, a5) := k1 in let '(b1, b2, b3, b4, b5) := k2 in ((a1 =? b1) && (a2 =? b2) && (a3 =? b3) && (a4 =? b4) && (a5 =? b5))%Z.
Lemma veq_eq k1 k2 : veq k1 k2 = true -> k1 = k2.
Proof.
  destruct k1 as [[[[? ?] ?] ?] ?], k2 as [[[[? ?] ?] ?] ?]. cbn [veq]. intros H. repeat (apply andb_prop in H; destruct H as [H ?]).
  repeat match goal with H : (_ =? _)%Z = true |- _ => apply Z.eqb_eq in H; subst end. reflexivity.
Qed.
(** Takes a term out of a list: the same multiples and coefficient, or the opposite multiples and [sg] times the coefficient. *)
Fixpoint take_out (sg : Z) (k : multiples) (c : Z) (l : list (multiples * Z)) : option (list (multiples * Z)) :=
  match l with
  | [] => None
  | (k', c') :: l => if (veq k k' && (c =? c')%Z) || (veq (opposite k) k' && (sg * c =? c')%Z) then Some l
                     else match take_out sg k c l with Some l => Some ((k', c') :: l) | None => None end
  end.
Fixpoint same_terms (sg : Z) (l m : list (multiples * Z)) : bool :=
  match l with
  | [] => match m with [] => true | _ => false end
  | (k, c) :: l => match take_out sg k c m with Some m => same_terms sg l m | None => false end
  end.
Section Same.
Context (sg : Z) (f : R -> R) (Hf : forall x, f (- x) = IZR sg * f x) (Hsg : (sg * sg = 1)%Z) (a : R * R * R * R * R).
Definition value (l : list (multiples * Z)) : R := total_of (fun p => IZR (snd p) * f (phase (fst p) a)) l.
Lemma take_value k c l m : take_out sg k c l = Some m -> value l = IZR c * f (phase k a) + value m.
Proof.
  revert m. induction l as [|[k' c'] l IH]; intros m H; cbn [take_out] in H; [discriminate|].
  destruct (veq k k' && (c =? c')%Z) eqn:E1.
  - cbn [orb] in H. injection H as <-. apply andb_prop in E1. destruct E1 as [E1 E2]. apply veq_eq in E1. apply Z.eqb_eq in E2. subst. reflexivity.
  - cbn [orb] in H. destruct (veq (opposite k) k' && (sg * c =? c')%Z) eqn:E2.
    + injection H as <-. apply andb_prop in E2. destruct E2 as [E2 E3]. apply veq_eq in E2. apply Z.eqb_eq in E3. subst k' c'. cbn [value total_of fold_right fst snd].
      rewrite phase_neg, Hf, mult_IZR. replace (IZR sg * IZR c * (IZR sg * f (phase k a))) with (IZR (sg * sg) * (IZR c * f (phase k a))) by (rewrite mult_IZR; ring). rewrite Hsg.
      unfold value, total_of. ring.
    + destruct (take_out sg k c l) as [l'|] eqn:E; [|discriminate]. injection H as <-. unfold value, total_of in *. cbn [fold_right]. rewrite (IH l' eq_refl). ring.
Qed.
Lemma same_value l : forall m, same_terms sg l m = true -> value l = value m.
Proof.
  induction l as [|[k c] l IH]; intros m H; cbn [same_terms] in H.
  - destruct m; [reflexivity | discriminate].
  - destruct (take_out sg k c m) as [m'|] eqn:E; [|discriminate]. rewrite (take_value _ _ _ _ E), <- (IH _ H). reflexivity.
Qed.
End Same.

(** ** The four sums *)
Definition part (g : Z * Z * Z * Z -> Z) : list (multiples * Z) := filter (fun p => negb (snd p =? 0)%Z) (map (fun r => (fst r, g (snd r))) iau1980).
Definition code_terms (cs ix : list Z) : list (multiples * Z) := combine (map (fun j => nth (Z.to_nat j) Ks (0, 0, 0, 0, 0)%Z) ix) cs.
Definition g1 (r : Z * Z * Z * Z) : Z := let '(p, _, _, _) := r in p.
Definition g2 (r : Z * Z * Z * Z) : Z := let '(_, p, _, _) := r in p.
Definition g3 (r : Z * Z * Z * Z) : Z := let '(_, _, p, _) := r in p.
Definition g4 (r : Z * Z * Z * Z) : Z := let '(_, _, _, p) := r in p.
Lemma same1 : same_terms (-1) (code_terms clng llng) (part g1) = true. Proof. vm_compute. reflexivity. Qed.
Lemma same2 : same_terms (-1) (code_terms clngx10 llngx) (part g2) = true. Proof. vm_compute. reflexivity. Qed.
Lemma same3 : same_terms 1 (code_terms cobl lobl) (part g3) = true. Proof. vm_compute. reflexivity. Qed.
Lemma same4 : same_terms 1 (code_terms coblx10 loblx) (part g4) = true. Proof. vm_compute. reflexivity. Qed.

Lemma angle_total f t coef d cs ix : (forall k, coef k = IZR k / d) -> d <> 0 -> length cs = length ix -> listed ix = true ->
  total ideal (length ix) coef cs ix (@map multiples (option R) (fun k => @Some R (f (phase k (code_args t)))) Ks) = Ok (value f (code_args t) (code_terms cs ix) / d).
Proof.
  intros C Hd L H.
  assert (G : Forall2 (fun j x => arr_get (map (fun k => Some (f (phase k (code_args t)))) Ks) j = Ok x) ix
                      (map (fun j => f (phase (nth (Z.to_nat j) Ks (0, 0, 0, 0, 0)%Z) (code_args t))) ix)).
  { clear L cs. induction ix as [|j ix IH]; cbn [map]; [constructor|]. cbn [listed forallb] in H. apply andb_prop in H. destruct H as [H1 H2]. constructor; [|apply IH; exact H2].
    apply andb_prop in H1. destruct H1 as [H0 H1]. unfold arr_get. rewrite H0. apply Z.ltb_lt in H1. apply Z.leb_le in H0.
    rewrite nth_error_map, (nth_error_nth' Ks (0, 0, 0, 0, 0)%Z) by (change (length Ks) with 106%nat; lia). reflexivity. }
  rewrite (total_ok ideal coef _ cs ix _ L G). f_equal. unfold code_terms. cbn [add mul ideal]. unfold int. cbn [cst ideal].
  assert (Q : forall l acc, fold_left (fun (s : R) (p : Z * R) => s + coef (fst p) * snd p) (combine cs (map (fun j => f (phase (nth (Z.to_nat j) Ks (0, 0, 0, 0, 0)%Z) (code_args t))) l)) acc
             = acc + value f (code_args t) (combine (map (fun j => nth (Z.to_nat j) Ks (0, 0, 0, 0, 0)%Z) l) cs) / d).
  { clear G L. induction cs as [|k cs IH]; intros l acc.
    - destruct l; cbn; lra.
    - destruct l as [|j l]; cbn [map combine fold_left]; [cbn; lra|]. rewrite IH. cbn [fst snd]. unfold value, total_of. cbn [fold_right fst snd]. rewrite C. field. exact Hd. }
  change (num ideal) with R. rewrite Q. lra.
Qed.
Lemma part_value f a g : value f a (part g) = total_of (fun r => IZR (g (snd r)) * f (phase (fst r) a)) iau1980.
Proof.
  unfold part. induction iau1980 as [|[k r] l IH]; [reflexivity|]. cbn [map filter fst snd]. unfold value, total_of in *. cbn [fold_right fst snd]. rewrite <- IH.
  destruct (g r =? 0)%Z eqn:E; cbn [negb]; [apply Z.eqb_eq in E; rewrite E; lra|]. cbn [fold_right fst snd]. reflexivity.
Qed.
Lemma total_add {T} (f g : T -> R) c l : total_of f l + c * total_of g l = total_of (fun x => f x + c * g x) l.
Proof. induction l as [|x l IH]; cbn [total_of fold_right]; [lra|]. unfold total_of in *. rewrite <- IH. ring. Qed.
Lemma total_same {T} (f g : T -> R) l : (forall x, f x = g x) -> total_of f l = total_of g l.
Proof. intros H. induction l as [|x l IH]; cbn [total_of fold_right]; [reflexivity|]. unfold total_of in *. rewrite IH, H. reflexivity. Qed.

Lemma series t : calcnutation ideal t = Ok (nutation_lon (code_args t) t, nutation_obl (code_args t) t).
Proof.
  unfold calcnutation. rewrite fill_angles. cbn [bind].
  assert (C1 : forall k, int ideal k = IZR k / 1) by reflexivity. assert (C2 : forall k, cst ideal k 10 = IZR k / 10) by reflexivity.
  change 106%nat with (length llng). change 64%nat with (length lobl). change 14%nat with (length llngx). change 8%nat with (length loblx).
  rewrite (angle_total sin t (fun k => int ideal k) 1 clng llng C1) by (lra || (vm_compute; reflexivity)). cbn [bind].
  rewrite (angle_total sin t (fun k => cst ideal k 10) 10 clngx10 llngx C2) by (lra || (vm_compute; reflexivity)). cbn [bind].
  rewrite (angle_total cos t (fun k => int ideal k) 1 cobl lobl C1) by (lra || (vm_compute; reflexivity)). cbn [bind].
  rewrite (angle_total cos t (fun k => cst ideal k 10) 10 coblx10 loblx C2) by (lra || (vm_compute; reflexivity)). cbn [bind].
  assert (S1 : forall x, sin (- x) = IZR (-1) * sin x) by (intros x; rewrite sin_neg; lra). assert (S2 : forall x, cos (- x) = IZR 1 * cos x) by (intros x; rewrite cos_neg; lra).
  rewrite (same_value (-1) sin S1 eq_refl _ _ _ same1), (same_value (-1) sin S1 eq_refl _ _ _ same2), (same_value 1 cos S2 eq_refl _ _ _ same3), (same_value 1 cos S2 eq_refl _ _ _ same4).
  rewrite !part_value. unfold int. cbn [add mul div cst ideal]. change (num ideal) with R. unfold nutation_lon, nutation_obl. f_equal. f_equal.
  - replace (10000 / 1) with 10000 by lra. f_equal. unfold Rdiv at 1. rewrite Rinv_1, Rmult_1_r. match goal with |- _ + t * (?x / 10) = _ => replace (t * (x / 10)) with (t / 10 * x) by lra end. rewrite total_add. apply total_same.
    intros [k [[[p p'] e] e']]. cbn [fst snd g1 g2]. lra.
  - replace (10000 / 1) with 10000 by lra. f_equal. unfold Rdiv at 1. rewrite Rinv_1, Rmult_1_r. match goal with |- _ + t * (?x / 10) = _ => replace (t * (x / 10)) with (t / 10 * x) by lra end. rewrite total_add. apply total_same.
    intros [k [[[p p'] e] e']]. cbn [fst snd g3 g4]. lra.
Qed.
(** ** Which combinations the tables hold *)
Definition meq (a b : multiples) : bool :=
  let '(a1, a2, a3, a4, a5) := a in let '(b1, b2, b3, b4, b5) := b in ((a1 =? b1) && (a2 =? b2) && (a3 =? b3) && (a4 =? b4) && (a5 =? b5))%bool%Z.
Lemma meq_t a b : meq a b = true <-> a = b.
Proof.
  destruct a as [[[[a1 a2] a3] a4] a5], b as [[[[b1 b2] b3] b4] b5]. cbn [meq]. rewrite !andb_true_iff, !Z.eqb_eq. split.
  - intros ((((-> & ->) & ->) & ->) & ->). reflexivity.
  - intros E. inversion E. auto.
Qed.
Lemma Ks_nodup : NoDup Ks.
Proof.
  assert (H : forall l, (fix nd (l : list multiples) : bool := match l with [] => true | x :: l => negb (existsb (meq x) l) && nd l end) l = true -> NoDup l).
  { induction l as [|x l IH]; intros H; constructor; apply andb_prop in H; destruct H as [H1 H2].
    - intros I. apply negb_true_iff in H1. assert (K : existsb (meq x) l = true) by (apply existsb_exists; exists x; split; [exact I | apply meq_t; reflexivity]). congruence.
    - apply IH. exact H2. }
  apply H. vm_compute. reflexivity.
Qed.
Lemma Ks_all r : In r iau1980 -> In (fst r) Ks \/ In (opposite (fst r)) Ks.
Proof.
  intros I. assert (H : forallb (fun r => existsb (meq (fst r)) Ks || existsb (meq (opposite (fst r))) Ks)%bool iau1980 = true) by (vm_compute; reflexivity).
  rewrite forallb_forall in H. specialize (H r I). apply orb_prop in H. destruct H as [H|H]; apply existsb_exists in H; destruct H as (k & K & E); apply meq_t in E; subst k; auto.
Qed.
