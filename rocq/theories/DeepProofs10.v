(** The coefficients of the resonances. *)
From Coq Require Import ZArith List Reals Lra Lia Psatz Bool.
From Flocq Require Import Core.
From Verif Require Import CLib ArithModel GeoLemmas OrbModel OrbSpec OrbProofs5 DeepModel DeepSpec DeepProofs1 DeepProofs7.
Import ListNotations.
Open Scope R_scope.

Ltac kaula_open :=
  unfold kaula, total;
  match goal with |- context [IZR (factorial ?a)] => idtac end || idtac;
  cbn [Nat.min Nat.div2 Nat.sub Nat.mul Nat.add seq map fold_right];
  repeat match goal with
  | |- context [IZR (factorial ?a)] => let z := eval vm_compute in (factorial a) in change (factorial a) with z
  | |- context [binomial ?a ?b] => let z := eval vm_compute in (binomial a b) in change (binomial a b) with z
  | |- context [kaula_inner ?a ?b ?c ?d ?e] => let z := eval vm_compute in (kaula_inner a b c d e) in change (kaula_inner a b c d e) with z
  | |- context [IZR (?x * 2 ^ ?y)%Z] => let z := eval vm_compute in (x * 2 ^ y)%Z in change (x * 2 ^ y)%Z with z
  end.
Section K.
Context (i : R).
Let c := cos i.
Let s := sin i.
Lemma s2 : s * s = 1 - c * c. Proof. assert (K := sc2 i). unfold s, c. lra. Qed.
Lemma K220 : kaula 2 2 0 i = 3 / 4 * (1 + 2 * c + c * c).
Proof. kaula_open. fold c s. field. Qed.
Lemma K221 : kaula 2 2 1 i = 3 / 2 * (s * s).
Proof. kaula_open. fold c s. rewrite s2. field. Qed.
Lemma K321 : kaula 3 2 1 i = 15 / 8 * s * (1 - 2 * c - 3 * (c * c)).
Proof. kaula_open. fold c s. field. Qed.
Lemma K322 : kaula 3 2 2 i = - (15 / 8) * s * (1 + 2 * c - 3 * (c * c)).
Proof. kaula_open. fold c s. field. Qed.
Lemma K441 : kaula 4 4 1 i = 35 * (s * s) * (3 / 4 * (1 + 2 * c + c * c)).
Proof. kaula_open. fold c s. rewrite s2. field. Qed.
Lemma K442 : kaula 4 4 2 i = 39.375 * (s * s) * (s * s).
Proof. kaula_open. fold c s. rewrite s2. lra. Qed.
Lemma K522 : kaula 5 2 2 i = 9.84375 * s * (s * s * (1 - 2 * c - 5 * (c * c)) + 1 / 3 * (-2 + 4 * c + 6 * (c * c))).
Proof. kaula_open. fold c s. replace (s ^ 3) with (s * (s * s)) by ring. rewrite s2. lra. Qed.
Lemma K523 : kaula 5 2 3 i = s * (4.921875 * (s * s) * (-2 - 4 * c + 10 * (c * c)) + 6.5625 * (1 + 2 * c - 3 * (c * c))).
Proof. kaula_open. fold c s. replace (s ^ 3) with (s * (s * s)) by ring. rewrite s2. lra. Qed.
Lemma K542 : kaula 5 4 2 i = 29.53125 * s * (2 - 8 * c + c * c * (-12 + 8 * c + 10 * (c * c))).
Proof. kaula_open. fold c s. lra. Qed.
Lemma K543 : kaula 5 4 3 i = 29.53125 * s * (-2 - 8 * c + c * c * (12 + 8 * c - 10 * (c * c))).
Proof. kaula_open. fold c s. lra. Qed.
Lemma K311 : kaula 3 1 1 i = 0.9375 * (s * s) * (1 + 3 * c) - 0.75 * (1 + c).
Proof. kaula_open. fold c s. replace (s ^ 2) with (s * s) by ring. rewrite s2. lra. Qed.
Lemma K330 : kaula 3 3 0 i = 2.5 * (3 / 4 * (1 + 2 * c + c * c)) * (1 + c).
Proof. kaula_open. fold c s. lra. Qed.
End K.

(** The two functions with rounded coefficients. *)
Lemma F522_close i : Rabs (F522 i - kaula 5 2 2 i) <= 3 / 10000000.
Proof.
  rewrite K522. unfold F522, Rsqr. set (c := cos i). set (s := sin i).
  replace (_ - _) with (s * ((-2 + 4 * c + 6 * (c * c)) * (9.84375 * (0.33333333 - 1 / 3)))) by lra.
  assert (C : -1 <= c <= 1) by apply COS_bound. assert (S : -1 <= s <= 1) by apply SIN_bound.
  rewrite Rabs_mult. assert (A1 : Rabs s <= 1) by (apply Rabs_le; lra).
  assert (B : Rabs ((-2 + 4 * c + 6 * (c * c)) * (9.84375 * (0.33333333 - 1 / 3))) <= 3 / 10000000).
  { rewrite Rabs_mult. assert (Rabs (-2 + 4 * c + 6 * (c * c)) <= 8) by (apply Rabs_le; nra).
    rewrite (Rabs_left (9.84375 * _)) by lra. assert (P := Rabs_pos (-2 + 4 * c + 6 * (c * c))). nra. }
  assert (P1 := Rabs_pos s). assert (P2 := Rabs_pos ((-2 + 4 * c + 6 * (c * c)) * (9.84375 * (0.33333333 - 1 / 3)))). nra.
Qed.
Lemma F523_close i : Rabs (F523 i - kaula 5 2 3 i) <= 2 / 1000000.
Proof.
  rewrite K523. unfold F523, Rsqr. set (c := cos i). set (s := sin i).
  replace (_ - _) with (s * (12 / 100000000 * (s * s * (-2 - 4 * c + 10 * (c * c)) + (1 + 2 * c - 3 * (c * c))))) by lra.
  assert (C : -1 <= c <= 1) by apply COS_bound. assert (S : -1 <= s <= 1) by apply SIN_bound.
  assert (Q : s * s = 1 - c * c) by apply s2.
  rewrite Rabs_mult. assert (A1 : Rabs s <= 1) by (apply Rabs_le; lra).
  assert (B : Rabs (12 / 100000000 * (s * s * (-2 - 4 * c + 10 * (c * c)) + (1 + 2 * c - 3 * (c * c)))) <= 2 / 1000000).
  { assert (B1 : -6 <= -2 - 4 * c + 10 * (c * c) <= 12) by (split; nra). assert (B2 : -4 <= 1 + 2 * c - 3 * (c * c) <= 4 / 3) by (assert (K := Rle_0_sqr (c - 1 / 3)); unfold Rsqr in K; split; nra).
    assert (Q1 : 0 <= s * s <= 1) by (split; nra). set (p := -2 - 4 * c + 10 * (c * c)) in *. set (q := 1 + 2 * c - 3 * (c * c)) in *. assert (M : -6 <= s * s * p <= 12) by (split; nra). apply Rabs_le. split; lra. }
  assert (P1 := Rabs_pos s). assert (P2 := Rabs_pos (12 / 100000000 * (s * s * (-2 - 4 * c + 10 * (c * c)) + (1 + 2 * c - 3 * (c * c))))). nra.
Qed.

Section Coefficients.
Context (t : dorb ideal) (g : deep ideal).
Let o := d_orb ideal t.
Let e : R := o_eo ideal o.
Let i : R := o_xincl ideal o.
Context (Hg : g_com ideal g = sxpx_common_init ideal o).
Let n : R := i_xnodp ideal (k_start ideal (sxpx_common_init ideal o)).
Let a : R := i_aodp ideal (k_start ideal (sxpx_common_init ideal o)).
Ltac ic := cbn [add sub mul div opp ltn len cst c_sin c_cos c_sqrt c_fabs c_pow ideal num]; change (num ideal) with R in *.
Lemma start_is : k_start ideal (sxpx_common_init ideal o) = sxpall_common_init ideal o.
Proof. unfold sxpx_common_init. cbv zeta. match goal with |- context [if ?b then _ else _] => destruct b end; reflexivity. Qed.
Lemma sinio_is : k_sinio ideal (sxpx_common_init ideal o) = sin i :> R.
Proof. unfold sxpx_common_init. cbv zeta. match goal with |- context [if ?b then _ else _] => destruct b end; reflexivity. Qed.
Lemma cosio_is : i_cosio ideal (k_start ideal (sxpx_common_init ideal o)) = cos i :> R.
Proof. rewrite start_is. reflexivity. Qed.
Lemma cosio2_is : i_cosio2 ideal (k_start ideal (sxpx_common_init ideal o)) = cos i * cos i :> R.
Proof. rewrite start_is. reflexivity. Qed.
Lemma eosq_is : i_eosq ideal (k_start ideal (sxpx_common_init ideal o)) = e * e :> R.
Proof. rewrite start_is. reflexivity. Qed.

Lemma one_day_coefs : r_coefs ideal (one_day ideal t g) =
  Synchronous ideal (harmonic n a Q31 3 1 1 (kaula 3 1 1 i) (E310' e)) (harmonic n a Q22 2 2 1 (kaula 2 2 0 i) (E200 e))
    (harmonic n a Q33 3 3 1 (kaula 3 3 0 i) (E300 e)).
Proof.
  unfold one_day. cbn [r_coefs]. cbv zeta. rewrite Hg, cosio_is, sinio_is, eosq_is. fold n a. unfold int. ic.
  rewrite K311, K220, K330. unfold harmonic, E310', E200, E300, Q31, Q22, Q33, Rdiv. rewrite <- !pow_inv.
  f_equal; cbn [INR]; rewrite ?Rinv_1; ring_simplify; lra.
Qed.

Lemma half_day_coefs : r_coefs ideal (half_day ideal t g) =
  Half ideal (harmonic n a root22 2 2 2 (kaula 2 2 0 i) (E201 e)) (harmonic n a root22 2 2 2 (kaula 2 2 1 i) (E211 e))
    (harmonic n a root32 3 2 2 (kaula 3 2 1 i) (E310 e)) (harmonic n a root32 3 2 2 (kaula 3 2 2 i) (E322 e))
    (harmonic n a root44 4 4 2 (kaula 4 4 1 i) (E410 e)) (harmonic n a root44 4 4 2 (kaula 4 4 2 i) (E422 e))
    (harmonic n a root52 5 2 2 (F522 i) (E520 e)) (harmonic n a root52 5 2 2 (F523 i) (E532 e))
    (harmonic n a root54 5 4 2 (kaula 5 4 2 i) (E521 e)) (harmonic n a root54 5 4 2 (kaula 5 4 3 i) (E533 e)).
Proof.
  unfold half_day, eval_cubic_poly. cbv zeta. rewrite Hg, cosio_is, cosio2_is, sinio_is, eosq_is. fold n a. unfold int. ic. fold o e.
  rewrite K220, K221, K321, K322, K441, K442, K542, K543.
  unfold E201, E211, E310, E322, E410, E422, E520, E533, E521, E532, upto, below, cubic, F522, F523, Rsqr.
  set (c := cos i). set (s := sin i). set (b := 1 / 1 / a).
  unfold harmonic, root22, root32, root44, root52, root54. 
  assert (B : forall l, / a ^ l = b ^ l). { intros l. unfold b. replace (1 / 1 / a) with (/ a) by lra. symmetry. apply pow_inv. }
  assert (M1 : INR 2 / INR 2 = 1) by (cbn [INR]; lra). assert (M2 : INR 4 / INR 2 = 2) by (cbn [INR]; lra). rewrite M1, M2.
  assert (B' : forall x l, x / a ^ l = x * b ^ l) by (intros x l; unfold Rdiv; rewrite B; reflexivity). rewrite !B'.
  destruct (Rle_dec e 0.65) as [L1|L1]; [rewrite (proj2 (Rleb_t e (65 / 100))) by lra | rewrite (proj2 (Rleb_f e (65 / 100))) by lra];
    (destruct (Rle_dec e 0.715) as [L2|L2]; [rewrite ?(proj2 (Rleb_t e (715 / 1000))) by lra | rewrite ?(proj2 (Rleb_f e (715 / 1000))) by lra]);
    (destruct (Rlt_dec e 0.7) as [L3|L3]; [rewrite (proj2 (Rltb_t e (7 / 10))) by lra | rewrite (proj2 (Rltb_f e (7 / 10))) by lra]);
    try (exfalso; lra); cbn [r_coefs]; f_equal; clear; ring_simplify; lra.
Qed.
End Coefficients.

(** Which resonance Deep_dpinit finds, with the coefficients and the starting value of the resonant angle. *)
Section Resonance.
Context (t : dorb ideal).
Let o := d_orb ideal t.
Let e : R := o_eo ideal o.
Let i : R := o_xincl ideal o.
Let n : R := n0'' i e (o_xno ideal o).
Let a : R := a0'' i e (o_xno ideal o).
Let g := Deep_dpinit ideal t (sxpx_common_init ideal o).
Let theta : R := ThetaG ideal (d_epoch ideal t).
Definition half_case : Prop := 0.00826 <= n <= 0.00924 /\ 0.5 <= e.
Definition day_case : Prop := 0.8 * (2 * PI / 1440) < n < 1.2 * (2 * PI / 1440).
Context (He : 0 <= e < 1) (Hn : 0 < o_xno ideal o).
Context (Ha : 0 < a).
Lemma n_is : i_xnodp ideal (k_start ideal (sxpx_common_init ideal o)) = n :> R.
Proof. unfold o. rewrite start_is. apply xnodp_eq; assumption. Qed.
Lemma a_is : i_aodp ideal (k_start ideal (sxpx_common_init ideal o)) = a :> R.
Proof. unfold o. rewrite start_is. apply aodp_eq; assumption. Qed.
Lemma com_is : g_com ideal (secular ideal t (sxpx_common_init ideal o)) = sxpx_common_init ideal o.
Proof. unfold secular. cbv zeta. match goal with |- context [let '(_, _) := ?p in _] => destruct p end. reflexivity. Qed.
Lemma thgr_is : g_thgr ideal (secular ideal t (sxpx_common_init ideal o)) = theta.
Proof. unfold secular. cbv zeta. match goal with |- context [let '(_, _) := ?p in _] => destruct p end. reflexivity. Qed.
Ltac ic := cbn [add sub mul div opp ltn len cst c_sin c_cos c_sqrt c_fabs c_pow ideal num]; change (num ideal) with R in *.
Lemma kinds : g_res ideal g =
  if Rle_dec 0.00826 n then if Rle_dec n 0.00924 then if Rle_dec 0.5 e then Some (half_day ideal t (secular ideal t (sxpx_common_init ideal o)))
  else if Rlt_dec n (1.2 * (2 * PI / 1440)) then if Rlt_dec (0.8 * (2 * PI / 1440)) n then Some (one_day ideal t (secular ideal t (sxpx_common_init ideal o))) else None else None
  else if Rlt_dec n (1.2 * (2 * PI / 1440)) then if Rlt_dec (0.8 * (2 * PI / 1440)) n then Some (one_day ideal t (secular ideal t (sxpx_common_init ideal o))) else None else None
  else if Rlt_dec n (1.2 * (2 * PI / 1440)) then if Rlt_dec (0.8 * (2 * PI / 1440)) n then Some (one_day ideal t (secular ideal t (sxpx_common_init ideal o))) else None else None.
Proof.
  unfold g, Deep_dpinit. cbn [g_res]. unfold resonant. cbv zeta. rewrite com_is, n_is. fold o. 
  set (H1 := half_day _ _ _). set (H2 := one_day _ _ _). unfold minutes_per_day, int. rewrite two_pi_ideal. ic. fold e.
  replace (12 / 10 * (2 * PI) / (1440 / 1)) with (1.2 * (2 * PI / 1440)) by lra.
  replace (8 / 10 * (2 * PI) / (1440 / 1)) with (0.8 * (2 * PI / 1440)) by lra.
  replace (826 / 100000) with 0.00826 by lra. replace (924 / 100000) with 0.00924 by lra. replace (5 / 10) with 0.5 by lra.
  unfold Rleb, Rltb. repeat destruct (Rle_dec _ _); repeat destruct (Rlt_dec _ _); reflexivity.
Qed.
Lemma resonance_half : half_case -> exists r, g_res ideal g = Some r /\
  r_coefs ideal r =
    Half ideal (harmonic n a root22 2 2 2 (kaula 2 2 0 i) (E201 e)) (harmonic n a root22 2 2 2 (kaula 2 2 1 i) (E211 e))
      (harmonic n a root32 3 2 2 (kaula 3 2 1 i) (E310 e)) (harmonic n a root32 3 2 2 (kaula 3 2 2 i) (E322 e))
      (harmonic n a root44 4 4 2 (kaula 4 4 1 i) (E410 e)) (harmonic n a root44 4 4 2 (kaula 4 4 2 i) (E422 e))
      (harmonic n a root52 5 2 2 (F522 i) (E520 e)) (harmonic n a root52 5 2 2 (F523 i) (E532 e))
      (harmonic n a root54 5 4 2 (kaula 5 4 2 i) (E521 e)) (harmonic n a root54 5 4 2 (kaula 5 4 3 i) (E533 e)) /\
  r_xlamo ideal r = o_xmo ideal o + 2 * o_xnodeo ideal o - 2 * theta :> R.
Proof.
  intros [[A1 A2] A3]. rewrite kinds. destruct (Rle_dec 0.00826 n); [|lra]. destruct (Rle_dec n 0.00924); [|lra]. destruct (Rle_dec 0.5 e); [|lra].
  eexists. split; [reflexivity|]. split.
  - rewrite half_day_coefs by apply com_is. fold o. rewrite n_is, a_is. reflexivity.
  - unfold half_day. cbv zeta. repeat match goal with |- context [match ?p with (_, _) => _ end] => destruct p end. cbn [r_xlamo]. rewrite thgr_is. fold o. ic. lra.
Qed.
Lemma resonance_day : day_case -> exists r, g_res ideal g = Some r /\
  r_coefs ideal r =
    Synchronous ideal (harmonic n a Q31 3 1 1 (kaula 3 1 1 i) (E310' e)) (harmonic n a Q22 2 2 1 (kaula 2 2 0 i) (E200 e))
      (harmonic n a Q33 3 3 1 (kaula 3 3 0 i) (E300 e)) /\
  r_xlamo ideal r = o_xmo ideal o + o_xnodeo ideal o + o_omegao ideal o - theta :> R.
Proof.
  intros [A1 A2]. rewrite kinds. assert (P := pi_bounds). destruct (Rle_dec 0.00826 n); [lra|].
  destruct (Rlt_dec n (1.2 * (2 * PI / 1440))); [|lra]. destruct (Rlt_dec (0.8 * (2 * PI / 1440)) n); [|lra].
  eexists. split; [reflexivity|]. split.
  - rewrite one_day_coefs by apply com_is. fold o. rewrite n_is, a_is. reflexivity.
  - unfold one_day. cbv zeta. cbn [r_xlamo]. rewrite thgr_is. fold o. ic. lra.
Qed.
Lemma resonance_none : ~ half_case -> ~ day_case -> g_res ideal g = None.
Proof.
  unfold half_case, day_case. intros A1 A2. rewrite kinds. destruct (Rle_dec 0.00826 n); destruct (Rle_dec n 0.00924); destruct (Rle_dec 0.5 e); try tauto;
    destruct (Rlt_dec n (1.2 * (2 * PI / 1440))); destruct (Rlt_dec (0.8 * (2 * PI / 1440)) n); try tauto; exfalso; tauto.
Qed.
End Resonance.
