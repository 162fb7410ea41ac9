(** Ring numbering: the bijection. *)
From Coq Require Import ZArith List Bool Lia.
From Verif Require Import CLib FloatModel HealpixModel HealpixSpec HealpixProofs3 HealpixProofs4.
Import ListNotations.
Open Scope Z_scope.
Ltac Zify.zify_post_hook ::= Z.div_mod_to_equations.

Lemma rows : forall f, 0 <= f < 12 -> at_ jrll f = Ok (f / 4 + 2) /\ at_ jpll f = Ok (2 * (f mod 4) + (if f / 4 =? 1 then 0 else 1)).
Proof.
  intros f Hf. faces f K. repeat (destruct K as [K|K]; [subst f; split; reflexivity|]). subst f; split; reflexivity.
Qed.

(** [f / 4] and [f mod 4] as separate variables. *)
Lemma face_parts : forall f, 0 <= f < 12 -> exists r c, (r = 0 \/ r = 1 \/ r = 2) /\ (c = 0 \/ c = 1 \/ c = 2 \/ c = 3) /\ f = 4 * r + c /\ f / 4 = r /\ f mod 4 = c.
Proof. intros f Hf. exists (f / 4), (f mod 4). lia. Qed.

Lemma end_eq : forall n i j ks nr f r x y, 0 <= f < 12 -> f / 4 = r ->
  (exists ipt, (2 * j - (2 * (f mod 4) + (if r =? 1 then 0 else 1)) * nr - ks - 1 = ipt /\ ipt < 2 * n \/
     2 * j - (2 * (f mod 4) + (if r =? 1 then 0 else 1)) * nr - ks - 1 = ipt + 8 * n /\ - 6 * n <= ipt) /\
     ipt - (i - (r + 2) * n + 1) = 2 * x /\ - (ipt + (i - (r + 2) * n + 1)) = 2 * y) ->
  ring_end n i j ks nr f = Ok (x, y, f).
Proof.
  intros n i j ks nr f r x y Hf Hr (ipt & [[E L]|[E L]] & X & Y); unfold ring_end; destruct (rows f Hf) as [-> ->]; cbn [bind]; rewrite Hr in *; rewrite E; rewrite !shr1.
  - rewrite (proj2 (Z.leb_gt (2 * n) ipt)) by lia. rewrite X, Y. rewrite !(Z.mul_comm 2), !Z.div_mul by lia. reflexivity.
  - rewrite (proj2 (Z.leb_le (2 * n) (ipt + 8 * n))) by lia. replace (ipt + 8 * n - 8 * n) with ipt by lia.
    rewrite X, Y. rewrite !(Z.mul_comm 2), !Z.div_mul by lia. reflexivity.
Qed.

Lemma special_div_eq : forall a b c, (c = 0 \/ c = 1 \/ c = 2 \/ c = 3) -> 1 <= b -> c * b <= a < (c + 1) * b -> special_div a b = c.
Proof.
  intros a b c Hc Hb Ha. unfold special_div.
  destruct Hc as [->|[->|[->| ->]]]; repeat match goal with |- context [?u <=? ?v] => destruct (Z.leb_spec u v) end; lia.
Qed.
Lemma special_div64_same : forall a b, special_div64 a b = special_div a b.
Proof. reflexivity. Qed.

Lemma div_eq : forall a b q, 1 <= b -> q * b <= a < (q + 1) * b -> a / b = q.
Proof. intros a b q Hb H. symmetry. apply Z.div_unique with (a - q * b); lia. Qed.

Definition ring_facts (n x y f : Z) : Prop :=
  let '(i, j) := enc n x y f in
  on_ring n i j /\ xyf2ring n x y f = Ok (start n i + j - 1) /\ dec n i j = Ok (x, y, f).

(** North and south caps. *)
Lemma enc_north : forall n x y f, 1 <= n -> on_grid n x y f -> (f / 4 + 2) * n - x - y - 1 < n -> ring_facts n x y f.
Proof.
  intros n x y f Hn (Hx & Hy & Hf) L. unfold ring_facts, enc. cbv zeta. destruct (face_parts f Hf) as (r & c & Hr & Hc & Ef & E4 & Em).
  rewrite E4, Em in *. destruct Hr as [->|[->| ->]]; try (exfalso; lia). cbn [Z.eqb].
  set (i := (0 + 2) * n - x - y - 1) in *. assert (Hi: 1 <= i < n) by lia.
  rewrite !(proj2 (Z.ltb_lt i n)) by lia.
  set (j := ((2 * c + 1) * i + x - y + 1 + 0) / 2).
  assert (J: 2 * j = (2 * c + 1) * i + x - y + 1).
  { unfold j. assert (((2 * c + 1) * i + x - y + 1) mod 2 = 0); [|lia]. 
    destruct Hc as [->|[->|[->| ->]]]; unfold i; lia. }
  assert (JB: c * i + 1 <= j <= (c + 1) * i) by (destruct Hc as [->|[->|[->| ->]]]; unfold i in *; lia).
  assert (J1: 1 <= j <= 4 * i) by (destruct Hc as [->|[->|[->| ->]]]; lia).
  rewrite (proj2 (Z.ltb_ge j 1)) by lia.
  split; [|split].
  - unfold on_ring, rlen. rewrite (proj2 (Z.ltb_lt i n)) by lia. lia.
  - unfold xyf2ring. destruct (rows f Hf) as [-> ->]. cbn [bind]. cbv zeta. rewrite E4, Em. cbn [Z.eqb]. fold i.
    unfold start. rewrite !(proj2 (Z.ltb_lt i n)) by lia. rewrite quot2_even; [|lia].
    fold j. rewrite (proj2 (Z.ltb_ge (4 * n) j)) by lia. rewrite (proj2 (Z.ltb_ge j 1)) by lia. reflexivity.
  - unfold dec. rewrite (proj2 (Z.ltb_lt i n)) by lia. rewrite (special_div_eq (j - 1) i c Hc) by lia. 
    replace f with c in * by lia. apply (end_eq _ _ _ _ _ _ 0); [lia|lia|].
    rewrite Em. change (if 0 =? 1 then 0 else 1) with 1. exists (x - y). split; [left; lia|]. unfold i; lia.
Qed.

Lemma enc_south : forall n x y f, 1 <= n -> on_grid n x y f -> 3 * n < (f / 4 + 2) * n - x - y - 1 -> ring_facts n x y f.
Proof.
  intros n x y f Hn (Hx & Hy & Hf) L. unfold ring_facts, enc. cbv zeta. destruct (face_parts f Hf) as (r & c & Hr & Hc & Ef & E4 & Em).
  rewrite E4, Em in *. destruct Hr as [->|[->| ->]]; try (exfalso; lia). cbn [Z.eqb Pos.eqb].
  set (i := (2 + 2) * n - x - y - 1) in *. assert (Hi: 3 * n < i < 4 * n) by lia.
  rewrite !(proj2 (Z.ltb_ge i n)) by lia. rewrite !(proj2 (Z.ltb_lt (3 * n) i)) by lia.
  set (k := 4 * n - i). assert (K: 1 <= k < n) by lia. assert (KE: k = x + y + 1) by (unfold k, i; lia).
  set (j := ((2 * c + 1) * k + x - y + 1 + 0) / 2).
  assert (J: 2 * j = (2 * c + 1) * k + x - y + 1).
  { unfold j. assert (((2 * c + 1) * k + x - y + 1) mod 2 = 0); [|lia]. 
    destruct Hc as [->|[->|[->| ->]]]; lia. }
  assert (JB: c * k + 1 <= j <= (c + 1) * k) by (destruct Hc as [->|[->|[->| ->]]]; lia).
  assert (J1: 1 <= j <= 4 * k) by (destruct Hc as [->|[->|[->| ->]]]; lia).
  rewrite (proj2 (Z.ltb_ge j 1)) by lia.
  split; [|split].
  - unfold on_ring, rlen. rewrite (proj2 (Z.ltb_ge i n)) by lia. rewrite (proj2 (Z.leb_gt i (3 * n))) by lia. lia.
  - unfold xyf2ring. destruct (rows f Hf) as [-> ->]. cbn [bind]. cbv zeta. rewrite E4, Em. cbn [Z.eqb Pos.eqb]. fold i.
    unfold start. rewrite !(proj2 (Z.ltb_ge i n)) by lia. rewrite (proj2 (Z.ltb_lt (3 * n) i)) by lia. rewrite (proj2 (Z.leb_gt i (3 * n))) by lia.
    fold k. rewrite quot2_even; [|lia].
    fold j. rewrite (proj2 (Z.ltb_ge (4 * n) j)) by lia. rewrite (proj2 (Z.ltb_ge j 1)) by lia. f_equal. 
  - unfold dec. rewrite (proj2 (Z.ltb_ge i n)) by lia. rewrite (proj2 (Z.leb_gt i (3 * n))) by lia. fold k. rewrite (special_div_eq (j - 1) k c Hc) by lia. 
    replace f with (8 + c) in * by lia. apply (end_eq _ _ _ _ _ _ 2); [lia|lia|].
    rewrite Em. change (if 2 =? 1 then 0 else 1) with 1. exists (x - y). split; [left; lia|]. unfold i; lia.
Qed.

Lemma enc_equator : forall n x y f, 1 <= n -> on_grid n x y f -> n <= (f / 4 + 2) * n - x - y - 1 <= 3 * n -> ring_facts n x y f.
Proof.
  intros n x y f Hn (Hx & Hy & Hf) L. unfold ring_facts, enc. cbv zeta. destruct (face_parts f Hf) as (r & c & Hr & Hc & Ef & E4 & Em).
  rewrite E4, Em in *.
  set (i := (r + 2) * n - x - y - 1) in *.
  rewrite !(proj2 (Z.ltb_ge i n)) by lia. rewrite !(proj2 (Z.ltb_ge (3 * n) i)) by lia.
  set (fp := 2 * c + (if r =? 1 then 0 else 1)).
  set (ks := (i - n) mod 2).
  assert (KS: 0 <= ks <= 1) by (unfold ks; lia).
  set (j := (fp * n + x - y + 1 + ks) / 2).
  assert (Ev: (fp * n + x - y + 1 + ks) mod 2 = 0).
  { unfold ks, i, fp. destruct Hr as [->|[->| ->]]; cbn [Z.eqb Pos.eqb]; destruct Hc as [->|[->|[->| ->]]]; lia. }
  assert (J: 2 * j = fp * n + x - y + 1 + ks) by (unfold j; lia).
  set (j' := if j <? 1 then j + 4 * n else j).
  assert (J': (j' = j /\ 1 <= j) \/ (j' = j + 4 * n /\ j < 1 /\ f = 4)).
  { unfold j'. destruct (Z.ltb_spec j 1); [right|left; lia]. split; [reflexivity|]. split; [assumption|].
    unfold fp in J. destruct Hr as [->|[->| ->]]; cbn [Z.eqb Pos.eqb] in J; destruct Hc as [->|[->|[->| ->]]]; lia. }
  assert (JB: j <= 4 * n) by (unfold fp in J; destruct Hr as [->|[->| ->]]; cbn [Z.eqb Pos.eqb] in J; destruct Hc as [->|[->|[->| ->]]]; lia).
  assert (JL: - 2 * n < 2 * j) by (unfold fp in J; destruct Hr as [->|[->| ->]]; cbn [Z.eqb Pos.eqb] in J; destruct Hc as [->|[->|[->| ->]]]; lia).
  split; [|split].
  - unfold on_ring, rlen. rewrite (proj2 (Z.ltb_ge i n)) by lia. rewrite (proj2 (Z.leb_le i (3 * n))) by lia. lia.
  - unfold xyf2ring. destruct (rows f Hf) as [-> ->]. cbn [bind]. cbv zeta. rewrite E4, Em. fold i fp.
    unfold start. rewrite !(proj2 (Z.ltb_ge i n)) by lia. rewrite (proj2 (Z.ltb_ge (3 * n) i)) by lia. rewrite (proj2 (Z.leb_le i (3 * n))) by lia.
    rewrite land1. fold ks. rewrite quot2_even by exact Ev.
    fold j. rewrite (proj2 (Z.ltb_ge (4 * n) j)) by lia. reflexivity.
  - unfold dec. rewrite (proj2 (Z.ltb_ge i n)) by lia. rewrite (proj2 (Z.leb_le i (3 * n))) by lia.
    assert (KS2: (i + n) mod 2 = ks) by (unfold ks; lia). rewrite KS2.
    set (am := j' - (i - n + 1) / 2 + n - 1). set (ap := j' - (2 * n + 1 - (i - n)) / 2 + n - 1).
    assert (F: face_of (ap / n) (am / n) = f).
    { assert (T: exists qp qm, qp * n <= ap < (qp + 1) * n /\ qm * n <= am < (qm + 1) * n /\ face_of qp qm = f).
      { destruct Hr as [->|[->| ->]]; unfold fp in J; cbn [Z.eqb Pos.eqb] in J.
        - exists c, (c + 1). assert (j' = j) by lia. unfold ap, am, i, ks in *. 
          destruct Hc as [->|[->|[->| ->]]]; (split; [lia|split; [lia|subst f; reflexivity]]).
        - destruct J' as [[-> J1]|[-> [J1 J2]]].
          + exists c, c. unfold ap, am, i, ks in *. destruct Hc as [->|[->|[->| ->]]]; (split; [lia|split; [lia|subst f; reflexivity]]).
          + exists 4, 4. assert (c = 0) by lia. subst c. unfold ap, am, i, ks in *. (split; [lia|split; [lia|subst f; reflexivity]]).
        - exists (c + 1), c. assert (j' = j) by lia. unfold ap, am, i, ks in *. 
          destruct Hc as [->|[->|[->| ->]]]; (split; [lia|split; [lia|subst f; reflexivity]]). }
      destruct T as (qp & qm & Tp & Tm & TF). rewrite (div_eq ap n qp), (div_eq am n qm) by lia. exact TF. }
    rewrite F. apply (end_eq _ _ _ _ _ _ r); [exact Hf|exact E4|]. rewrite Em. fold fp. exists (x - y).
    split; [|unfold i; lia].
    destruct J' as [[-> J1]|[-> [J1 J2]]]; [left; lia|right; lia].
Qed.

Lemma enc_ok : forall n x y f, 1 <= n -> on_grid n x y f -> ring_facts n x y f.
Proof.
  intros n x y f Hn G. destruct (Z.lt_ge_cases ((f / 4 + 2) * n - x - y - 1) n).
  - now apply enc_north.
  - destruct (Z.lt_ge_cases (3 * n) ((f / 4 + 2) * n - x - y - 1)); [now apply enc_south|apply enc_equator; [assumption|assumption|lia]].
Qed.
