(** Ring numbering. *)
From Coq Require Import ZArith List Bool Lia.
From Verif Require Import CLib FloatModel HealpixModel HealpixSpec HealpixProofs3.
Import ListNotations.
Open Scope Z_scope.
Ltac Zify.zify_post_hook ::= Z.div_mod_to_equations.

Definition start (n i : Z) : Z :=
  if i <? n then 2 * i * (i - 1) else if i <=? 3 * n then 2 * n * (n - 1) + (i - n) * (4 * n)
  else 12 * n * n - 2 * (4 * n - i + 1) * (4 * n - i).
Definition rlen (n i : Z) : Z := if i <? n then 4 * i else if i <=? 3 * n then 4 * n else 4 * (4 * n - i).
Definition on_ring (n i j : Z) : Prop := 1 <= i < 4 * n /\ 1 <= j <= rlen n i.

Definition dec (n i j : Z) : res (Z * Z * Z) :=
  if i <? n then ring_end n i j 0 i (special_div (j - 1) i)
  else if i <=? 3 * n then
    ring_end n i j ((i + n) mod 2) n
      (face_of ((j - (2 * n + 1 - (i - n)) / 2 + n - 1) / n) ((j - (i - n + 1) / 2 + n - 1) / n))
  else ring_end n i j 0 (4 * n - i) (8 + special_div (j - 1) (4 * n - i)).

Lemma land1 : forall z, Z.land z 1 = z mod 2.
Proof. intro z. change 1 with (Z.ones 1) at 1. rewrite Z.land_ones by lia. reflexivity. Qed.
Lemma shr1 : forall z, Z.shiftr z 1 = z / 2.
Proof. intro z. rewrite Z.shiftr_div_pow2 by lia. reflexivity. Qed.

Lemma cap_ring : forall i j, 1 <= i -> 1 <= j <= 4 * i -> (1 + Z.sqrt (1 + 2 * (2 * i * (i - 1) + j - 1))) / 2 = i.
Proof.
  intros i j Hi Hj. set (v := 1 + 2 * (2 * i * (i - 1) + j - 1)).
  destruct (Z.sqrt_spec v) as [S1 S2]; [unfold v; nia|]. pose proof (Z.sqrt_nonneg v). set (s := Z.sqrt v) in *. clearbody s.
  unfold v in *. assert (2 * i - 1 <= s) by nia. assert (s < 2 * i + 1) by nia. lia.
Qed.
Lemma cap_cover : forall p, 0 <= p -> exists i j, 1 <= i /\ 1 <= j <= 4 * i /\ p = 2 * i * (i - 1) + j - 1.
Proof.
  intros p Hp. set (v := 1 + 2 * p). destruct (Z.sqrt_spec v) as [S1 S2]; [unfold v; lia|].
  pose proof (Z.sqrt_nonneg v). set (s := Z.sqrt v) in *. clearbody s. unfold v in *.
  assert (1 <= s) by nia.
  destruct (Z.Even_or_Odd s) as [[h Hh]|[h Hh]].
  - exists h, (p + 1 - 2 * h * (h - 1)). nia.
  - exists (h + 1), (p + 1 - 2 * (h + 1) * h). nia.
Qed.

Lemma u32_small : forall z, 0 <= z < 4294967296 -> u32 z = z.
Proof. intros. apply Z.mod_small. assumption. Qed.

Lemma start_cases : forall n i, 1 <= n -> 1 <= i < 4 * n ->
  (i < n /\ start n i = 2 * i * (i - 1) /\ rlen n i = 4 * i) \/
  (n <= i <= 3 * n /\ start n i = 2 * n * (n - 1) + (i - n) * (4 * n) /\ rlen n i = 4 * n) \/
  (3 * n < i /\ start n i = 12 * n * n - 2 * (4 * n - i + 1) * (4 * n - i) /\ rlen n i = 4 * (4 * n - i)).
Proof.
  intros n i Hn Hi. unfold start, rlen. destruct (Z.ltb_spec i n); [left; tauto|].
  destruct (Z.leb_spec i (3 * n)); [right; left; split; [lia|tauto]|right; right; split; [lia|tauto]].
Qed.

Lemma ring_cover : forall n p, 1 <= n -> valid_pixel n p -> exists i j, on_ring n i j /\ p = start n i + j - 1.
Proof.
  intros n p Hn Hp. unfold valid_pixel in Hp. unfold on_ring, start, rlen.
  destruct (Z.lt_ge_cases p (2 * n * (n - 1))) as [L|G].
  - destruct (cap_cover p ltac:(lia)) as (i & j & Hi & Hj & E). assert (i < n) by nia.
    exists i, j. rewrite (proj2 (Z.ltb_lt i n)) by lia. lia.
  - destruct (Z.lt_ge_cases p (12 * n * n - 2 * n * (n - 1))) as [L2|G2].
    + set (q := p - 2 * n * (n - 1)). exists (q / (4 * n) + n), (q mod (4 * n) + 1).
      pose proof (Z.div_mod q (4 * n) ltac:(lia)) as D. pose proof (Z.mod_pos_bound q (4 * n) ltac:(lia)) as M.
      assert (D0: 0 <= q / (4 * n)) by (apply Z.div_pos; unfold q; lia).
      assert (D1: q / (4 * n) < 2 * n + 1) by (apply Z.div_lt_upper_bound; unfold q; nia).
      set (d := q / (4 * n)) in *. set (m := q mod (4 * n)) in *. clearbody d m.
      rewrite (proj2 (Z.ltb_ge (d + n) n)) by lia. rewrite (proj2 (Z.leb_le (d + n) (3 * n))) by lia.
      split; [lia|]. unfold q in D. lia.
    + destruct (cap_cover (12 * n * n - 1 - p) ltac:(lia)) as (i & j & Hi & Hj & E).
      assert (i < n) by nia. exists (4 * n - i), (4 * i + 1 - j).
      rewrite (proj2 (Z.ltb_ge (4 * n - i) n)) by lia. rewrite (proj2 (Z.leb_gt (4 * n - i) (3 * n))) by lia.
      replace (4 * n - (4 * n - i)) with i by lia. split; [lia|]. nia.
Qed.

Lemma ring2xyf_dec : forall n i j, 1 <= n -> 12 * n * n < 2147483648 -> on_ring n i j ->
  ring2xyf n (start n i + j - 1) = dec n i j.
Proof.
  intros n i j Hn Hb [Hi Hj]. assert (n < 2 ^ 16) by nia.
  unfold ring2xyf, dec. destruct (start_cases n i Hn Hi) as [(C & -> & E)|[(C & -> & E)|(C & -> & E)]]; rewrite E in Hj.
  - rewrite (proj2 (Z.ltb_lt i n)) by lia. rewrite (proj2 (Z.ltb_lt _ (2 * n * (n - 1)))) by nia.
    rewrite isqrt_ok by nia. cbn [bind]. rewrite shr1, cap_ring by lia.
    replace (2 * i * (i - 1) + j - 1 + 1 - 2 * i * (i - 1)) with j by lia. reflexivity.
  - rewrite (proj2 (Z.ltb_ge i n)) by lia. rewrite (proj2 (Z.leb_le i (3 * n))) by lia.
    rewrite (proj2 (Z.ltb_ge _ (2 * n * (n - 1)))) by nia. rewrite (proj2 (Z.ltb_lt _ (12 * n * n - _))) by nia.
    replace (2 * n * (n - 1) + (i - n) * (4 * n) + j - 1 - 2 * n * (n - 1)) with ((i - n) * (4 * n) + (j - 1)) by lia.
    rewrite Z.quot_div_nonneg, Z.rem_mod_nonneg by nia.
    assert (D: ((i - n) * (4 * n) + (j - 1)) / (4 * n) = i - n).
    { rewrite Z.add_comm, Z.div_add, Z.div_small by lia. lia. }
    assert (M: ((i - n) * (4 * n) + (j - 1)) mod (4 * n) = j - 1).
    { rewrite Z.add_comm, Z.mod_add, Z.mod_small by lia. lia. }
    rewrite D, M. replace (i - n + n) with i by lia. replace (j - 1 + 1) with j by lia. rewrite land1.
    rewrite (u32_small (i - n + 1)) by lia.
    replace (2 * n + 2 - (i - n + 1)) with (2 * n + 1 - (i - n)) by lia.
    rewrite (u32_small (2 * n + 1 - (i - n))) by lia.
    rewrite !(Z.quot_div_nonneg _ 2) by lia.
    rewrite !u32_small by lia. rewrite !(Z.quot_div_nonneg _ n) by lia. reflexivity.
  - rewrite (proj2 (Z.ltb_ge i n)) by lia. rewrite (proj2 (Z.leb_gt i (3 * n))) by lia.
    set (k := 4 * n - i). assert (K: 1 <= k < n) by lia. assert (Hj': 1 <= j <= 4 * k) by lia.
    rewrite (proj2 (Z.ltb_ge _ (2 * n * (n - 1)))) by nia. rewrite (proj2 (Z.ltb_ge _ (12 * n * n - _))) by nia.
    replace (2 * (12 * n * n - (12 * n * n - 2 * (k + 1) * k + j - 1)) - 1) with (1 + 2 * (2 * k * (k - 1) + (4 * k + 1 - j) - 1)) by lia.
    rewrite isqrt_ok by nia. cbn [bind]. rewrite shr1, cap_ring by lia.
    replace (4 * k + 1 - (12 * n * n - (12 * n * n - 2 * (k + 1) * k + j - 1) - 2 * k * (k - 1))) with j by lia.
    replace (2 * (2 * n) - k) with i by lia. reflexivity.
Qed.

Lemma ring2xyf64_dec : forall n i j, 1 <= n <= 2 ^ 29 -> on_ring n i j ->
  ring2xyf64 n (start n i + j - 1) = dec n i j.
Proof.
  intros n i j Hn [Hi Hj].
  unfold ring2xyf64, dec. destruct (start_cases n i ltac:(lia) Hi) as [(C & -> & E)|[(C & -> & E)|(C & -> & E)]]; rewrite E in Hj.
  - rewrite (proj2 (Z.ltb_lt i n)) by lia. rewrite (proj2 (Z.ltb_lt _ (2 * n * (n - 1)))) by nia.
    rewrite isqrt64_ok by nia. cbn [bind]. rewrite shr1, cap_ring by lia.
    replace (2 * i * (i - 1) + j - 1 + 1 - 2 * i * (i - 1)) with j by lia. reflexivity.
  - rewrite (proj2 (Z.ltb_ge i n)) by lia. rewrite (proj2 (Z.leb_le i (3 * n))) by lia.
    rewrite (proj2 (Z.ltb_ge _ (2 * n * (n - 1)))) by nia. rewrite (proj2 (Z.ltb_lt _ (12 * n * n - _))) by nia.
    replace (2 * n * (n - 1) + (i - n) * (4 * n) + j - 1 - 2 * n * (n - 1)) with ((i - n) * (4 * n) + (j - 1)) by lia.
    rewrite Z.quot_div_nonneg, Z.rem_mod_nonneg by nia.
    assert (D: ((i - n) * (4 * n) + (j - 1)) / (4 * n) = i - n).
    { rewrite Z.add_comm, Z.div_add, Z.div_small by lia. lia. }
    assert (M: ((i - n) * (4 * n) + (j - 1)) mod (4 * n) = j - 1).
    { rewrite Z.add_comm, Z.mod_add, Z.mod_small by lia. lia. }
    rewrite D, M. replace (i - n + n) with i by lia. replace (j - 1 + 1) with j by lia. rewrite land1.
    replace (2 * n + 2 - (i - n + 1)) with (2 * n + 1 - (i - n)) by lia.
    rewrite !(Z.quot_div_nonneg _ 2) by lia. rewrite !(Z.quot_div_nonneg _ n) by lia. reflexivity.
  - rewrite (proj2 (Z.ltb_ge i n)) by lia. rewrite (proj2 (Z.leb_gt i (3 * n))) by lia.
    set (k := 4 * n - i). assert (K: 1 <= k < n) by lia. assert (Hj': 1 <= j <= 4 * k) by lia.
    rewrite (proj2 (Z.ltb_ge _ (2 * n * (n - 1)))) by nia. rewrite (proj2 (Z.ltb_ge _ (12 * n * n - _))) by nia.
    replace (2 * (12 * n * n - (12 * n * n - 2 * (k + 1) * k + j - 1)) - 1) with (1 + 2 * (2 * k * (k - 1) + (4 * k + 1 - j) - 1)) by lia.
    rewrite isqrt64_ok by nia. cbn [bind]. rewrite shr1, cap_ring by lia.
    replace (4 * k + 1 - (12 * n * n - (12 * n * n - 2 * (k + 1) * k + j - 1) - 2 * k * (k - 1))) with j by lia.
    replace (2 * (2 * n) - k) with i by lia. reflexivity.
Qed.

(** The encoder computes a ring and a position on it. *)
Definition enc (n x y f : Z) : Z * Z :=
  let i := (f / 4 + 2) * n - x - y - 1 in
  let fp := 2 * (f mod 4) + (if f / 4 =? 1 then 0 else 1) in
  let nr := if i <? n then i else if 3 * n <? i then 4 * n - i else n in
  let ks := if i <? n then 0 else if 3 * n <? i then 0 else (i - n) mod 2 in
  let j := (fp * nr + x - y + 1 + ks) / 2 in
  (i, if j <? 1 then j + 4 * n else j).

Ltac faces f H := assert (f = 0 \/ f = 1 \/ f = 2 \/ f = 3 \/ f = 4 \/ f = 5 \/ f = 6 \/ f = 7 \/ f = 8 \/ f = 9 \/ f = 10 \/ f = 11) as H by lia.

Lemma quot2_even : forall z, z mod 2 = 0 -> Z.quot z 2 = z / 2.
Proof. intros z H. Z.to_euclidean_division_equations. lia. Qed.
