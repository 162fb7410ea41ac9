(** Ring numbering: every pixel number has coordinates. *)
From Coq Require Import ZArith List Bool Lia.
From Verif Require Import CLib FloatModel HealpixModel HealpixSpec HealpixProofs3 HealpixProofs4 HealpixProofs5.
Import ListNotations.
Open Scope Z_scope.
Ltac Zify.zify_post_hook ::= Z.div_mod_to_equations.

Lemma quarter : forall a b, 1 <= b -> 0 <= a < 4 * b -> exists c, (c = 0 \/ c = 1 \/ c = 2 \/ c = 3) /\ c * b <= a < (c + 1) * b.
Proof.
  intros a b Hb Ha. destruct (Z.lt_ge_cases a b); [exists 0; lia|]. destruct (Z.lt_ge_cases a (2 * b)); [exists 1; lia|].
  destruct (Z.lt_ge_cases a (3 * b)); [exists 2; lia|exists 3; lia].
Qed.

Definition dec_facts (n i j : Z) : Prop := exists x y f, dec n i j = Ok (x, y, f) /\ on_grid n x y f /\ enc n x y f = (i, j).

Lemma dec_north : forall n i j, 1 <= n -> 1 <= i < n -> 1 <= j <= 4 * i -> dec_facts n i j.
Proof.
  intros n i j Hn Hi Hj. destruct (quarter (j - 1) i) as (c & Hc & B); [lia|lia|].
  assert (X: exists x, 2 * x = 2 * n + 2 * j - 2 - (2 * c + 2) * i).
  { exists (n + j - 1 - (c + 1) * i). lia. }
  assert (Y: exists y, 2 * y = 2 * n - 2 * j + 2 * c * i).
  { exists (n - j + c * i). lia. }
  destruct X as (x & X), Y as (y & Y). exists x, y, c.
  assert (G: on_grid n x y c) by (unfold on_grid; destruct Hc as [->|[->|[->| ->]]]; lia).
  split; [|split; [exact G|]].
  - unfold dec. rewrite (proj2 (Z.ltb_lt i n)) by lia. rewrite (special_div_eq (j - 1) i c Hc) by lia.
    apply (end_eq _ _ _ _ _ _ 0); [lia|lia|]. replace (c mod 4) with c by lia. change (if 0 =? 1 then 0 else 1) with 1.
    exists (2 * j - (2 * c + 1) * i - 1). destruct Hc as [->|[->|[->| ->]]]; lia.
  - unfold enc. cbv zeta. replace (c mod 4) with c by lia. replace (c / 4) with 0 by lia. change (0 =? 1) with false. cbv iota.
    assert (E: (0 + 2) * n - x - y - 1 = i) by lia. rewrite E. rewrite (proj2 (Z.ltb_lt i n)) by lia.
    assert (EJ: ((2 * c + 1) * i + x - y + 1 + 0) / 2 = j) by (destruct Hc as [->|[->|[->| ->]]]; lia). rewrite EJ.
    rewrite (proj2 (Z.ltb_ge j 1)) by lia. reflexivity.
Qed.

Lemma dec_south : forall n i j, 1 <= n -> 3 * n < i < 4 * n -> 1 <= j <= 4 * (4 * n - i) -> dec_facts n i j.
Proof.
  intros n i j Hn Hi Hj. set (k := 4 * n - i) in *. destruct (quarter (j - 1) k) as (c & Hc & B); [lia|lia|].
  assert (X: exists x, 2 * x = 2 * j - 2 - 2 * c * k).
  { exists (j - 1 - c * k). lia. }
  assert (Y: exists y, 2 * y = (2 * c + 2) * k - 2 * j).
  { exists ((c + 1) * k - j). lia. }
  destruct X as (x & X), Y as (y & Y). exists x, y, (8 + c).
  assert (G: on_grid n x y (8 + c)) by (unfold on_grid; destruct Hc as [->|[->|[->| ->]]]; lia).
  split; [|split; [exact G|]].
  - unfold dec. rewrite (proj2 (Z.ltb_ge i n)) by lia. rewrite (proj2 (Z.leb_gt i (3 * n))) by lia. fold k. rewrite (special_div_eq (j - 1) k c Hc) by lia.
    apply (end_eq _ _ _ _ _ _ 2); [lia|lia|]. replace ((8 + c) mod 4) with c by lia. change (if 2 =? 1 then 0 else 1) with 1.
    exists (2 * j - (2 * c + 1) * k - 1). destruct Hc as [->|[->|[->| ->]]]; lia.
  - unfold enc. cbv zeta. replace ((8 + c) mod 4) with c by lia. replace ((8 + c) / 4) with 2 by lia. change (2 =? 1) with false. cbv iota.
    assert (E: (2 + 2) * n - x - y - 1 = i) by lia. rewrite E. rewrite (proj2 (Z.ltb_ge i n)) by lia. rewrite (proj2 (Z.ltb_lt (3 * n) i)) by lia.
    fold k. assert (EJ: ((2 * c + 1) * k + x - y + 1 + 0) / 2 = j) by (destruct Hc as [->|[->|[->| ->]]]; lia). rewrite EJ.
    rewrite (proj2 (Z.ltb_ge j 1)) by lia. reflexivity.
Qed.

(** Equatorial belt with a given face; [w] tells whether the longitude wraps. *)
Lemma dec_belt : forall n i j r c w x y, 1 <= n -> n <= i <= 3 * n -> 1 <= j <= 4 * n ->
  (r = 0 \/ r = 1 \/ r = 2) -> (c = 0 \/ c = 1 \/ c = 2 \/ c = 3) -> (w = 0 \/ (w = 1 /\ r = 1 /\ c = 0)) ->
  face_of ((j - (2 * n + 1 - (i - n)) / 2 + n - 1) / n) ((j - (i - n + 1) / 2 + n - 1) / n) = 4 * r + c ->
  let fp := 2 * c + (if r =? 1 then 0 else 1) in
  let ipt := 2 * j - fp * n - (i - n) mod 2 - 1 - 8 * n * w in
  let irt := i - (r + 2) * n + 1 in
  2 * x = ipt - irt -> 2 * y = - (ipt + irt) -> 0 <= x < n -> 0 <= y < n ->
  dec_facts n i j.
Proof.
  intros n i j r c w x y Hn Hi Hj Hr Hc Hw F fp ipt irt X Y Gx Gy.
  exists x, y, (4 * r + c).
  assert (E4: (4 * r + c) / 4 = r) by lia. assert (Em: (4 * r + c) mod 4 = c) by lia.
  assert (I1: - n < ipt < n) by (unfold irt in *; lia).
  split; [|split; [unfold on_grid; lia|]].
  - unfold dec. rewrite (proj2 (Z.ltb_ge i n)) by lia. rewrite (proj2 (Z.leb_le i (3 * n))) by lia. rewrite F.
    replace ((i + n) mod 2) with ((i - n) mod 2) by lia.
    apply (end_eq _ _ _ _ _ _ r); [lia|exact E4|]. rewrite Em. fold fp. exists ipt. split; [|unfold irt in *; lia].
    unfold ipt in *. destruct Hw as [->|[-> _]]; lia.
  - unfold enc. cbv zeta. rewrite E4, Em. fold fp. assert (E: (r + 2) * n - x - y - 1 = i) by (unfold irt in *; lia). rewrite E.
    rewrite (proj2 (Z.ltb_ge i n)) by lia. rewrite (proj2 (Z.ltb_ge (3 * n) i)) by lia.
    assert (EJ: (fp * n + x - y + 1 + (i - n) mod 2) / 2 = j - 4 * n * w) by (unfold ipt in *; lia). rewrite EJ.
    destruct Hw as [->|(-> & -> & ->)].
    + rewrite (proj2 (Z.ltb_ge _ 1)) by lia. f_equal. lia.
    + rewrite (proj2 (Z.ltb_lt _ 1)) by (unfold ipt, fp in *; cbn [Z.eqb Pos.eqb] in *; lia). f_equal. lia.
Qed.

Lemma floor_cases : forall a n, 1 <= n -> 0 <= a < 5 * n -> exists q, (q = 0 \/ q = 1 \/ q = 2 \/ q = 3 \/ q = 4) /\ q * n <= a < (q + 1) * n.
Proof.
  intros a n Hn Ha. destruct (Z.lt_ge_cases a n); [exists 0; lia|]. destruct (Z.lt_ge_cases a (2 * n)); [exists 1; lia|].
  destruct (Z.lt_ge_cases a (3 * n)); [exists 2; lia|]. destruct (Z.lt_ge_cases a (4 * n)); [exists 3; lia|exists 4; lia].
Qed.

Lemma halves : forall z, z mod 2 = 0 -> exists h, 2 * h = z.
Proof. intros z H. exists (z / 2). lia. Qed.

Lemma dec_equator : forall n i j, 1 <= n -> n <= i <= 3 * n -> 1 <= j <= 4 * n -> dec_facts n i j.
Proof.
  intros n i j Hn Hi Hj.
  set (am := j - (i - n + 1) / 2 + n - 1). set (ap := j - (2 * n + 1 - (i - n)) / 2 + n - 1).
  destruct (floor_cases am n Hn) as (qm & Hm & Bm); [unfold am; lia|].
  destruct (floor_cases ap n Hn) as (qp & Hp & Bp); [unfold ap; lia|].
  assert (F: face_of (ap / n) (am / n) = face_of qp qm) by (rewrite (div_eq ap n qp), (div_eq am n qm) by lia; reflexivity).
  assert (P: forall r c w, (r = 0 \/ r = 1 \/ r = 2) -> (c = 0 \/ c = 1 \/ c = 2 \/ c = 3) -> 
     let fp := 2 * c + (if r =? 1 then 0 else 1) in
     let ipt := 2 * j - fp * n - (i - n) mod 2 - 1 - 8 * n * w in
     let irt := i - (r + 2) * n + 1 in (ipt - irt) mod 2 = 0 /\ (- (ipt + irt)) mod 2 = 0).
  { intros r c w Hr Hc fp ipt irt. unfold ipt, irt, fp. destruct Hr as [->|[->| ->]]; cbn [Z.eqb Pos.eqb]; destruct Hc as [->|[->|[->| ->]]]; lia. }
  Ltac use_face P F Hn Hi Hj rr cc ww :=
    let H1 := fresh in let H2 := fresh in
    destruct (P rr cc ww ltac:(lia) ltac:(lia)) as [H1 H2];
    destruct (halves _ H1) as [x X]; destruct (halves _ H2) as [y Y];
    apply (dec_belt _ _ _ rr cc ww x y Hn Hi Hj ltac:(lia) ltac:(lia) ltac:(lia) F X Y);
    cbn [Z.eqb Pos.eqb] in X, Y; lia.
  assert (Q: qp = qm \/ qp = qm + 1 \/ qm = qp + 1).
  { assert (ap - am <= n /\ am - ap <= n) by (unfold am, ap; lia). nia. }
  unfold am in Bm. unfold ap in Bp. unfold am, ap in F. clearbody am ap. 
  destruct Q as [Q|[Q|Q]]; subst.
  - destruct Hm as [->|[->|[->|[->| ->]]]]; unfold face_of in F at 2; cbn in F.
    + use_face P F Hn Hi Hj 1 0 0.
    + use_face P F Hn Hi Hj 1 1 0.
    + use_face P F Hn Hi Hj 1 2 0.
    + use_face P F Hn Hi Hj 1 3 0.
    + use_face P F Hn Hi Hj 1 0 1.
  - destruct Hm as [->|[->|[->|[->| ->]]]]; try (exfalso; lia); unfold face_of in F at 2; cbn in F.
    + use_face P F Hn Hi Hj 2 0 0.
    + use_face P F Hn Hi Hj 2 1 0.
    + use_face P F Hn Hi Hj 2 2 0.
    + use_face P F Hn Hi Hj 2 3 0.
  - destruct Hp as [->|[->|[->|[->| ->]]]]; try (exfalso; lia); unfold face_of in F at 2; cbn in F.
    + use_face P F Hn Hi Hj 0 0 0.
    + use_face P F Hn Hi Hj 0 1 0.
    + use_face P F Hn Hi Hj 0 2 0.
    + use_face P F Hn Hi Hj 0 3 0.
Qed.

Lemma dec_ok : forall n i j, 1 <= n -> on_ring n i j -> dec_facts n i j.
Proof.
  intros n i j Hn [Hi Hj]. destruct (start_cases n i Hn Hi) as [(C & _ & E)|[(C & _ & E)|(C & _ & E)]]; rewrite E in Hj.
  - apply dec_north; lia.
  - apply dec_equator; lia.
  - apply dec_south; lia.
Qed.

(** ** Final statements *)
Lemma start_bounds : forall n i j, 1 <= n -> on_ring n i j -> valid_pixel n (start n i + j - 1).
Proof.
  intros n i j Hn [Hi Hj]. unfold valid_pixel. destruct (start_cases n i Hn Hi) as [(C & -> & E)|[(C & -> & E)|(C & -> & E)]]; rewrite E in Hj; nia.
Qed.

Lemma ring_length_eq : forall n i, 1 <= n -> 1 <= i < 4 * n -> ring_length n i = rlen n i.
Proof.
  intros n i Hn Hi. unfold ring_length, rlen. destruct (Z.ltb_spec i n); [|destruct (Z.leb_spec i (3 * n))]; lia.
Qed.
Lemma pixels_before_eq : forall n k, 1 <= n -> Z.of_nat k < 4 * n - 1 -> pixels_before n k = start n (Z.of_nat k + 1).
Proof.
  intros n k Hn. induction k as [|k IH]; intro H.
  - cbn [pixels_before]. unfold start. change (Z.of_nat 0 + 1) with 1. destruct (Z.ltb_spec 1 n); [lia|]. destruct (Z.leb_spec 1 (3 * n)); nia.
  - cbn [pixels_before]. rewrite IH by lia. rewrite ring_length_eq by lia.
    replace (Z.of_nat (S k) + 1) with (Z.of_nat k + 2) by lia. set (i := Z.of_nat k + 1). replace (Z.of_nat k + 2) with (i + 1) by lia.
    unfold rlen, start.
    destruct (Z.ltb_spec i n), (Z.ltb_spec (i + 1) n), (Z.leb_spec i (3 * n)), (Z.leb_spec (i + 1) (3 * n)); try (exfalso; lia); try nia.
Qed.

Lemma ring_encode : forall n x y f, 1 <= n -> on_grid n x y f ->
  exists p, xyf2ring n x y f = Ok p /\ valid_pixel n p /\
    1 <= ring_of n x y f < 4 * n /\
    pixels_before n (Z.to_nat (ring_of n x y f - 1)) <= p < pixels_before n (Z.to_nat (ring_of n x y f - 1)) + ring_length n (ring_of n x y f).
Proof.
  intros n x y f Hn G. pose proof (enc_ok n x y f Hn G) as E. unfold ring_facts in E.
  destruct (enc n x y f) as [i j] eqn:EE. destruct E as (R & E & _).
  assert (I: ring_of n x y f = i) by (unfold enc in EE; cbv zeta in EE; injection EE; intros _ <-; unfold ring_of, face_row; lia).
  exists (start n i + j - 1). split; [exact E|]. split; [now apply start_bounds|]. rewrite I.
  destruct R as [R1 R2]. split; [exact R1|]. rewrite pixels_before_eq by lia. rewrite ring_length_eq by lia.
  rewrite Z2Nat.id by lia. replace (i - 1 + 1) with i by lia. lia.
Qed.

Lemma xyf2ring_same : forall n x y f, xyf2ring64 n x y f = xyf2ring n x y f.
Proof. reflexivity. Qed.

Lemma ring_roundtrip : forall n x y f, 1 <= n -> 12 * n * n < 2147483648 -> on_grid n x y f ->
  forall p, xyf2ring n x y f = Ok p -> ring2xyf n p = Ok (x, y, f).
Proof.
  intros n x y f Hn Hb G p P. pose proof (enc_ok n x y f Hn G) as E. unfold ring_facts in E.
  destruct (enc n x y f) as [i j]. destruct E as (R & E & D). rewrite E in P. injection P; intros <-. now rewrite ring2xyf_dec.
Qed.
Lemma ring_roundtrip64 : forall n x y f, 1 <= n <= 2 ^ 29 -> on_grid n x y f ->
  forall p, xyf2ring64 n x y f = Ok p -> ring2xyf64 n p = Ok (x, y, f).
Proof.
  intros n x y f Hn G p P. rewrite xyf2ring_same in P. pose proof (enc_ok n x y f ltac:(lia) G) as E. unfold ring_facts in E.
  destruct (enc n x y f) as [i j]. destruct E as (R & E & D). rewrite E in P. injection P; intros <-. now rewrite ring2xyf64_dec.
Qed.
Lemma ring_decode : forall n p, 1 <= n -> 12 * n * n < 2147483648 -> valid_pixel n p ->
  exists x y f, ring2xyf n p = Ok (x, y, f) /\ on_grid n x y f /\ xyf2ring n x y f = Ok p.
Proof.
  intros n p Hn Hb V. destruct (ring_cover n p Hn V) as (i & j & R & ->). rewrite ring2xyf_dec by assumption.
  destruct (dec_ok n i j Hn R) as (x & y & f & D & G & E). exists x, y, f. split; [exact D|]. split; [exact G|].
  pose proof (enc_ok n x y f Hn G) as K. unfold ring_facts in K. rewrite E in K. apply K.
Qed.
Lemma ring_decode64 : forall n p, 1 <= n <= 2 ^ 29 -> valid_pixel n p ->
  exists x y f, ring2xyf64 n p = Ok (x, y, f) /\ on_grid n x y f /\ xyf2ring64 n x y f = Ok p.
Proof.
  intros n p Hn V. destruct (ring_cover n p ltac:(lia) V) as (i & j & R & ->). rewrite ring2xyf64_dec by assumption.
  destruct (dec_ok n i j ltac:(lia) R) as (x & y & f & D & G & E). exists x, y, f. split; [exact D|]. split; [exact G|].
  pose proof (enc_ok n x y f ltac:(lia) G) as K. unfold ring_facts in K. rewrite E in K. rewrite xyf2ring_same. apply K.
Qed.
Lemma unring_agree : forall n p, 1 <= n -> 12 * n * n < 2147483648 -> valid_pixel n p -> ring2xyf64 n p = ring2xyf n p.
Proof.
  intros n p Hn Hb V. destruct (ring_cover n p Hn V) as (i & j & R & ->). rewrite ring2xyf_dec, ring2xyf64_dec; try assumption; [reflexivity|nia].
Qed.
