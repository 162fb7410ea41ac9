(** Nested numbering: bit interleaving. *)
From Coq Require Import ZArith List Bool Lia.
From Verif Require Import CLib FloatModel HealpixModel HealpixSpec CalendarProofs1.
Import ListNotations.
Open Scope Z_scope.
Ltac Zify.zify_post_hook ::= Z.div_mod_to_equations.

Lemma bit_high : forall v n j, 0 <= v < 2 ^ n -> n <= j -> Z.testbit v j = false.
Proof.
  intros v n j [H1 H2] Hj. destruct (Z.eq_dec v 0) as [->|N]; [apply Z.testbit_0_l|].
  assert (0 <= n) by (destruct (Z.lt_ge_cases n 0); [rewrite Z.pow_neg_r in H2 by assumption; lia|assumption]).
  apply Z.bits_above_log2; [assumption|]. apply Z.log2_lt_pow2 in H2; lia.
Qed.

Lemma bits_bound : forall v n, 0 <= v -> 0 <= n -> (forall j, n <= j -> Z.testbit v j = false) -> v < 2 ^ n.
Proof.
  intros v n H0 Hn H. destruct (Z.lt_ge_cases v (2 ^ n)) as [L|G]; [assumption|exfalso].
  assert (0 < 2 ^ n) by (apply Z.pow_pos_nonneg; lia).
  assert (Hv: 0 < v) by lia.
  pose proof (Z.bit_log2 v Hv) as B. rewrite H in B; [discriminate|].
  apply Z.log2_le_pow2 in G; lia.
Qed.

(** Table checks: 256 entries each. *)
Definition utab_ok_b (m : Z) : bool :=
  match at_ utab m with
  | Ok v => (0 <=? v) && (v <? 65536) &&
            forallb (fun j => Bool.eqb (Z.testbit v (2 * j)) (Z.testbit m j) && negb (Z.testbit v (2 * j + 1))) [0; 1; 2; 3; 4; 5; 6; 7]
  | UB _ => false
  end.
Definition ctab_ok_b (m : Z) : bool :=
  match at_ ctab m with
  | Ok v => (0 <=? v) && (v <? 4096) &&
            forallb (fun j => Bool.eqb (Z.testbit v j) (Z.testbit m (2 * j)) && Bool.eqb (Z.testbit v (8 + j)) (Z.testbit m (2 * j + 1)) &&
                              negb (Z.testbit v (4 + j))) [0; 1; 2; 3]
  | UB _ => false
  end.
Lemma utab_checked : upto 256 utab_ok_b 0 = true. Proof. vm_compute. reflexivity. Qed.
Lemma ctab_checked : upto 256 ctab_ok_b 0 = true. Proof. vm_compute. reflexivity. Qed.

Lemma utab_at : forall m, 0 <= m < 256 -> exists v, at_ utab m = Ok v /\ 0 <= v < 65536 /\
  forall j, 0 <= j -> Z.testbit v (2 * j) = Z.testbit m j /\ Z.testbit v (2 * j + 1) = false.
Proof.
  intros m Hm. pose proof (upto_ok _ _ _ utab_checked m ltac:(lia)) as C. unfold utab_ok_b in C.
  destruct (at_ utab m) as [v|]; [|discriminate]. exists v. split; [reflexivity|].
  rewrite !andb_true_iff, Z.leb_le, Z.ltb_lt in C. destruct C as [[C1 C2] C3]. split; [lia|].
  intros j Hj. destruct (Z.lt_ge_cases j 8) as [L|G].
  - rewrite forallb_forall in C3. specialize (C3 j).
    assert (I: In j [0; 1; 2; 3; 4; 5; 6; 7]) by (cbn; lia). specialize (C3 I).
    rewrite andb_true_iff, eqb_true_iff, negb_true_iff in C3. exact C3.
  - rewrite !(bit_high v 16) by lia. rewrite (bit_high m 8) by lia. tauto.
Qed.

Lemma ctab_at : forall m, 0 <= m < 256 -> exists v, at_ ctab m = Ok v /\ 0 <= v < 4096 /\
  forall j, 0 <= j < 4 -> Z.testbit v j = Z.testbit m (2 * j) /\ Z.testbit v (8 + j) = Z.testbit m (2 * j + 1) /\ Z.testbit v (4 + j) = false.
Proof.
  intros m Hm. pose proof (upto_ok _ _ _ ctab_checked m ltac:(lia)) as C. unfold ctab_ok_b in C.
  destruct (at_ ctab m) as [v|]; [|discriminate]. exists v. split; [reflexivity|].
  rewrite !andb_true_iff, Z.leb_le, Z.ltb_lt in C. destruct C as [[C1 C2] C3]. split; [lia|].
  intros j Hj. rewrite forallb_forall in C3. specialize (C3 j).
  assert (I: In j [0; 1; 2; 3]) by (cbn; lia). specialize (C3 I).
  rewrite !andb_true_iff, !eqb_true_iff, negb_true_iff in C3. tauto.
Qed.

Lemma land_255 : forall x, 0 <= Z.land x 255 < 256.
Proof. intro x. change 255 with (Z.ones 8). rewrite Z.land_ones by lia. apply Z.mod_pos_bound. lia. Qed.
Lemma land_255_bit : forall x j, 0 <= j -> Z.testbit (Z.land x 255) j = (j <? 8) && Z.testbit x j.
Proof.
  intros x j Hj. rewrite Z.land_spec. change 255 with (Z.ones 8). destruct (Z.ltb_spec j 8).
  - rewrite Z.ones_spec_low by lia. rewrite andb_true_r. reflexivity.
  - rewrite Z.ones_spec_high by lia. rewrite andb_false_r. reflexivity.
Qed.
Lemma shiftr_small : forall x a n, 0 <= a -> 0 <= n -> 0 <= x < 2 ^ (a + n) -> 0 <= Z.shiftr x a < 2 ^ n.
Proof.
  intros x a n Ha Hn H. rewrite Z.shiftr_div_pow2 by lia. rewrite Z.pow_add_r in H by lia.
  assert (0 < 2 ^ a) by (apply Z.pow_pos_nonneg; lia).
  split; [apply Z.div_pos; lia|]. apply Z.div_lt_upper_bound; lia.
Qed.

(** Spreading one coordinate. *)
Definition even_bits (v x : Z) : Prop := 0 <= v /\ forall j, 0 <= j -> Z.testbit v (2 * j) = Z.testbit x j /\ Z.testbit v (2 * j + 1) = false.

Lemma even_glue : forall v w x a, 0 <= a -> even_bits v (Z.land x 255) -> even_bits w (Z.shiftr x 8) -> a = 16 ->
  even_bits (Z.lor v (Z.shiftl w a)) x.
Proof.
  intros v w x a Ha [V0 V] [W0 W] ->. split; [apply Z.lor_nonneg; rewrite Z.shiftl_nonneg; tauto|].
  intros j Hj. rewrite !Z.lor_spec, !Z.shiftl_spec by lia. destruct (V j Hj) as [V1 V2]. rewrite V1, V2, land_255_bit by lia.
  destruct (Z.ltb_spec j 8) as [L|G].
  - rewrite !(Z.testbit_neg_r w) by lia. rewrite !orb_false_r. tauto.
  - destruct (W (j - 8) ltac:(lia)) as [W1 W2].
    replace (2 * j - 16) with (2 * (j - 8)) by lia. replace (2 * j + 1 - 16) with (2 * (j - 8) + 1) by lia.
    rewrite W1, W2, Z.shiftr_spec by lia. replace (j - 8 + 8) with j by lia. cbn. tauto.
Qed.

Lemma lor_assoc4 : forall a b c d, Z.lor (Z.lor (Z.lor a (Z.shiftl b 16)) (Z.shiftl c 1)) (Z.shiftl d 17) =
  Z.lor (Z.lor a (Z.shiftl b 16)) (Z.shiftl (Z.lor c (Z.shiftl d 16)) 1).
Proof.
  intros. rewrite Z.shiftl_lor, Z.shiftl_shiftl by lia. change (16 + 1) with 17. now rewrite !Z.lor_assoc.
Qed.

Lemma interleave_lor : forall v w x y, even_bits v x -> even_bits w y -> interleaved (Z.lor v (Z.shiftl w 1)) x y.
Proof.
  intros v w x y [V0 V] [W0 W]. split; [apply Z.lor_nonneg; rewrite Z.shiftl_nonneg; tauto|].
  intros j Hj. rewrite !Z.lor_spec, !Z.shiftl_spec by lia. destruct (V j Hj) as [-> ->]. destruct (W j Hj) as [W1 _].
  replace (2 * j + 1 - 1) with (2 * j) by lia. rewrite W1, orb_false_l. split; [|reflexivity].
  destruct (Z.eq_dec j 0) as [->|N]; [rewrite (Z.testbit_neg_r w) by lia; now rewrite orb_false_r|].
  replace (2 * j - 1) with (2 * (j - 1) + 1) by lia. destruct (W (j - 1) ltac:(lia)) as [_ ->]. now rewrite orb_false_r.
Qed.

Lemma interleaved_bound : forall p x y a, 0 <= a -> interleaved p x y -> 0 <= x < 2 ^ a -> 0 <= y < 2 ^ a -> 0 <= p < 2 ^ a * 2 ^ a.
Proof.
  intros p x y a Ha [P0 P] Hx Hy. split; [assumption|]. rewrite <- Z.pow_add_r by lia.
  apply bits_bound; [assumption|lia|]. intros j Hj.
  destruct (Z.Even_or_Odd j) as [[i ->]|[i ->]].
  - destruct (P i ltac:(lia)) as [-> _]. apply (bit_high x a); lia.
  - destruct (P i ltac:(lia)) as [_ ->]. apply (bit_high y a); lia.
Qed.

Lemma interleaved_inj : forall p x y x' y', interleaved p x y -> interleaved p x' y' -> x = x' /\ y = y'.
Proof.
  intros p x y x' y' [_ P] [_ Q]. split; apply Z.bits_inj'; intros j Hj; destruct (P j Hj), (Q j Hj); congruence.
Qed.
Lemma interleaved_fun : forall p p' x y, interleaved p x y -> interleaved p' x y -> p = p'.
Proof.
  intros p p' x y [_ P] [_ Q]. apply Z.bits_inj'; intros j Hj.
  destruct (Z.Even_or_Odd j) as [[i ->]|[i ->]]; destruct (P i ltac:(lia)), (Q i ltac:(lia)); congruence.
Qed.

(** 32-bit encoder. *)
Lemma xyf2nest_spec : forall nside x y f, 0 <= x < 65536 -> 0 <= y < 65536 ->
  exists q, xyf2nest nside x y f = Ok (f * nside * nside + q) /\ interleaved q x y.
Proof.
  intros nside x y f Hx Hy. unfold xyf2nest.
  assert (S: forall z, 0 <= z < 65536 -> 0 <= Z.shiftr z 8 < 256) by (intros z Hz; apply (shiftr_small z 8 8); lia).
  destruct (utab_at _ (land_255 x)) as (a & -> & Ra & Ba). cbn [bind].
  destruct (utab_at _ (S x Hx)) as (b & -> & Rb & Bb). cbn [bind].
  destruct (utab_at _ (land_255 y)) as (c & -> & Rc & Bc). cbn [bind].
  destruct (utab_at _ (S y Hy)) as (d & -> & Rd & Bd). cbn [bind].
  rewrite lor_assoc4. eexists. split; [reflexivity|].
  apply interleave_lor; apply even_glue; try lia; split; try lia; assumption.
Qed.

(** Decoder: the bits at even positions. *)
Definition odd_free (v p : Z) : Prop := 0 <= v /\ forall j, 0 <= j -> Z.testbit v j = Z.testbit p (2 * j).

Ltac bit_cases j H := 
  let rec go n := match n with
    | O => idtac
    | S ?n' => destruct (Z.eq_dec j (Z.of_nat n')) as [->|?]; [|go n'] end in go H.

Lemma raw_bits_spec : forall pix, 0 <= pix < 2 ^ 31 -> 0 <= raw_bits pix < 65536 /\
  forall j, 0 <= j < 8 -> Z.testbit (raw_bits pix) (2 * j) = Z.testbit pix (2 * j) /\
                          Z.testbit (raw_bits pix) (2 * j + 1) = Z.testbit pix (16 + 2 * j).
Proof.
  intros pix Hp. unfold raw_bits.
  assert (B: forall i, 0 <= i -> Z.testbit (Z.lor (Z.land pix 21845) (Z.shiftr (Z.land pix 1431633920) 15)) i =
     Z.testbit pix i && Z.testbit 21845 i || Z.testbit pix (i + 15) && Z.testbit 1431633920 (i + 15)).
  { intros i Hi. rewrite Z.lor_spec, Z.land_spec, Z.shiftr_spec, Z.land_spec by lia. reflexivity. }
  assert (N: 0 <= Z.lor (Z.land pix 21845) (Z.shiftr (Z.land pix 1431633920) 15)).
  { apply Z.lor_nonneg. rewrite Z.shiftr_nonneg, !Z.land_nonneg. lia. }
  split.
  - split; [assumption|]. apply (bits_bound _ 16); [assumption|lia|]. intros j Hj. rewrite B by lia.
    rewrite (bit_high 21845 16) by lia. rewrite (bit_high 1431633920 31) by lia. now rewrite !andb_false_r.
  - intros j Hj. assert (J: j = 0 \/ j = 1 \/ j = 2 \/ j = 3 \/ j = 4 \/ j = 5 \/ j = 6 \/ j = 7) by lia.
    rewrite !B by lia.
    replace (2 * j + 1 + 15) with (16 + 2 * j) by lia.
    repeat (destruct J as [J|J]); subst j; cbn [Z.mul Z.add Pos.mul Pos.add Pos.succ];
      repeat match goal with |- context [Z.testbit ?c ?i] => match c with Zpos _ => let v := eval vm_compute in (Z.testbit c i) in change (Z.testbit c i) with v end end;
      rewrite ?andb_false_r, ?andb_true_r, ?orb_false_r; cbn; tauto.
Qed.

Lemma compress_spec : forall pix, 0 <= pix < 2 ^ 31 -> exists v, compress (raw_bits pix) = Ok v /\ odd_free v pix.
Proof.
  intros pix Hp. destruct (raw_bits_spec pix Hp) as [R B]. set (raw := raw_bits pix) in *. unfold compress.
  destruct (ctab_at _ (land_255 raw)) as (a & -> & Ra & Ba). cbn [bind].
  destruct (ctab_at (Z.shiftr raw 8)) as (b & -> & Rb & Bb); [apply (shiftr_small raw 8 8); lia|]. cbn [bind].
  eexists. split; [reflexivity|].
  split; [apply Z.lor_nonneg; rewrite Z.shiftl_nonneg; lia|].
  intros j Hj. rewrite Z.lor_spec, Z.shiftl_spec by lia.
  destruct (Z.lt_ge_cases j 4); [|destruct (Z.lt_ge_cases j 8); [|destruct (Z.lt_ge_cases j 12); [|destruct (Z.lt_ge_cases j 16)]]].
  - destruct (Ba j ltac:(lia)) as (-> & _). rewrite (Z.testbit_neg_r b) by lia.
    rewrite land_255_bit by lia. replace (2 * j <? 8) with true by (symmetry; apply Z.ltb_lt; lia).
    destruct (B j ltac:(lia)) as [-> _]. cbn. now rewrite orb_false_r.
  - destruct (Ba (j - 4) ltac:(lia)) as (_ & _ & E). replace (4 + (j - 4)) with j in E by lia. rewrite E.
    destruct (Bb (j - 4) ltac:(lia)) as (-> & _). rewrite Z.shiftr_spec by lia.
    replace (2 * (j - 4) + 8) with (2 * j) by lia. destruct (B j ltac:(lia)) as [-> _]. reflexivity.
  - destruct (Ba (j - 8) ltac:(lia)) as (_ & E & _). replace (8 + (j - 8)) with j in E by lia. rewrite E.
    destruct (Bb (j - 8) ltac:(lia)) as (_ & _ & E'). replace (4 + (j - 8)) with (j - 4) in E' by lia. rewrite E'.
    rewrite land_255_bit by lia. replace (2 * (j - 8) + 1 <? 8) with true by (symmetry; apply Z.ltb_lt; lia).
    destruct (B (j - 8) ltac:(lia)) as [_ ->]. replace (16 + 2 * (j - 8)) with (2 * j) by lia. cbn. now rewrite orb_false_r.
  - rewrite (bit_high a 12) by lia.
    destruct (Bb (j - 12) ltac:(lia)) as (_ & E' & _). replace (8 + (j - 12)) with (j - 4) in E' by lia. rewrite E'.
    rewrite Z.shiftr_spec by lia. replace (2 * (j - 12) + 1 + 8) with (2 * (j - 8) + 1) by lia.
    destruct (B (j - 8) ltac:(lia)) as [_ ->]. replace (16 + 2 * (j - 8)) with (2 * j) by lia. reflexivity.
  - rewrite (bit_high a 12) by lia. rewrite (bit_high b 12) by lia. rewrite (bit_high pix 31) by lia. reflexivity.
Qed.

Lemma odd_free_parts : forall x y p, odd_free x p -> odd_free y (Z.shiftr p 1) -> 0 <= p -> interleaved p x y.
Proof.
  intros x y p [_ X] [_ Y] P. split; [assumption|]. intros j Hj. rewrite X, Y, Z.shiftr_spec by lia. tauto.
Qed.

Lemma square_bits : forall a, 0 <= a -> 2 ^ a * 2 ^ a = 2 ^ (a + a).
Proof. intros. rewrite Z.pow_add_r by lia. reflexivity. Qed.
Lemma land_face : forall a p, 0 <= a -> Z.land p (2 ^ a * 2 ^ a - 1) = p mod (2 ^ a * 2 ^ a).
Proof.
  intros a p Ha. rewrite square_bits by assumption. rewrite <- Z.land_ones by lia. f_equal. rewrite Z.ones_equiv. lia.
Qed.

Lemma coord_bound : forall a p x y, 0 <= a -> 0 <= p < 2 ^ a * 2 ^ a -> 0 <= x -> 0 <= y -> interleaved p x y -> x < 2 ^ a /\ y < 2 ^ a.
Proof.
  intros a p x y Ha Hp Hx Hy [_ P]. rewrite square_bits in Hp by assumption.
  split; apply bits_bound; try assumption; intros j Hj; destruct (P j ltac:(lia)) as [E1 E2].
  - rewrite <- E1. apply (bit_high p (a + a)); lia.
  - rewrite <- E2. apply (bit_high p (a + a)); lia.
Qed.

Lemma nest2xyf_spec : forall a p, 0 <= a <= 13 -> valid_pixel (2 ^ a) p ->
  exists x y f, nest2xyf (2 ^ a) p = Ok (x, y, f) /\ on_grid (2 ^ a) x y f /\
    interleaved (p mod (2 ^ a * 2 ^ a)) x y /\ f = p / (2 ^ a * 2 ^ a).
Proof.
  intros a p Ha Hp. unfold valid_pixel in Hp. unfold nest2xyf.
  assert (P1: 0 < 2 ^ a * 2 ^ a) by (apply Z.mul_pos_pos; apply Z.pow_pos_nonneg; lia).
  assert (P2: 2 ^ a * 2 ^ a <= 2 ^ 26).
  { rewrite square_bits by lia. apply Z.pow_le_mono_r; lia. }
  rewrite land_face by lia. set (q := p mod (2 ^ a * 2 ^ a)).
  assert (Q: 0 <= q < 2 ^ a * 2 ^ a) by (apply Z.mod_pos_bound; assumption).
  destruct (compress_spec q) as (x & -> & X); [lia|]. cbn [bind].
  destruct (compress_spec (Z.shiftr q 1)) as (y & -> & Y).
  { rewrite Z.shiftr_div_pow2 by lia. change (2 ^ 1) with 2. lia. }
  cbn [bind]. pose proof (odd_free_parts x y q X Y ltac:(lia)) as I.
  destruct (coord_bound a q x y ltac:(lia) Q (proj1 X) (proj1 Y) I) as [Bx By].
  rewrite Z.quot_div_nonneg by lia.
  eexists x, y, _. split; [reflexivity|]. split; [|split; [exact I|reflexivity]].
  destruct X as [X0 _], Y as [Y0 _]. unfold on_grid. split; [lia|]. split; [lia|].
  split; [apply Z.div_pos; lia|]. apply Z.div_lt_upper_bound; lia.
Qed.

(** C18 *)
Lemma nest_encode : forall nside x y f, power_of_two_upto 13 nside -> on_grid nside x y f ->
  exists q, xyf2nest nside x y f = Ok (f * nside * nside + q) /\ interleaved q x y /\
    valid_pixel nside (f * nside * nside + q) /\ nest2xyf nside (f * nside * nside + q) = Ok (x, y, f).
Proof.
  intros nside x y f (a & Ha & ->) (Hx & Hy & Hf).
  assert (P: 2 ^ a <= 2 ^ 13) by (apply Z.pow_le_mono_r; lia).
  destruct (xyf2nest_spec (2 ^ a) x y f) as (q & E & I); [lia|lia|].
  exists q. split; [exact E|]. split; [exact I|].
  assert (Q: 0 <= q < 2 ^ a * 2 ^ a) by (apply (interleaved_bound q x y a); [lia|assumption..]).
  rewrite <- Z.mul_assoc. set (N := 2 ^ a * 2 ^ a) in *.
  assert (V: valid_pixel (2 ^ a) (f * N + q)).
  { unfold valid_pixel. rewrite <- Z.mul_assoc. fold N. nia. }
  split; [exact V|].
  destruct (nest2xyf_spec a (f * N + q) Ha V) as (x' & y' & f' & E' & _ & I' & F'). fold N in I', F'.
  rewrite E'. rewrite Z.add_comm, Z.mod_add, Z.mod_small in I' by lia.
  rewrite Z.add_comm, Z.div_add, Z.div_small in F' by lia. destruct (interleaved_inj _ _ _ _ _ I I') as [-> ->].
  rewrite F'. reflexivity.
Qed.

Lemma nest_decode : forall nside p, power_of_two_upto 13 nside -> valid_pixel nside p ->
  exists x y f, nest2xyf nside p = Ok (x, y, f) /\ on_grid nside x y f /\ xyf2nest nside x y f = Ok p.
Proof.
  intros nside p (a & Ha & ->) V. destruct (nest2xyf_spec a p Ha V) as (x & y & f & E & G & I & F).
  exists x, y, f. split; [exact E|]. split; [exact G|].
  assert (P: 2 ^ a <= 2 ^ 13) by (apply Z.pow_le_mono_r; lia). destruct G as (Gx & Gy & Gf).
  destruct (xyf2nest_spec (2 ^ a) x y f) as (q & Eq & Iq); [lia|lia|].
  rewrite Eq. rewrite <- Z.mul_assoc. set (N := 2 ^ a * 2 ^ a) in *.
  rewrite (interleaved_fun _ _ _ _ Iq I), F. f_equal. pose proof (Z.div_mod p N). assert (N <> 0) by (unfold N; nia). lia.
Qed.
