(** Nested numbering, 64-bit functions. *)
From Coq Require Import ZArith List Bool Lia.
From Verif Require Import CLib FloatModel HealpixModel HealpixSpec CalendarProofs1 HealpixProofs1.
Import ListNotations.
Open Scope Z_scope.
Ltac Zify.zify_post_hook ::= Z.div_mod_to_equations.

Definition cbit (m j : Z) : bool :=
  if j <? 0 then false else if j <? 4 then Z.testbit m (2 * j) else if j <? 8 then false
  else if j <? 12 then Z.testbit m (2 * (j - 8) + 1) else false.

Lemma ctab_bits : forall m, 0 <= m < 256 -> exists v, at_ ctab m = Ok v /\ 0 <= v < 4096 /\ forall j, Z.testbit v j = cbit m j.
Proof.
  intros m Hm. destruct (ctab_at m Hm) as (v & E & R & B). exists v. split; [exact E|]. split; [exact R|].
  intro j. unfold cbit. destruct (Z.ltb_spec j 0); [apply Z.testbit_neg_r; assumption|].
  destruct (Z.ltb_spec j 4); [apply B; lia|]. destruct (Z.ltb_spec j 8).
  { destruct (B (j - 4) ltac:(lia)) as (_ & _ & E2). now replace (4 + (j - 4)) with j in E2 by lia. }
  destruct (Z.ltb_spec j 12); [|apply (bit_high v 12); lia].
  destruct (B (j - 8) ltac:(lia)) as (_ & E2 & _). now replace (8 + (j - 8)) with j in E2 by lia.
Qed.

Lemma mask64 : forall i, 0 <= i -> Z.testbit 6148914691236517205 i = Z.even i && (i <? 64).
Proof.
  intros i Hi. destruct (Z.ltb_spec i 64) as [L|G].
  - assert (C: upto 64 (fun i => Bool.eqb (Z.testbit 6148914691236517205 i) (Z.even i)) 0 = true) by (vm_compute; reflexivity).
    pose proof (upto_ok _ _ _ C i ltac:(lia)) as E. apply eqb_prop in E. rewrite andb_true_r. exact E.
  - rewrite (bit_high _ 64) by lia. now rewrite andb_false_r.
Qed.

Definition raw64 (v : Z) : Z := let raw := Z.land v 6148914691236517205 in Z.lor raw (Z.shiftr raw 15).

Lemma raw64_bits : forall v, 0 <= v < 2 ^ 62 -> 0 <= raw64 v /\
  forall j, 0 <= j < 64 -> Z.testbit (raw64 v) (2 * j) = Z.testbit v (2 * j) /\ Z.testbit (raw64 v) (2 * j + 1) = Z.testbit v (16 + 2 * j).
Proof.
  intros v Hv. split. { unfold raw64. apply Z.lor_nonneg. rewrite Z.shiftr_nonneg, Z.land_nonneg. lia. }
  intros j Hj. unfold raw64. rewrite !Z.lor_spec, !Z.shiftr_spec, !Z.land_spec, !mask64 by lia.
  replace (2 * j + 1 + 15) with (2 * (j + 8)) by lia. replace (2 * j + 15) with (2 * (j + 7) + 1) by lia.
  rewrite !Z.even_mul. rewrite !Z.even_add, !Z.even_mul. cbn [Z.even orb andb Bool.eqb].
  rewrite !andb_false_r, orb_false_r. replace (16 + 2 * j) with (2 * (j + 8)) by lia. rewrite orb_false_l.
  split.
  - destruct (Z.ltb_spec (2 * j) 64); [apply andb_true_r|]. rewrite (bit_high v 62) by lia. reflexivity.
  - destruct (Z.ltb_spec (2 * (j + 8)) 64); [apply andb_true_r|]. rewrite (bit_high v 62) by lia. reflexivity.
Qed.

Lemma compress64_spec : forall v, 0 <= v < 2 ^ 62 -> exists w, compress_bits64 v = Ok w /\ odd_free w v.
Proof.
  intros v Hv. destruct (raw64_bits v Hv) as [R B]. unfold compress_bits64. fold (raw64 v). cbv zeta.
  change (Z.lor (Z.land v 6148914691236517205) (Z.shiftr (Z.land v 6148914691236517205) 15)) with (raw64 v).
  set (raw := raw64 v) in *.
  destruct (ctab_bits _ (land_255 raw)) as (a & -> & Ra & Ba). cbn [bind].
  destruct (ctab_bits _ (land_255 (Z.shiftr raw 8))) as (b & -> & Rb & Bb). cbn [bind].
  destruct (ctab_bits _ (land_255 (Z.shiftr raw 32))) as (c & -> & Rc & Bc). cbn [bind].
  destruct (ctab_bits _ (land_255 (Z.shiftr raw 40))) as (d & -> & Rd & Bd). cbn [bind].
  eexists. split; [reflexivity|]. split; [rewrite !Z.lor_nonneg, !Z.shiftl_nonneg; lia|].
  intros j Hj. rewrite !Z.lor_spec, !Z.shiftl_spec by lia. rewrite Ba, Bb, Bc, Bd. unfold cbit.
  assert (S: forall s i, 0 <= s -> 0 <= i < 8 -> Z.testbit (Z.land (Z.shiftr raw s) 255) i = Z.testbit raw (i + s)).
  { intros s i Hs Hi. rewrite land_255_bit by lia. rewrite Z.shiftr_spec by lia. now rewrite (proj2 (Z.ltb_lt i 8)) by lia. }
  assert (S0: forall i, 0 <= i < 8 -> Z.testbit (Z.land raw 255) i = Z.testbit raw i).
  { intros i Hi. rewrite land_255_bit by lia. now rewrite (proj2 (Z.ltb_lt i 8)) by lia. }
  assert (K: j < 4 \/ 4 <= j < 8 \/ 8 <= j < 12 \/ 12 <= j < 16 \/ 16 <= j < 20 \/ 20 <= j < 24 \/ 24 <= j < 28 \/ 28 <= j < 32 \/ 32 <= j) by lia.
  Ltac settle := repeat match goal with |- context [?x <? ?y] =>
     first [rewrite (proj2 (Z.ltb_lt x y)) by lia | rewrite (proj2 (Z.ltb_ge x y)) by lia] end; rewrite ?orb_false_r, ?orb_false_l.
  destruct K as [K|[K|[K|[K|[K|[K|[K|[K|K]]]]]]]]; settle.
  - rewrite S0 by lia. apply B; lia.
  - rewrite S by lia. replace (2 * (j - 4) + 8) with (2 * j) by lia. apply B; lia.
  - rewrite S0 by lia. replace (2 * j) with (16 + 2 * (j - 8)) by lia. apply B; lia.
  - rewrite S by lia. replace (2 * (j - 4 - 8) + 1 + 8) with (2 * (j - 8) + 1) by lia. replace (2 * j) with (16 + 2 * (j - 8)) by lia. apply B; lia.
  - rewrite S by lia. replace (2 * (j - 16) + 32) with (2 * j) by lia. apply B; lia.
  - rewrite S by lia. replace (2 * (j - 20) + 40) with (2 * j) by lia. apply B; lia.
  - rewrite S by lia. replace (2 * (j - 16 - 8) + 1 + 32) with (2 * (j - 8) + 1) by lia. replace (2 * j) with (16 + 2 * (j - 8)) by lia. apply B; lia.
  - rewrite S by lia. replace (2 * (j - 20 - 8) + 1 + 40) with (2 * (j - 8) + 1) by lia. replace (2 * j) with (16 + 2 * (j - 8)) by lia. apply B; lia.
  - rewrite (bit_high v 62) by lia. reflexivity.
Qed.

Lemma spread64_spec : forall x, 0 <= x < 2 ^ 32 -> exists v, spread_bits64 x = Ok v /\ even_bits v x.
Proof.
  intros x Hx. unfold spread_bits64.
  destruct (utab_at _ (land_255 x)) as (a & -> & Ra & Ba). cbn [bind].
  destruct (utab_at _ (land_255 (Z.shiftr x 8))) as (b & -> & Rb & Bb). cbn [bind].
  destruct (utab_at _ (land_255 (Z.shiftr x 16))) as (c & -> & Rc & Bc). cbn [bind].
  destruct (utab_at _ (land_255 (Z.shiftr x 24))) as (d & -> & Rd & Bd). cbn [bind].
  exists (Z.lor (Z.lor (Z.lor a (Z.shiftl b 16)) (Z.shiftl c 32)) (Z.shiftl d 48)). split; [reflexivity|].
  assert (E: Z.lor (Z.lor (Z.lor a (Z.shiftl b 16)) (Z.shiftl c 32)) (Z.shiftl d 48) =
             Z.lor a (Z.shiftl (Z.lor b (Z.shiftl (Z.lor c (Z.shiftl d 16)) 16)) 16)).
  { rewrite !Z.shiftl_lor, !Z.shiftl_shiftl by lia. rewrite !Z.lor_assoc. reflexivity. }
  rewrite E. assert (T: forall z s, Z.shiftr (Z.shiftr z s) 8 = Z.shiftr z (s + 8) \/ s < 0) by (intros z s; destruct (Z.lt_ge_cases s 0); [tauto|left; apply Z.shiftr_shiftr; lia]).
  apply even_glue; [lia|split; [lia|assumption]| |reflexivity].
  apply even_glue; [lia|split; [lia|assumption]| |reflexivity].
  destruct (T x 8) as [->|]; [|lia]. change (8 + 8) with 16.
  apply even_glue; [lia|split; [lia|assumption]| |reflexivity].
  destruct (T x 16) as [->|]; [|lia]. change (16 + 8) with 24.
  split; [lia|]. intros j Hj. destruct (Bd j Hj) as [D1 D2]. rewrite D1, D2. split; [|reflexivity].
  rewrite land_255_bit by lia. destruct (Z.ltb_spec j 8); [reflexivity|].
  rewrite (bit_high _ 8); [reflexivity| |lia]. apply (shiftr_small x 24 8); lia.
Qed.

Lemma lor_sum : forall v w x y, even_bits v x -> even_bits w y -> Z.lor v (Z.shiftl w 1) = v + Z.shiftl w 1.
Proof.
  intros v w x y [V0 V] [W0 W]. symmetry. rewrite <- Z.lxor_lor; [apply Z.add_nocarry_lxor|]; 
  apply Z.bits_inj'; intros j Hj; rewrite Z.land_spec, Z.bits_0, Z.shiftl_spec by lia;
  (destruct (Z.Even_or_Odd j) as [[i ->]|[i ->]];
   [destruct (Z.eq_dec i 0) as [->|N]; [rewrite (Z.testbit_neg_r w) by lia; apply andb_false_r|
    replace (2 * i - 1) with (2 * (i - 1) + 1) by lia; destruct (W (i - 1) ltac:(lia)) as [_ ->]; apply andb_false_r]
   | destruct (V i ltac:(lia)) as [_ ->]; reflexivity]).
Qed.

Lemma xyf2nest64_spec : forall nside x y f, 0 <= x < 2 ^ 31 -> 0 <= y < 2 ^ 31 ->
  exists q, xyf2nest64 nside x y f = Ok (f * nside * nside + q) /\ interleaved q x y.
Proof.
  intros nside x y f Hx Hy. unfold xyf2nest64.
  destruct (spread64_spec x ltac:(lia)) as (a & -> & A). destruct (spread64_spec y ltac:(lia)) as (b & -> & B). cbn [bind].
  exists (Z.lor a (Z.shiftl b 1)). split; [|apply interleave_lor; assumption].
  rewrite (lor_sum a b x y A B). f_equal. lia.
Qed.

Lemma nest2xyf64_spec : forall a p, 0 <= a <= 29 -> valid_pixel (2 ^ a) p ->
  exists x y f, nest2xyf64 (2 ^ a) p = Ok (x, y, f) /\ on_grid (2 ^ a) x y f /\
    interleaved (p mod (2 ^ a * 2 ^ a)) x y /\ f = p / (2 ^ a * 2 ^ a).
Proof.
  intros a p Ha Hp. unfold valid_pixel in Hp. unfold nest2xyf64.
  assert (P1: 0 < 2 ^ a * 2 ^ a) by (apply Z.mul_pos_pos; apply Z.pow_pos_nonneg; lia).
  assert (P2: 2 ^ a * 2 ^ a <= 2 ^ 58).
  { rewrite square_bits by lia. apply Z.pow_le_mono_r; lia. }
  rewrite land_face by lia. set (q := p mod (2 ^ a * 2 ^ a)).
  assert (Q: 0 <= q < 2 ^ a * 2 ^ a) by (apply Z.mod_pos_bound; assumption).
  destruct (compress64_spec q) as (x & -> & X); [lia|]. cbn [bind].
  destruct (compress64_spec (Z.shiftr q 1)) as (y & -> & Y).
  { rewrite Z.shiftr_div_pow2 by lia. change (2 ^ 1) with 2. lia. }
  cbn [bind]. pose proof (odd_free_parts x y q X Y ltac:(lia)) as I.
  destruct (coord_bound a q x y ltac:(lia) Q (proj1 X) (proj1 Y) I) as [Bx By].
  rewrite Z.quot_div_nonneg by lia.
  eexists x, y, _. split; [reflexivity|]. split; [|split; [exact I|reflexivity]].
  destruct X as [X0 _], Y as [Y0 _]. unfold on_grid. split; [lia|]. split; [lia|].
  split; [apply Z.div_pos; lia|]. apply Z.div_lt_upper_bound; lia.
Qed.

Lemma nest_encode64 : forall nside x y f, power_of_two_upto 29 nside -> on_grid nside x y f ->
  exists q, xyf2nest64 nside x y f = Ok (f * nside * nside + q) /\ interleaved q x y /\
    valid_pixel nside (f * nside * nside + q) /\ nest2xyf64 nside (f * nside * nside + q) = Ok (x, y, f).
Proof.
  intros nside x y f (a & Ha & ->) (Hx & Hy & Hf).
  assert (P: 2 ^ a <= 2 ^ 29) by (apply Z.pow_le_mono_r; lia).
  destruct (xyf2nest64_spec (2 ^ a) x y f) as (q & E & I); [lia|lia|].
  exists q. split; [exact E|]. split; [exact I|].
  assert (Q: 0 <= q < 2 ^ a * 2 ^ a) by (apply (interleaved_bound q x y a); [lia|assumption..]).
  rewrite <- Z.mul_assoc. set (N := 2 ^ a * 2 ^ a) in *.
  assert (V: valid_pixel (2 ^ a) (f * N + q)).
  { unfold valid_pixel. rewrite <- Z.mul_assoc. fold N. nia. }
  split; [exact V|].
  destruct (nest2xyf64_spec a (f * N + q) Ha V) as (x' & y' & f' & E' & _ & I' & F'). fold N in I', F'.
  rewrite E'. rewrite Z.add_comm, Z.mod_add, Z.mod_small in I' by lia.
  rewrite Z.add_comm, Z.div_add, Z.div_small in F' by lia. destruct (interleaved_inj _ _ _ _ _ I I') as [-> ->].
  rewrite F'. reflexivity.
Qed.

Lemma nest_decode64 : forall nside p, power_of_two_upto 29 nside -> valid_pixel nside p ->
  exists x y f, nest2xyf64 nside p = Ok (x, y, f) /\ on_grid nside x y f /\ xyf2nest64 nside x y f = Ok p.
Proof.
  intros nside p (a & Ha & ->) V. destruct (nest2xyf64_spec a p Ha V) as (x & y & f & E & G & I & F).
  exists x, y, f. split; [exact E|]. split; [exact G|].
  assert (P: 2 ^ a <= 2 ^ 29) by (apply Z.pow_le_mono_r; lia). destruct G as (Gx & Gy & Gf).
  destruct (xyf2nest64_spec (2 ^ a) x y f) as (q & Eq & Iq); [lia|lia|].
  rewrite Eq. rewrite <- Z.mul_assoc. set (N := 2 ^ a * 2 ^ a) in *.
  rewrite (interleaved_fun _ _ _ _ Iq I), F. f_equal. pose proof (Z.div_mod p N). assert (N <> 0) by (unfold N; nia). lia.
Qed.

(** The two widths agree wherever the narrow one is usable. *)
Lemma nest_agree : forall nside x y f, power_of_two_upto 13 nside -> on_grid nside x y f -> xyf2nest64 nside x y f = xyf2nest nside x y f.
Proof.
  intros nside x y f H G. destruct (nest_encode nside x y f H G) as (q & -> & I & _).
  destruct H as (a & Ha & ->). destruct (nest_encode64 (2 ^ a) x y f) as (q' & -> & I' & _); [exists a; lia|assumption|].
  now rewrite (interleaved_fun _ _ _ _ I I').
Qed.
Lemma unnest_agree : forall nside p, power_of_two_upto 13 nside -> valid_pixel nside p -> nest2xyf64 nside p = nest2xyf nside p.
Proof.
  intros nside p (a & Ha & ->) V. destruct (nest2xyf_spec a p Ha V) as (x & y & f & -> & _ & I & ->).
  destruct (nest2xyf64_spec a p ltac:(lia) V) as (x' & y' & f' & -> & _ & I' & ->).
  destruct (interleaved_inj _ _ _ _ _ I I') as [-> ->]. reflexivity.
Qed.
