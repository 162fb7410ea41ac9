(** The clock fields of [clock]: accuracy for every day fraction. *)
From Coq Require Import ZArith List Bool Lia Reals Lra.
From Flocq Require Import Core IEEE754.BinarySingleNaN.
From Verif Require Import CLib FloatModel FloatLemmas CalendarModel CalendarSpec CalendarProofs1 CalendarProofs2 CalendarProofs3.
Import ListNotations.
Open Scope R_scope.

Lemma to_int_R : forall x, fin x -> (-2147483648 <= Ztrunc (toR x) <= 2147483647)%Z -> to_int x = Ok (Ztrunc (toR x)).
Proof.
  intros x F H. unfold to_int. unfold fin in F. rewrite F, Btrunc_R. unfold chk_int, in_int, int_min, int_max.
  replace ((-2147483648 <=? Ztrunc (toR x)) && (Ztrunc (toR x) <=? 2147483647))%Z with true; [reflexivity|].
  symmetry. apply andb_true_iff. rewrite !Z.leb_le. exact H.
Qed.

Lemma mul_err : forall x c e b, fin x -> (Z.abs c <= 2 ^ 53)%Z -> (-1000 <= e < 1024)%Z -> Rabs (toR x * IZR c) <= b -> b <= bpow radix2 e ->
  fin (fmul x (of_int c)) /\ toR x * IZR c - bpow radix2 (e - 54) <= toR (fmul x (of_int c)) <= toR x * IZR c + bpow radix2 (e - 54).
Proof.
  intros x c e b F Hc He H Hb. destruct (of_int_R c Hc) as [Fc Ec].
  destruct (fmul_R x (of_int c) e F Fc) as [Fm Em]; [lia|rewrite Ec; lra|].
  split; [exact Fm|]. rewrite Em, Ec. now apply (err_abs _ e b).
Qed.

Lemma sub_quot_err : forall x h d b e1 e2, fin x -> (Z.abs h <= 2 ^ 53)%Z -> (0 < d <= 2 ^ 53)%Z -> (-1000 <= e1 < 1024)%Z -> (-1000 <= e2 < 1024)%Z ->
  Rabs (IZR h / IZR d) <= bpow radix2 e1 ->
  Rabs (toR x - IZR h / IZR d) <= b -> b + bpow radix2 (e1 - 54) <= bpow radix2 e2 ->
  fin (fsub x (fdiv (of_int h) (of_int d))) /\
  Rabs (toR (fsub x (fdiv (of_int h) (of_int d))) - (toR x - IZR h / IZR d)) <= bpow radix2 (e1 - 54) + bpow radix2 (e2 - 54).
Proof.
  intros x h d b e1 e2 F Hh Hd He1 He2 Hq Hb Hs.
  destruct (lit_R h d e1 Hh Hd ltac:(lia) Hq) as [Fl El]. unfold lit in Fl, El.
  pose proof (RN_err _ e1 ltac:(lia) Hq) as E1. rewrite <- El in E1.
  set (q := fdiv (of_int h) (of_int d)) in *. apply Rabs_le_inv in E1. apply Rabs_le_inv in Hb.
  assert (Hx: Rabs (toR x - toR q) <= bpow radix2 e2) by (apply Rabs_le; lra).
  destruct (fsub_R x q e2 F Fl ltac:(lia) Hx) as [Fs Es].
  split; [exact Fs|]. rewrite Es. pose proof (RN_err _ e2 ltac:(lia) Hx) as E2. apply Rabs_le_inv in E2. apply Rabs_le. lra.
Qed.

(** Truncation of an approximation [x] of [r], both nonnegative up to the error. *)
Lemma trunc_close : forall x r e, -1 < x -> Rabs (x - r) <= e ->
  (0 <= Ztrunc x)%Z /\ r < IZR (Ztrunc x) + 1 + e /\ (0 <= x -> IZR (Ztrunc x) <= r + e) /\ (x < 0 -> Ztrunc x = 0%Z).
Proof.
  intros x r e H E. apply Rabs_le_inv in E. destruct (trunc_bounds x) as [T1 T2].
  destruct (Rle_dec 0 x) as [P|P].
  - specialize (T1 P). split; [|split; [lra|split; [lra|lra]]].
    assert (-1 < Ztrunc x)%Z; [|lia]. apply lt_IZR. lra.
  - assert (Z0: Ztrunc x = 0%Z).
    { rewrite Ztrunc_ceil by lra. apply Zceil_imp. change (IZR (0 - 1)) with (-1). lra. }
    rewrite Z0. split; [lia|]. split; [lra|]. split; [lra|reflexivity].
Qed.

Lemma clock_close : forall f, fin f -> 0 <= toR f < 1 ->
  exists h mm s, clock f = Ok (h, mm, s) /\ (0 <= h <= 24 /\ 0 <= mm <= 60 /\ 0 <= s <= 60)%Z /\
    IZR (3600 * h + 60 * mm + s) <= 86400 * toR f + 6.5 / 1000000000000 /\
    86400 * toR f < IZR (3600 * h + 60 * mm + s) + 1 + 6.5 / 1000000000000.
Proof.
  intros f F B. unfold clock.
  (* hours *)
  destruct (mul_err f 24 5 24 F) as [F1 B1]; [lia|lia|apply Rabs_le; lra|change (bpow radix2 5) with 32; lra|].
  change (bpow radix2 (5 - 54)) with (/ 562949953421312) in B1.
  set (x1 := fmul f (of_int 24)) in *.
  destruct (trunc_close (toR x1) (toR f * 24) (/ 562949953421312)) as (H0 & H1 & H2 & H3); [lra|apply Rabs_le; lra|].
  assert (X1: (0 <= Ztrunc (toR x1) <= 24)%Z).
  { split; [exact H0|]. destruct (Rle_dec 0 (toR x1)) as [P|P]; [|rewrite H3 by lra; lia].
    specialize (H2 P). assert (Ztrunc (toR x1) < 25)%Z; [|lia]. apply lt_IZR. lra. }
  rewrite (to_int_R x1 F1) by lia. cbn [bind].
  set (h := Ztrunc (toR x1)) in *.
  assert (L1: IZR h <= toR f * 24 + / 562949953421312).
  { destruct (Rle_dec 0 (toR x1)) as [P|P]; [now apply H2|]. rewrite H3; lra. }
  assert (Bh: 0 <= IZR h <= 24) by (split; [apply (IZR_le 0)|apply (IZR_le _ 24)]; lia).
  destruct (sub_quot_err f h 24 0.042 0 (-4) F) as [F2 B2]; try lia.
  { cbn [bpow]. apply Rabs_le. lra. }
  { apply Rabs_le. lra. }
  { change (bpow radix2 (0 - 54)) with (/ 18014398509481984). change (bpow radix2 (-4)) with (/ 16). lra. }
  change (bpow radix2 (0 - 54)) with (/ 18014398509481984) in B2.
  change (bpow radix2 (-4 - 54)) with (/ 288230376151711744) in B2.
  set (g := fsub f (fdiv (of_int h) (of_int 24))) in *. apply Rabs_le_inv in B2.
  (* minutes *)
  destruct (mul_err g 1440 6 61 F2) as [F3 B3]; [lia|lia|apply Rabs_le; lra|change (bpow radix2 6) with 64; lra|].
  change (bpow radix2 (6 - 54)) with (/ 281474976710656) in B3.
  set (x2 := fmul g (of_int 1440)) in *.
  destruct (trunc_close (toR x2) (toR g * 1440) (/ 281474976710656)) as (M0 & M1 & M2 & M3); [lra|apply Rabs_le; lra|].
  assert (X2: (0 <= Ztrunc (toR x2) <= 60)%Z).
  { split; [exact M0|]. destruct (Rle_dec 0 (toR x2)) as [P|P]; [|rewrite M3 by lra; lia].
    specialize (M2 P). assert (Ztrunc (toR x2) < 61)%Z; [|lia]. apply lt_IZR. lra. }
  rewrite (to_int_R x2 F3) by lia. cbn [bind].
  set (mm := Ztrunc (toR x2)) in *.
  assert (L2: IZR mm <= Rmax (toR g * 1440 + / 281474976710656) 0).
  { destruct (Rle_dec 0 (toR x2)) as [P|P]; [eapply Rle_trans; [now apply M2|apply Rmax_l]|]. rewrite M3 by lra. apply Rmax_r. }
  assert (Lk: - (/ 280000000000000) <= toR g * 1440 - IZR mm \/ (IZR mm = 0 /\ toR g * 1440 <= 0)).
  { unfold Rmax in L2. destruct (Rle_dec _ _) in L2; [right|left; lra].
    assert (mm = 0%Z) as -> by (apply Z.le_antisymm; [apply le_IZR; lra|lia]). split; [reflexivity|]. lra. }
  assert (Lm: toR g * 1440 - IZR mm < 1 + / 281474976710656) by lra.
  assert (Lg: - / 5000000000000000 <= toR g) by lra.
  assert (Bm: 0 <= IZR mm <= 60) by (split; [apply (IZR_le 0)|apply (IZR_le _ 60)]; lia).
  assert (Lk': - / 3000000000000 <= toR g * 1440 - IZR mm) by (destruct Lk as [Lk|[Lk1 Lk2]]; lra).
  destruct (sub_quot_err g mm 1440 0.0007 (-4) (-10) F2) as [F4 B4]; try lia.
  { change (bpow radix2 (-4)) with (/ 16). apply Rabs_le. lra. }
  { apply Rabs_le. lra. }
  { change (bpow radix2 (-4 - 54)) with (/ 288230376151711744). change (bpow radix2 (-10)) with (/ 1024). lra. }
  change (bpow radix2 (-4 - 54)) with (/ 288230376151711744) in B4.
  change (bpow radix2 (-10 - 54)) with (/ 18446744073709551616) in B4.
  set (k := fsub g (fdiv (of_int mm) (of_int 1440))) in *. apply Rabs_le_inv in B4.
  (* seconds *)
  destruct (mul_err k 86400 6 61 F4) as [F5 B5]; [lia|lia|apply Rabs_le; lra|change (bpow radix2 6) with 64; lra|].
  change (bpow radix2 (6 - 54)) with (/ 281474976710656) in B5.
  set (x3 := fmul k (of_int 86400)) in *.
  destruct (trunc_close (toR x3) (toR k * 86400) (/ 281474976710656)) as (S0 & S1 & S2 & S3); [lra|apply Rabs_le; lra|].
  assert (X3: (0 <= Ztrunc (toR x3) <= 60)%Z).
  { split; [exact S0|]. destruct (Rle_dec 0 (toR x3)) as [P|P]; [|rewrite S3 by lra; lia].
    specialize (S2 P). assert (Ztrunc (toR x3) < 61)%Z; [|lia]. apply lt_IZR. lra. }
  rewrite (to_int_R x3 F5) by lia. cbn [bind].
  set (s := Ztrunc (toR x3)) in *.
  exists h, mm, s. split; [reflexivity|]. split; [tauto|].
  rewrite !plus_IZR, !mult_IZR.
  split.
  - destruct (Rle_dec 0 (toR x3)) as [P|P].
    + specialize (S2 P). lra.
    + rewrite S3 by lra.
      destruct Lk as [Lk|[Lk1 Lk2]]; [lra|]. rewrite Lk1. lra.
  - lra.
Qed.
