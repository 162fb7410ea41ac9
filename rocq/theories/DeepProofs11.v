(** The slow acceleration of the mean motion in the resonances. *)
From Coq Require Import ZArith List Reals Lra Lia Psatz Bool.
From Flocq Require Import Core.
From Verif Require Import CLib ArithModel GeoLemmas TrigBounds OrbModel DeepModel DeepSpec.
Import ListNotations.
Open Scope R_scope.

(** ** Enclosures of sines and cosines *)
Lemma double x C S E : Rabs (cos x - C) <= E -> Rabs (sin x - S) <= E -> -1 <= C <= 1 -> -1 <= S <= 1 ->
  Rabs (cos (2 * x) - (C * C - S * S)) <= 4 * E + 2 * E * E /\ Rabs (sin (2 * x) - 2 * S * C) <= 4 * E + 2 * E * E.
Proof.
  intros H1 H2 H3 H4. rewrite sin_2a. replace (cos (2 * x)) with (cos x * cos x - sin x * sin x) by (rewrite cos_2a; ring).
  set (c := cos x - C) in *. set (s := sin x - S) in *.
  assert (0 <= E) by (assert (K := Rabs_pos c); lra).
  replace (cos x) with (C + c) by (unfold c; ring). replace (sin x) with (S + s) by (unfold s; ring).
  assert (L : forall u v, -1 <= u <= 1 -> Rabs v <= E -> Rabs (u * v) <= E).
  { intros u v U V. rewrite Rabs_mult. assert (Rabs u <= 1) by (apply Rabs_le; lra). assert (K := Rabs_pos u). assert (K' := Rabs_pos v). nra. }
  assert (M : forall u v, Rabs u <= E -> Rabs v <= E -> Rabs (u * v) <= E * E).
  { intros u v U V. rewrite Rabs_mult. apply Rmult_le_compat; auto using Rabs_pos. }
  assert (L1 := L C c H3 H1). assert (L2 := L S s H4 H2). assert (L3 := L C s H3 H2). assert (L4 := L S c H4 H1).
  assert (M1 := M c c H1 H1). assert (M2 := M s s H2 H2). assert (M3 := M c s H1 H2).
  apply Rabs_le_inv in L1, L2, L3, L4, M1, M2, M3.
  split; apply Rabs_le; split; lra.
Qed.
Lemma base_G22 : Rabs (cos (14421599 / 10000000) - 0.1282819552927853053074) <= 1 / 10000000000000000000 /\ Rabs (sin (14421599 / 10000000) - 0.9917377374821731730481) <= 1 / 10000000000000000000.
Proof.
  assert (A := cos_box 10000000000000000000000000 14421599 10000000 6 1282819552927853052074000 1282819552927853054074000 ltac:(vm_compute; reflexivity)).
  assert (B := sin_box 10000000000000000000000000 14421599 10000000 6 9917377374821731729481000 9917377374821731731481000 ltac:(vm_compute; reflexivity)).
  split; apply Rabs_le; split; lra.
Qed.
Lemma near_G22 : Rabs ((87051638752972937 / 100000000000000000) - cos G22) <= 4 / 10000000000000000 /\ Rabs ((-49213943048915526 / 100000000000000000) - sin G22) <= 4 / 10000000000000000.
Proof.
  destruct base_G22 as [A B]. destruct (double _ _ _ _ A B ltac:(lra) ltac:(lra)) as [A1 B1].
  apply Rabs_le_inv in A1, B1.
  assert (A2 : Rabs (cos (2 * (14421599 / 10000000)) - (-0.9670874798925196643881)) <= 1 / 1000000000000000000) by (apply Rabs_le; split; lra).
  assert (B2 : Rabs (sin (2 * (14421599 / 10000000)) - 0.2544441122037123770816) <= 1 / 1000000000000000000) by (apply Rabs_le; split; lra).
  destruct (double _ _ _ _ A2 B2 ltac:(lra) ltac:(lra)) as [A3 B3].
  replace G22 with (2 * (2 * (14421599 / 10000000))) by (unfold G22; lra). apply Rabs_le_inv in A3, B3. split; apply Rabs_le; split; lra.
Qed.
Lemma base_G32 : Rabs (cos (95240898 / 100000000) - 0.5797219018700114926343) <= 1 / 10000000000000000000 /\ Rabs (sin (95240898 / 100000000) - 0.8148144061638924934598) <= 1 / 10000000000000000000.
Proof.
  assert (A := cos_box 10000000000000000000000000 95240898 100000000 6 5797219018700114925343000 5797219018700114927343000 ltac:(vm_compute; reflexivity)).
  assert (B := sin_box 10000000000000000000000000 95240898 100000000 6 8148144061638924933598000 8148144061638924935598000 ltac:(vm_compute; reflexivity)).
  split; apply Rabs_le; split; lra.
Qed.
Lemma near_G32 : Rabs ((57972190187001149 / 100000000000000000) - cos G32) <= 4 / 10000000000000000 /\ Rabs ((81481440616389245 / 100000000000000000) - sin G32) <= 4 / 10000000000000000.
Proof.
  replace G32 with (95240898 / 100000000) by (unfold G32; lra). destruct base_G32 as [A B].
  apply Rabs_le_inv in A, B. split; apply Rabs_le; split; lra.
Qed.
Lemma base_G44 : Rabs (cos (9007499 / 10000000) - 0.6210223766950127044743) <= 1 / 10000000000000000000 /\ Rabs (sin (9007499 / 10000000) - 0.7837928346470626809358) <= 1 / 10000000000000000000.
Proof.
  assert (A := cos_box 10000000000000000000000000 9007499 10000000 6 6210223766950127043743000 6210223766950127045743000 ltac:(vm_compute; reflexivity)).
  assert (B := sin_box 10000000000000000000000000 9007499 10000000 6 7837928346470626808358000 7837928346470626810358000 ltac:(vm_compute; reflexivity)).
  split; apply Rabs_le; split; lra.
Qed.
Lemma near_G44 : Rabs ((-22866241528815548 / 100000000000000000) - cos G44) <= 4 / 10000000000000000 /\ Rabs ((97350577801807991 / 100000000000000000) - sin G44) <= 4 / 10000000000000000.
Proof.
  destruct base_G44 as [A B]. destruct (double _ _ _ _ A B ltac:(lra) ltac:(lra)) as [A1 B1].
  replace G44 with (2 * (9007499 / 10000000)) by (unfold G44; lra). apply Rabs_le_inv in A1, B1. split; apply Rabs_le; split; lra.
Qed.
Lemma base_G52 : Rabs (cos (1050833 / 1000000) - 0.4968483117988418776934) <= 1 / 10000000000000000000 /\ Rabs (sin (1050833 / 1000000) - 0.8678374012812773460467) <= 1 / 10000000000000000000.
Proof.
  assert (A := cos_box 10000000000000000000000000 1050833 1000000 6 4968483117988418775934000 4968483117988418777934000 ltac:(vm_compute; reflexivity)).
  assert (B := sin_box 10000000000000000000000000 1050833 1000000 6 8678374012812773459467000 8678374012812773461467000 ltac:(vm_compute; reflexivity)).
  split; apply Rabs_le; split; lra.
Qed.
Lemma near_G52 : Rabs ((49684831179884198 / 100000000000000000) - cos G52) <= 4 / 10000000000000000 /\ Rabs ((86783740128127729 / 100000000000000000) - sin G52) <= 4 / 10000000000000000.
Proof.
  replace G52 with (1050833 / 1000000) by (unfold G52; lra). destruct base_G52 as [A B].
  apply Rabs_le_inv in A, B. split; apply Rabs_le; split; lra.
Qed.
Lemma base_G54 : Rabs (cos (110272245 / 100000000) - 0.4511681759794585029974) <= 1 / 10000000000000000000 /\ Rabs (sin (110272245 / 100000000) - 0.8924389486028544930258) <= 1 / 10000000000000000000.
Proof.
  assert (A := cos_box 10000000000000000000000000 110272245 100000000 6 4511681759794585028974000 4511681759794585030974000 ltac:(vm_compute; reflexivity)).
  assert (B := sin_box 10000000000000000000000000 110272245 100000000 6 8924389486028544929258000 8924389486028544931258000 ltac:(vm_compute; reflexivity)).
  split; apply Rabs_le; split; lra.
Qed.
Lemma near_G54 : Rabs ((-29695209575316894 / 100000000000000000) - cos G54) <= 4 / 10000000000000000 /\ Rabs ((-95489237761529999 / 100000000000000000) - sin G54) <= 4 / 10000000000000000.
Proof.
  destruct base_G54 as [A B]. destruct (double _ _ _ _ A B ltac:(lra) ltac:(lra)) as [A1 B1].
  apply Rabs_le_inv in A1, B1.
  assert (A2 : Rabs (cos (2 * (110272245 / 100000000)) - (-0.5928945539667367269390)) <= 1 / 1000000000000000000) by (apply Rabs_le; split; lra).
  assert (B2 : Rabs (sin (2 * (110272245 / 100000000)) - 0.8052801052283511560483) <= 1 / 1000000000000000000) by (apply Rabs_le; split; lra).
  destruct (double _ _ _ _ A2 B2 ltac:(lra) ltac:(lra)) as [A3 B3].
  replace G54 with (2 * (2 * (110272245 / 100000000))) by (unfold G54; lra). apply Rabs_le_inv in A3, B3. split; apply Rabs_le; split; lra.
Qed.
Lemma base_lambda31 : Rabs (cos (13130908 / 100000000) - 0.9913913426848859361622) <= 1 / 10000000000000000000 /\ Rabs (sin (13130908 / 100000000) - 0.1309320650164010083896) <= 1 / 10000000000000000000.
Proof.
  assert (A := cos_box 10000000000000000000000000 13130908 100000000 6 9913913426848859360622000 9913913426848859362622000 ltac:(vm_compute; reflexivity)).
  assert (B := sin_box 10000000000000000000000000 13130908 100000000 6 1309320650164010082896000 1309320650164010084896000 ltac:(vm_compute; reflexivity)).
  split; apply Rabs_le; split; lra.
Qed.
Lemma near_lambda31 : Rabs ((99139134268488593 / 100000000000000000) - cos lambda31) <= 4 / 10000000000000000 /\ Rabs ((13093206501640101 / 100000000000000000) - sin lambda31) <= 4 / 10000000000000000.
Proof.
  replace lambda31 with (13130908 / 100000000) by (unfold lambda31; lra). destruct base_lambda31 as [A B].
  apply Rabs_le_inv in A, B. split; apply Rabs_le; split; lra.
Qed.
Lemma base_tri33 : Rabs (cos (112344261 / 100000000) - 0.4325811758576334663724) <= 1 / 10000000000000000000 /\ Rabs (sin (112344261 / 100000000) - 0.9015949901666641298834) <= 1 / 10000000000000000000.
Proof.
  assert (A := cos_box 10000000000000000000000000 112344261 100000000 6 4325811758576334662724000 4325811758576334664724000 ltac:(vm_compute; reflexivity)).
  assert (B := sin_box 10000000000000000000000000 112344261 100000000 6 9015949901666641297834000 9015949901666641299834000 ltac:(vm_compute; reflexivity)).
  split; apply Rabs_le; split; lra.
Qed.
Lemma near_tri33 : Rabs ((43258117585763334 / 100000000000000000) - cos (3 * lambda33)) <= 4 / 10000000000000000 /\ Rabs ((90159499016666422 / 100000000000000000) - sin (3 * lambda33)) <= 4 / 10000000000000000.
Proof.
  replace (3 * lambda33) with (112344261 / 100000000) by (unfold lambda33; lra). destruct base_tri33 as [A B].
  apply Rabs_le_inv in A, B. split; apply Rabs_le; split; lra.
Qed.
