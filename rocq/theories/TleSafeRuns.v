(** Lines outside the column layout that are decoded without undefined behaviour. *)
From Coq Require Import String ZArith List Lia QArith.
From Verif Require Import CLib TleModel TleSpec TleExamples TleSafeSpec TleSafeProofs.
Import ListNotations.
Open Scope Z_scope.

Ltac num := eexists; apply atoi_only; vm_compute; reflexivity.
(** A letter in the field of the eccentricity. *)
Definition odd2 : list Z := retype iss2 26 65.
Lemma iss_numbers : numbers_fit iss1.
Proof. split; [eexists; split; [apply atoi_only; vm_compute; reflexivity | vm_compute; discriminate]|]. split; num. Qed.
Lemma angle_at p k n : firstn (k + n) p = repeat 32 k ++ skipn k (firstn (k + n) p) -> nth (k + n) p 0 = 32 -> (k + n < length p)%nat -> (0 < n <= 9)%nat ->
  forallb (fun c => is_digit c || (c =? 46))%bool (skipn k (firstn (k + n) p)) = true -> an_angle p.
Proof.
  intros E N L B F. exists k, (skipn k (firstn (k + n) p)), (skipn (S (k + n)) p). split.
  - rewrite app_assoc, <- E. rewrite <- (firstn_skipn (k + n) p) at 1. f_equal. assert (X : skipn (k + n) p = nth (k + n) p 0 :: skipn (S (k + n)) p).
    { clear - L. revert L. generalize (k + n)%nat. intros m. revert m. induction p as [|c p IH]; intros m L; [cbn in L; lia|]. destruct m as [|m]; [reflexivity|]. cbn [skipn nth]. rewrite IH by (cbn in L; lia). destruct p; reflexivity. }
    rewrite X, N. reflexivity.
  - assert (Len : length (skipn k (firstn (k + n) p)) = n) by (rewrite skipn_length, firstn_length; lia). split; [intros C; rewrite C in Len; cbn in Len; lia|]. split.
    + apply Forall_forall. intros c I. rewrite forallb_forall in F. specialize (F c I). apply Bool.orb_true_iff in F. destruct F as [F|F]; [left; apply digit_b, F | right; apply Z.eqb_eq, F].
    + eapply Nat.le_trans; [|apply (proj2 B)]. rewrite <- Len at 2. generalize (skipn k (firstn (k + n) p)). intros l. induction l as [|c l IH]; [apply le_n|]. cbn [filter length]. destruct (negb (c =? 46)); cbn [length]; lia.
Qed.
Lemma odd_mean : mean_fits iss1 odd2.
Proof.
  split; [|split; [num|split; [num|split; [num|split; [right; split; [num | vm_compute; discriminate] | right; split; [num | vm_compute; discriminate]]]]]].
  constructor; [apply (angle_at _ 1 7) | constructor; [apply (angle_at _ 0 8) | constructor; [apply (angle_at _ 1 7) | constructor; [apply (angle_at _ 0 8) | constructor]]]]; try (vm_compute; reflexivity); try lia; vm_compute; repeat constructor.
Qed.
Lemma odd_parsed : exists s, parse_elements iss1 odd2 blank_tle = Ok (0, s).
Proof. eexists. vm_compute. reflexivity. Qed.
Lemma ex_number : number (bytes " -12.5") (-12).
Proof. apply atoi_only. reflexivity. Qed.
Lemma high_at p : ((col p 0 =? 43) || (col p 0 =? 45))%bool = true -> forallb (fun c => is_digit c || ((65 <=? c) && (c <=? 90)))%bool (firstn 8 (skipn 1 p)) = true -> a_high p.
Proof.
  intros S F. split; [apply Bool.orb_true_iff in S; destruct S as [S|S]; apply Z.eqb_eq in S; [left | right]; exact S|].
  apply Forall_forall. intros c I. rewrite forallb_forall in F. specialize (F c I). apply Bool.orb_true_iff in F.
  destruct F as [F|F]; [left; apply digit_b, F | right; apply andb_prop in F; destruct F as [F G]; apply Z.leb_le in F, G; split; assumption].
Qed.
Lemma high_numbers : numbers_fit high1.
Proof. split; [eexists; split; [apply atoi_only; vm_compute; reflexivity | vm_compute; discriminate]|]. split; num. Qed.
Lemma high_high : high_fits high1 high2.
Proof. constructor; [|constructor; [|constructor; [|constructor]]]; split; apply high_at; vm_compute; reflexivity. Qed.
