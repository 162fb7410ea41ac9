(** Lines whose decoding is defined and lines whose decoding is not. *)
From Coq Require Import String ZArith List Lia QArith.
From Verif Require Import CLib TleModel TleSpec TleExamples TleSafeSpec TleSafeRuns TleExactSpec TleExactProofs.
Import ListNotations.
Open Scope Z_scope.

Lemma ex_defined : tle_pair iss1 odd2 /\ fields_defined iss1 odd2.
Proof.
  assert (T : tle_pair iss1 odd2).
  { assert (A := proj1 (checked iss1 0 ltac:(vm_compute; repeat constructor) ltac:(vm_compute; reflexivity)) ltac:(lia)).
    assert (B := proj1 (checked odd2 0 ltac:(vm_compute; repeat constructor) ltac:(vm_compute; reflexivity)) ltac:(lia)).
    destruct A as ((_ & A1) & A2 & A3), B as ((_ & B1) & B2 & B3). split; (split; [reflexivity | auto]). }
  split; [exact T|]. apply (proj1 (parse_iff iss1 odd2 blank_tle ltac:(vm_compute; repeat constructor) ltac:(vm_compute; repeat constructor))); [|exact T].
  destruct odd_parsed as [s E]. exists 0, s. exact E.
Qed.
Lemma ex_undefined : ~ fields_defined bad_sci1 iss2.
Proof.
  intros F. destruct (proj2 (parse_iff bad_sci1 iss2 blank_tle ltac:(vm_compute; repeat constructor) ltac:(vm_compute; repeat constructor)) (fun _ => F)) as (c & s & E). vm_compute in E. discriminate E.
Qed.
Lemma ex_angle : some_angle (bytes "  12.A4 ") (1000 + 200 + 170 + 4).
Proof. apply angle_iff. vm_compute. reflexivity. Qed.
Lemma ex_decimal : leads (col (adv (retype iss1 7 51) 2) 0) 2 /\ Forall plain (firstn 4 (skipn 1 (adv (retype iss1 7 51) 2))) /\ number (skipn 1 (adv (retype iss1 7 51) 2)) 55443.
Proof.
  split; [right; split; [lia | reflexivity]|]. split; [|apply TleSafeProofs.atoi_only; vm_compute; reflexivity].
  vm_compute firstn. repeat (apply Forall_cons; [right; split; discriminate|]). apply Forall_nil.
Qed.
Lemma ex_other : forall d, leads (col (bytes "2A544") 0) d -> ~ Forall plain (firstn 4 (skipn 1 (bytes "2A544"))).
Proof. intros d _ F. vm_compute firstn in F. inversion F as [|? ? [P|[_ P]] _]; [discriminate P | vm_compute in P; apply P; reflexivity]. Qed.
