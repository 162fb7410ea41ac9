(** Runs of skysep_h in binary64 with made-up libraries. *)
From Coq Require Import ZArith Bool.
From Flocq Require Import IEEE754.BinarySingleNaN.
From Verif Require Import CLib FloatModel ArithModel GeoModel.

(** A sine that is not odd. *)
Definition skew : libm := mk_libm (fun x => if flt x (round_ratio 0 1) then round_ratio 1 1 else round_ratio 0 1) (fun x => x) (fun x => x) (fun x => x) (fun x => x) (fun y x => y) (fun y x => y).
Lemma odd_needed : exists m, B2SF (skysep_h (machine m) (round_ratio 0 1) (round_ratio 0 1) (round_ratio 0 1) (round_ratio 1 1)) <>
  B2SF (skysep_h (machine m) (round_ratio 0 1) (round_ratio 1 1) (round_ratio 0 1) (round_ratio 0 1)).
Proof. exists skew. vm_compute. discriminate. Qed.
(** The identity in place of every function of one argument. *)
Definition flat : libm := mk_libm (fun x => x) (fun x => x) (fun x => x) (fun x => x) (fun x => x) (fun y x => y) (fun y x => y).
Lemma odd_library : exists m, (forall x, m_sin m (fopp x) = fopp (m_sin m x)) /\ m_sin m (B754_zero false) = B754_zero false /\
  B2SF (skysep_h (machine m) (round_ratio 0 1) (round_ratio 0 1) (round_ratio 0 1) (round_ratio 1 1)) <> B2SF (B754_zero false : b64).
Proof. exists flat. split; [reflexivity|]. split; [reflexivity|]. vm_compute. discriminate. Qed.
