(** List lemmas missing from the standard library. *)
From Coq Require Import List Arith Lia.
Import ListNotations.

Lemma nth_skipn : forall (A : Type) (d : A) n l i, nth i (skipn n l) d = nth (n + i) l d.
Proof.
  induction n; intros l i; [reflexivity|].
  destruct l; cbn [skipn nth plus]; [destruct i; reflexivity|]. apply IHn.
Qed.

Lemma skipn_add : forall (A : Type) n m (l : list A), skipn n (skipn m l) = skipn (m + n) l.
Proof.
  intros A n m; revert n; induction m; intros n l; [reflexivity|].
  destruct l; cbn [skipn plus]; [now rewrite skipn_nil|]. apply IHm.
Qed.
