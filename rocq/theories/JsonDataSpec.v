(** What a reader of JSON (RFC 8259) finds in a text: the values, besides the grammar. *)
From Coq Require Import ZArith List Bool Reals.
From Flocq Require Import Core IEEE754.BinarySingleNaN.
From Verif Require Import CLib FloatModel JsonSpec DatefSpec.
Import ListNotations.
Open Scope Z_scope.

(** What is expected: a number up to an error, a string, an array, an object with its members in order, or any value at all. *)
Inductive tree := Num (x tol : R) | Str (s : list Z) | Arr (l : list tree) | Obj (l : list (list Z * tree)) | Any.

(** The number a text stands for: sign, digits, perhaps a point and digits. *)
Definition number_is (l : list Z) (v : R) : Prop :=
  exists (neg : bool) i f, l = (if neg then [45] else []) ++ i ++ match f with [] => [] | _ => 46 :: f end /\ jint i /\ Forall dig f /\
    (v = (if neg then -1 else 1) * (IZR (digits_value (i ++ f)) / 10 ^ length f))%R.

(** The text is JSON and holds what is expected; strings without escapes. *)
Inductive shows : list Z -> tree -> Prop :=
| sh_num l v x tol : number_is l v -> (Rabs (v - x) <= tol)%R -> shows l (Num x tol)
| sh_str s : clean s -> shows (34 :: s ++ [34]) (Str s)
| sh_arr l ts : shows_elements l ts -> shows (91 :: l ++ [93]) (Arr ts)
| sh_obj l ms : shows_members l ms -> shows (123 :: l ++ [125]) (Obj ms)
| sh_any l : value l -> shows l Any
with shows_elements : list Z -> list tree -> Prop :=
| se_one a v b t : ws a -> shows v t -> ws b -> shows_elements (a ++ v ++ b) [t]
| se_cons a v b t l ts : ws a -> shows v t -> ws b -> shows_elements l ts -> shows_elements (a ++ v ++ b ++ 44 :: l) (t :: ts)
with shows_members : list Z -> list (list Z * tree) -> Prop :=
| sm_one a k b c v d t : ws a -> clean k -> ws b -> ws c -> shows v t -> ws d -> shows_members (a ++ (34 :: k ++ [34]) ++ b ++ 58 :: c ++ v ++ d) [(k, t)]
| sm_cons a k b c v d t l ms : ws a -> clean k -> ws b -> ws c -> shows v t -> ws d -> shows_members l ms ->
    shows_members (a ++ (34 :: k ++ [34]) ++ b ++ 58 :: c ++ v ++ d ++ 44 :: l) ((k, t) :: ms).

(** An integer; a double printed with [k] places. *)
Definition Int (z : Z) : tree := Num (IZR z) 0.
Definition Real (k : nat) (x : b64) : tree := Num (B2R x) (1 / 2 / 10 ^ k).
