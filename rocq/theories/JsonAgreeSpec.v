(** Two descriptions of what a text holds that do not contradict each other. *)
From Coq Require Import ZArith List Bool Reals.
From Verif Require Import CLib JsonDataSpec.
Import ListNotations.

(** Numbers within their tolerances, the same strings, arrays element by element, objects member by member with the same keys. *)
Inductive agree : tree -> tree -> Prop :=
| ag_num x tol y tol' : (Rabs (x - y) <= tol + tol')%R -> agree (Num x tol) (Num y tol')
| ag_str s : agree (Str s) (Str s)
| ag_arr l l' : agree_all l l' -> agree (Arr l) (Arr l')
| ag_obj l l' : agree_members l l' -> agree (Obj l) (Obj l')
| ag_any_l t : agree Any t
| ag_any_r t : agree t Any
with agree_all : list tree -> list tree -> Prop :=
| aa_nil : agree_all [] []
| aa_cons t t' l l' : agree t t' -> agree_all l l' -> agree_all (t :: l) (t' :: l')
with agree_members : list (list Z * tree) -> list (list Z * tree) -> Prop :=
| am_nil : agree_members [] []
| am_cons k t t' l l' : agree t t' -> agree_members l l' -> agree_members ((k, t) :: l) ((k, t') :: l').
