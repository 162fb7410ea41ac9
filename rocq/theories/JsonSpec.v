(** The JSON grammar of RFC 8259 (sections 2-7) on bytes.  Bytes above 127 (negative as signed [char]) are allowed inside
    strings; that they form valid UTF-8 is not demanded. *)
From Coq Require Import String Ascii ZArith List Bool.
From Verif Require Import CLib.
Import ListNotations.
Open Scope Z_scope.

Definition white (c : Z) : Prop := c = 32 \/ c = 9 \/ c = 10 \/ c = 13.
Definition ws (l : list Z) : Prop := Forall white l.

Definition dig (c : Z) : Prop := 48 <= c <= 57.
Definition hexa (c : Z) : Prop := 48 <= c <= 57 \/ 65 <= c <= 70 \/ 97 <= c <= 102.
(** Characters that stand for themselves. *)
Definition plain (c : Z) : Prop := (c < 0 \/ 32 <= c) /\ c <> 34 /\ c <> 92.
Definition escapable (c : Z) : Prop := c = 34 \/ c = 92 \/ c = 47 \/ c = 98 \/ c = 102 \/ c = 110 \/ c = 114 \/ c = 116.

Inductive chars : list Z -> Prop :=
| ch_nil : chars []
| ch_plain c l : plain c -> chars l -> chars (c :: l)
| ch_esc c l : escapable c -> chars l -> chars (92 :: c :: l)
| ch_hex a b c d l : hexa a -> hexa b -> hexa c -> hexa d -> chars l -> chars (92 :: 117 :: a :: b :: c :: d :: l).
Definition jstring (l : list Z) : Prop := exists b, chars b /\ l = 34 :: b ++ [34].

Definition digits (l : list Z) : Prop := l <> [] /\ Forall dig l.
Definition jint (l : list Z) : Prop := l = [48] \/ exists d ds, l = d :: ds /\ 49 <= d <= 57 /\ Forall dig ds.
Definition jfrac (l : list Z) : Prop := l = [] \/ exists ds, l = 46 :: ds /\ digits ds.
Definition jexp (l : list Z) : Prop :=
  l = [] \/ exists e s ds, l = e :: s ++ ds /\ (e = 101 \/ e = 69) /\ (s = [] \/ s = [43] \/ s = [45]) /\ digits ds.
Definition jnumber (l : list Z) : Prop :=
  exists s i f e, l = s ++ i ++ f ++ e /\ (s = [] \/ s = [45]) /\ jint i /\ jfrac f /\ jexp e.

Definition jtrue : list Z := [116; 114; 117; 101].
Definition jfalse : list Z := [102; 97; 108; 115; 101].
Definition jnull : list Z := [110; 117; 108; 108].

Inductive value : list Z -> Prop :=
| v_true : value jtrue
| v_false : value jfalse
| v_null : value jnull
| v_num l : jnumber l -> value l
| v_str l : jstring l -> value l
| v_arr0 w : ws w -> value (91 :: w ++ [93])
| v_arr l : elements l -> value (91 :: l ++ [93])
| v_obj0 w : ws w -> value (123 :: w ++ [125])
| v_obj l : members l -> value (123 :: l ++ [125])
with elements : list Z -> Prop :=
| el_one a v b : ws a -> value v -> ws b -> elements (a ++ v ++ b)
| el_cons a v b l : ws a -> value v -> ws b -> elements l -> elements (a ++ v ++ b ++ 44 :: l)
with members : list Z -> Prop :=
| me_one a k b c v d : ws a -> jstring k -> ws b -> ws c -> value v -> ws d -> members (a ++ k ++ b ++ 58 :: c ++ v ++ d)
| me_cons a k b c v d l : ws a -> jstring k -> ws b -> ws c -> value v -> ws d -> members l ->
    members (a ++ k ++ b ++ 58 :: c ++ v ++ d ++ 44 :: l).
Scheme value_ind2 := Induction for value Sort Prop
with elements_ind2 := Induction for elements Sort Prop
with members_ind2 := Induction for members Sort Prop.
Combined Scheme json_mutual from value_ind2, elements_ind2, members_ind2.

(** A JSON document, and one whose value is an object. *)
Definition json (l : list Z) : Prop := exists a v b, ws a /\ value v /\ ws b /\ l = a ++ v ++ b.
Definition json_object (l : list Z) : Prop :=
  exists a m b, ws a /\ (ws m \/ members m) /\ ws b /\ l = a ++ (123 :: m ++ [125]) ++ b.
(** Texts that need no escapes in a string. *)
Definition clean (t : list Z) : Prop := Forall plain t.
