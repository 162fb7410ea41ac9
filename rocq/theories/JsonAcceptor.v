(** A pushdown acceptor for the grammar of JsonSpec, used to run the grammar on concrete and on composed texts. *)
From Coq Require Import ZArith List Bool.
Import ListNotations.
Open Scope Z_scope.

Inductive frame := FObj | FArr.
Inductive mode :=
| MV        (* a value is expected *)
| MA        (* after [ : a value or ] *)
| MO        (* after { : a key or } *)
| MK        (* after , in an object: a key *)
| MC        (* after a key: a colon *)
| ME        (* after a value *)
| MS (key : bool) | MX (key : bool) | MH (key : bool) (n : nat)   (* in a string, after a backslash, in \uXXXX *)
| NM | N0 | NI | NP | NF | NX | NS | NE                     (* - , 0 , digits, . , fraction, e , sign, exponent *)
| ML (rest : list Z).                                        (* inside a literal *)

Definition is_ws (c : Z) : bool := (c =? 32) || (c =? 9) || (c =? 10) || (c =? 13).
Definition is_dig (c : Z) : bool := (48 <=? c) && (c <=? 57).
Definition is_hex (c : Z) : bool := is_dig c || ((65 <=? c) && (c <=? 70)) || ((97 <=? c) && (c <=? 102)).
Definition is_plain (c : Z) : bool := ((c <? 0) || (32 <=? c)) && negb (c =? 34) && negb (c =? 92).
Definition is_escapable (c : Z) : bool :=
  (c =? 34) || (c =? 92) || (c =? 47) || (c =? 98) || (c =? 102) || (c =? 110) || (c =? 114) || (c =? 116).

Definition conf : Type := mode * list frame.

(** Start of a value. *)
Definition start_value (s : list frame) (c : Z) : option conf :=
  if c =? 34 then Some (MS false, s)
  else if c =? 91 then Some (MA, FArr :: s)
  else if c =? 123 then Some (MO, FObj :: s)
  else if c =? 45 then Some (NM, s)
  else if c =? 48 then Some (N0, s)
  else if is_dig c then Some (NI, s)
  else if c =? 116 then Some (ML [114; 117; 101], s)
  else if c =? 102 then Some (ML [97; 108; 115; 101], s)
  else if c =? 110 then Some (ML [117; 108; 108], s)
  else None.
(** After a value. *)
Definition after_value (s : list frame) (c : Z) : option conf :=
  if is_ws c then Some (ME, s)
  else match s with
       | FObj :: s' => if c =? 44 then Some (MK, s) else if c =? 125 then Some (ME, s') else None
       | FArr :: s' => if c =? 44 then Some (MV, s) else if c =? 93 then Some (ME, s') else None
       | [] => None
       end.

Definition step (x : conf) (c : Z) : option conf :=
  let (m, s) := x in
  match m with
  | MV => if is_ws c then Some (MV, s) else start_value s c
  | MA => if is_ws c then Some (MA, s)
          else if c =? 93 then match s with FArr :: s' => Some (ME, s') | _ => None end
          else start_value s c
  | MO => if is_ws c then Some (MO, s)
          else if c =? 125 then match s with FObj :: s' => Some (ME, s') | _ => None end
          else if c =? 34 then Some (MS true, s) else None
  | MK => if is_ws c then Some (MK, s) else if c =? 34 then Some (MS true, s) else None
  | MC => if is_ws c then Some (MC, s) else if c =? 58 then Some (MV, s) else None
  | ME => after_value s c
  | MS k => if c =? 34 then Some (if k then MC else ME, s)
            else if c =? 92 then Some (MX k, s)
            else if is_plain c then Some (MS k, s) else None
  | MX k => if is_escapable c then Some (MS k, s) else if c =? 117 then Some (MH k 3, s) else None
  | MH k n => if is_hex c then Some (match n with O => MS k | S n' => MH k n' end, s) else None
  | NM => if c =? 48 then Some (N0, s) else if is_dig c then Some (NI, s) else None
  | N0 => if c =? 46 then Some (NP, s) else if (c =? 101) || (c =? 69) then Some (NX, s) else after_value s c
  | NI => if is_dig c then Some (NI, s)
          else if c =? 46 then Some (NP, s) else if (c =? 101) || (c =? 69) then Some (NX, s) else after_value s c
  | NP => if is_dig c then Some (NF, s) else None
  | NF => if is_dig c then Some (NF, s) else if (c =? 101) || (c =? 69) then Some (NX, s) else after_value s c
  | NX => if is_dig c then Some (NE, s) else if (c =? 43) || (c =? 45) then Some (NS, s) else None
  | NS => if is_dig c then Some (NE, s) else None
  | NE => if is_dig c then Some (NE, s) else after_value s c
  | ML r => match r with
            | d :: r' => if c =? d then Some (match r' with [] => ME | _ => ML r' end, s) else None
            | [] => None
            end
  end.

Fixpoint run (x : conf) (l : list Z) : option conf :=
  match l with
  | [] => Some x
  | c :: l' => match step x c with Some y => run y l' | None => None end
  end.
(** Modes in which a value is complete. *)
Definition complete (m : mode) : bool := match m with ME | N0 | NI | NF | NE => true | _ => false end.
Definition accepted (x : option conf) : bool := match x with Some (m, []) => complete m | _ => false end.
Definition accepts (l : list Z) : bool := accepted (run (MV, []) l).
