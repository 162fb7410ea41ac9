(** Pieces of the C library used by the main programs: fgets, string copies into fixed buffers, trimming, searching,
    and number output. *)
From Coq Require Import String Ascii ZArith List Bool.
From Flocq Require Import IEEE754.BinarySingleNaN.
From Verif Require Import CLib FloatModel.
Import ListNotations.
Open Scope Z_scope.

(** Texts returned by successive calls fgets( buf, cap + 1, f) on a file with contents [l] until it returns NULL:
    a call stores bytes up to and including a newline, at most [cap] of them. *)
Fixpoint fgets_go (cap room : nat) (cur : list Z) (l : list Z) : list (list Z) :=
  match l with
  | [] => match cur with [] => [] | _ => [rev cur] end
  | c :: t =>
      if c =? 10 then rev (c :: cur) :: fgets_go cap cap [] t
      else match room with
           | S (S r) => fgets_go cap (S r) (c :: cur) t
           | _ => rev (c :: cur) :: fgets_go cap cap [] t
           end
  end.
Definition fgets_seq (cap : nat) (l : list Z) : list (list Z) := fgets_go cap cap [] l.

(** Writing the text [s] and its NUL at the start of the object [buf] (fgets, strcpy, sprintf); the rest of the object keeps
    its old bytes. *)
Definition c_store (buf s : list Z) : res (list Z) :=
  if (S (length s) <=? length buf)%nat then Ok (s ++ 0 :: skipn (S (length s)) buf) else UB OutOfBounds.

(** The text at [p]: the bytes before the first NUL (strlen, "%s"). *)
Fixpoint c_text (p : list Z) : res (list Z) :=
  match p with
  | [] => UB OutOfBounds
  | c :: p' => if c =? 0 then Ok [] else t <- c_text p' ;; Ok (c :: t)
  end.

(** Bytes written by strncpy( dst, src, n). *)
Fixpoint strncpy_bytes (src : list Z) (n : nat) {struct n} : res (list Z) :=
  match n with
  | O => Ok []
  | S n' => match src with
            | [] => UB OutOfBounds
            | c :: s => if c =? 0 then Ok (repeat 0 n) else t <- strncpy_bytes s n' ;; Ok (c :: t)
            end
  end.
Definition c_strncpy (dst src : list Z) (n : nat) : res (list Z) :=
  if (n <=? length dst)%nat then t <- strncpy_bytes src n ;; Ok (t ++ skipn n dst) else UB OutOfBounds.

(** memcmp( a, b, n) == 0 *)
Definition c_memeq (a b : list Z) (n : nat) : res bool :=
  x <- c_take a n ;; y <- c_take b n ;;
  Ok (if list_eq_dec Z.eq_dec x y then true else false).

(** strstr( hay, needle) != NULL, on texts. *)
Fixpoint prefixb (a b : list Z) : bool :=
  match a, b with
  | [], _ => true
  | x :: a', y :: b' => (x =? y) && prefixb a' b'
  | _ :: _, [] => false
  end.
Fixpoint strstrb (hay needle : list Z) : bool :=
  prefixb needle hay || match hay with [] => false | _ :: h => strstrb h needle end.

(** The text without its trailing white space, always keeping the first byte. *)
Fixpoint drop_space (l : list Z) : list Z :=
  match l with c :: t => if is_space c then drop_space t else l | [] => [] end.
(** sat_skymap.c:145-154 and sat_visibility.c:296-305 [trimend].  For the empty text [str + strlen( str) - 1] points
    before the object. *)
Definition trimend (buf : list Z) : res (list Z) :=
  t <- c_text buf ;;
  match t with
  | [] => UB OutOfBounds
  | c :: r => c_store buf (c :: rev (drop_space (rev r)))
  end.

(** "%d": decimal digits of a non-negative number, least significant first. *)
Fixpoint nat_digits (fuel : nat) (z : Z) : list Z :=
  match fuel with
  | O => [48 + z mod 10]
  | S f => (48 + z mod 10) :: (if z <? 10 then [] else nat_digits f (z / 10))
  end.
Definition dec_text (z : Z) : list Z := rev (nat_digits (Z.to_nat (Z.log2 z)) z).
Definition pad (width : nat) (t : list Z) : list Z := repeat 32 (width - length t) ++ t.
Definition print_d (width : nat) (z : Z) : list Z :=
  pad width (if z <? 0 then 45 :: dec_text (- z) else dec_text z).

(** "%w.plf": the value times 10^p, rounded to nearest (ties to even) from the exact value, with the point inserted
    before the last p digits. *)
Definition div_half_even (n d : Z) : Z :=
  let q := n / d in let r := n mod d in
  if (2 * r <? d) || ((2 * r =? d) && Z.even q) then q else q + 1.
Definition scaled (p : nat) (m e : Z) : Z :=
  if 0 <=? e then m * 2 ^ e * 10 ^ Z.of_nat p else div_half_even (m * 10 ^ Z.of_nat p) (2 ^ (- e)).
Definition fixed_text (p : nat) (n : Z) : list Z :=
  match p with
  | O => dec_text n
  | _ => let ten := 10 ^ Z.of_nat p in
         let f := dec_text (n mod ten) in
         dec_text (n / ten) ++ 46 :: repeat 48 (p - length f) ++ f
  end.
Definition print_f (width p : nat) (x : b64) : list Z :=
  pad width
    match x with
    | B754_nan => bytes "nan"
    | B754_infinity s => if s then bytes "-inf" else bytes "inf"
    | B754_zero s => (if s then [45] else []) ++ fixed_text p 0
    | B754_finite s m e _ => (if s then [45] else []) ++ fixed_text p (scaled p (Zpos m) e)
    end.

(** sprintf into an object of [cap] bytes. *)
Definition c_sprintf (cap : nat) (t : list Z) : res (list Z) :=
  if (S (length t) <=? cap)%nat then Ok t else UB OutOfBounds.
