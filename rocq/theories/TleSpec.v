(** Independent specification of the TLE text format (columns are counted from
    0 here; the column numbers of the format documents are one higher). *)
From Coq Require Import ZArith List Bool QArith.
From Verif Require Import TleModel. (* only for the record [tle_t] that is the result of parsing *)
Import ListNotations.
Open Scope Z_scope.

(** Character in a column (a byte beyond the list reads as 0; every statement
    that uses it also demands that the line is long enough). *)
Definition col (l : list Z) (i : nat) : Z := nth i l 0.

(** [w] columns starting at column [a]. *)
Definition field (l : list Z) (a w : nat) : list Z := firstn w (skipn a l).

(* ------------------------------------------------------------------ *)
(** ** Check digit *)

(** Weight of a character: a digit counts its value, a minus sign one. *)
Definition weight (c : Z) : Z :=
  match c with
  | 49 => 1 | 50 => 2 | 51 => 3 | 52 => 4 | 53 => 5
  | 54 => 6 | 55 => 7 | 56 => 8 | 57 => 9 | 45 => 1 | _ => 0
  end.

Fixpoint total (l : list Z) : Z :=
  match l with [] => 0 | c :: r => weight c + total r end.

Definition line_start (l : list Z) : Prop :=
  (col l 0 = 49 \/ col l 0 = 50) /\ col l 1 = 32.

(** Characters allowed in the 68 data columns: blank .. 'z'. *)
Definition printable (c : Z) : Prop := 32 <= c <= 122.

Definition data_ok (l : list Z) : Prop := Forall printable (firstn 68 l).

Definition digit (c : Z) : Prop := 48 <= c <= 57.

(** The check digit printed in column 68 is right. *)
Definition check_digit_ok (l : list Z) : Prop := col l 68 = 48 + total (firstn 68 l) mod 10.

(** Replace the character in one column. *)
Definition retype (l : list Z) (i : nat) (c : Z) : list Z :=
  firstn i l ++ c :: skipn (S i) l.

(* ------------------------------------------------------------------ *)
(** ** Catalogue codes *)

(** The 34 symbols in order: 0-9, A-H, J-N, P-Z. *)
Definition symbols : list Z :=
  [48;49;50;51;52;53;54;55;56;57;
   65;66;67;68;69;70;71;72; 74;75;76;77;78;
   80;81;82;83;84;85;86;87;88;89;90].
Definition sym (k : Z) : Z := nth (Z.to_nat k) symbols 0.

(** k-th digit (from the right) of [n] in base [b]. *)
Definition dig (b n : Z) (k : Z) : Z := (n / b ^ k) mod b.

(** Code of a catalogue number, by the ranges documented for plain five-digit
    numbers, Alpha-5 and Super-5. *)
Definition encode_norad (n : Z) : list Z :=
  if n <? 100000 then
    map (fun k => sym (dig 10 n k)) [4;3;2;1;0]
  else if n <? 340000 then
    sym (n / 10000) :: map (fun k => sym (dig 10 n k)) [3;2;1;0]
  else if n <? 32412064 then
    let m := n - 340000 in
    map (fun k => sym (dig 34 (m / 24) k)) [3;2;1;0] ++ [sym (10 + m mod 24)]
  else if n <? 41845024 then
    let m := n - 32412064 in
    map (fun k => sym (dig 34 (m / 240) k)) [2;1;0]
      ++ [sym (10 + (m / 10) mod 24); sym (m mod 10)]
  else if n <? 44619424 then
    let m := n - 41845024 in
    map (fun k => sym (dig 34 (m / 2400) k)) [1;0]
      ++ [sym (10 + (m / 100) mod 24); sym (dig 10 m 1); sym (dig 10 m 0)]
  else
    let m := n - 44619424 in
    [sym (m / 24000); sym (10 + (m / 1000) mod 24);
     sym (dig 10 m 2); sym (dig 10 m 1); sym (dig 10 m 0)].

Definition norad_count : Z := 45435424.   (* 34^5 *)

(** A five-symbol code. *)
Definition is_code (s : list Z) : Prop :=
  length s = 5%nat /\ Forall (fun c => In c symbols) s.

(* ------------------------------------------------------------------ *)
(** ** Numeric fields *)

(** Value of a list of decimal digit characters. *)
Definition dec (s : list Z) : Z := fold_left (fun v c => 10 * v + (c - 48)) s 0.

(** [s] shows the natural number [n]: blanks, then at least one digit. *)
Definition shows_nat (s : list Z) (n : Z) : Prop :=
  exists k ds, s = repeat 32 k ++ ds /\ ds <> [] /\ Forall digit ds /\ dec ds = n.

(** [s] shows [n] as digits only (no blanks). *)
Definition shows_digits (s : list Z) (n : Z) : Prop := Forall digit s /\ dec s = n.

(** [s] shows a decimal fraction with [p] places: blanks, digits, '.', [p]
    digits; [n] is the value in units of the last place. *)
Definition shows_fixed (p : nat) (s : list Z) (n : Z) : Prop :=
  exists k ds fs, s = repeat 32 k ++ ds ++ 46 :: fs /\
    Forall digit ds /\ Forall digit fs /\ length fs = p /\
    n = dec ds * 10 ^ Z.of_nat p + dec fs.

(** Sign column: '-' is minus; blank, '+' and '0' are plus. *)
Definition sign_of (c : Z) : Z := if c =? 45 then -1 else 1.

(** Scientific field sdddddSe with the value s 0.ddddd * 10^(S e). *)
Definition shows_sci (s : list Z) (v : Q) : Prop :=
  exists sg m es e,
    length m = 5%nat /\ Forall digit m /\ digit e /\
    (sg = 32 \/ sg = 43 \/ sg = 45) /\ (es = 32 \/ es = 43 \/ es = 45) /\
    s = sg :: m ++ [es; e] /\
    (v == inject_Z (sign_of sg * dec m) *
         Qpower 10 ((if es =? 45 then - (e - 48) else e - 48) - 5))%Q.

(* ------------------------------------------------------------------ *)
(** ** Base-36 state vector components *)

Definition sym36 (k : Z) : Z := if k <? 10 then 48 + k else 55 + k.
Definition encode36 (v : Z) : list Z :=
  (if v <? 0 then 45 else 43) ::
  map (fun k => sym36 (dig 36 (Z.abs v) k)) [7;6;5;4;3;2;1;0].

(* ------------------------------------------------------------------ *)
(** ** Layout of the two lines of mean elements *)

(** Values written in the columns, in the printed units. *)
Record elements : Type := mk_elements {
  e_number : Z;              (* catalogue number *)
  e_class : Z;               (* classification character *)
  e_desig : list Z;          (* 8 characters *)
  e_year : Z;                (* full year *)
  e_day : Z;                 (* day of year, 1e-8 day *)
  e_ndot : Z;                (* half first derivative, 1e-8 rev/day^2, with sign *)
  e_nddot : Q;               (* sixth of second derivative, rev/day^3 *)
  e_bstar : Q;
  e_type : Z;                (* ephemeris type character *)
  e_elset : Z;
  e_incl : Z; e_node : Z;    (* 1e-4 degree *)
  e_ecc : Z;                 (* 1e-7 *)
  e_argp : Z; e_ma : Z;      (* 1e-4 degree *)
  e_motion : Z;              (* 1e-8 rev/day *)
  e_rev : Z
}.

(** Two-digit years: 57..99 are 1957..1999, 00..56 are 2000..2056. *)
Definition full_year (yy : Z) : Z := if 57 <=? yy then 1900 + yy else 2000 + yy.

Definition layout1 (l : list Z) (e : elements) : Prop :=
  (70 <= length l)%nat /\ data_ok l /\ col l 69 <= 32 /\
  col l 0 = 49 /\ col l 1 = 32 /\
  0 <= e_number e < norad_count /\ field l 2 5 = encode_norad (e_number e) /\
  col l 7 = e_class e /\ ~ digit (e_class e) /\
  field l 9 8 = e_desig e /\
  (exists yy, shows_digits (field l 18 2) yy /\ e_year e = full_year yy) /\
  (exists d f, shows_nat (field l 20 3) d /\ col l 23 = 46 /\ shows_digits (field l 24 8) f /\
     e_day e = d * 100000000 + f) /\
  col l 32 = 32 /\
  (exists nd, col l 34 = 46 /\ shows_digits (field l 35 8) nd /\ e_ndot e = sign_of (col l 33) * nd) /\
  col l 43 = 32 /\
  shows_sci (field l 44 8) (e_nddot e) /\ shows_sci (field l 53 8) (e_bstar e) /\
  col l 62 = e_type e /\ e_type e <> 72 /\
  shows_nat (field l 64 4) (e_elset e).

Definition layout2 (l : list Z) (e : elements) : Prop :=
  (70 <= length l)%nat /\ data_ok l /\ col l 69 <= 32 /\
  col l 0 = 50 /\ col l 1 = 32 /\
  shows_fixed 4 (field l 8 8) (e_incl e) /\ col l 16 = 32 /\
  shows_fixed 4 (field l 17 8) (e_node e) /\ col l 25 = 32 /\
  shows_digits (field l 26 7) (e_ecc e) /\ col l 33 = 32 /\
  shows_fixed 4 (field l 34 8) (e_argp e) /\ col l 42 = 32 /\
  shows_fixed 4 (field l 43 8) (e_ma e) /\ col l 51 = 32 /\
  (exists d f, shows_nat (field l 52 2) d /\ col l 54 = 46 /\ shows_digits (field l 55 8) f /\
     e_motion e = d * 100000000 + f) /\
  shows_nat (field l 63 5) (e_rev e).

(** pi to 39 decimals, the unit conversion used for the result. *)
Definition pi39 : Q :=
  3141592653589793238462643383279502884197 # 1000000000000000000000000000000000000000.
Definition degrees (n : Z) : Q := (inject_Z n * pi39 / 180)%Q.  (* whole degrees to radians *)
Definition e8 : Q := inject_Z (10 ^ 8).

(** Days before 1 January of [y] in the proleptic Gregorian calendar, counted
    from 1 January of year 1. *)
Definition days_before_year (y : Z) : Z :=
  365 * (y - 1) + (y - 1) / 4 - (y - 1) / 100 + (y - 1) / 400.

(** Julian Date of "January 0.0" of [y] (0001-01-01 00h is JD 1721425.5). *)
Definition jd_january0 (y : Z) : Q := ((17214245 # 10) + inject_Z (days_before_year y))%Q.

(** The record delivered by the parser describes the printed elements. *)
Definition describes (s : tle_t) (e : elements) : Prop :=
  norad_number s = e_number e /\
  classification s = e_class e /\
  tle_intl_desig s = e_desig e /\
  ephemeris_type s = e_type e /\
  bulletin_number s = e_elset e /\
  revolution_number s = e_rev e /\
  (epoch s == jd_january0 (e_year e) + inject_Z (e_day e) / e8)%Q /\
  (xincl s == degrees (e_incl e) / inject_Z (10 ^ 4))%Q /\
  (xnodeo s == degrees (e_node e) / inject_Z (10 ^ 4))%Q /\
  (omegao s == degrees (e_argp e) / inject_Z (10 ^ 4))%Q /\
  (xmo s == degrees (e_ma e) / inject_Z (10 ^ 4))%Q /\
  (eo s == inject_Z (e_ecc e) / inject_Z (10 ^ 7))%Q /\
  (* rev/day -> rad/minute *)
  (xno s == inject_Z (e_motion e) / e8 * (2 * pi39) / 1440)%Q /\
  (xndt2o s == inject_Z (e_ndot e) / e8 * (2 * pi39) / inject_Z (1440 ^ 2))%Q /\
  (xndd6o s == e_nddot e * (2 * pi39) / inject_Z (1440 ^ 3))%Q /\
  (bstar s == e_bstar e)%Q.
