(** Concrete runs of the sat_skymap model. *)
From Coq Require Import String Ascii ZArith List Bool QArith.
From Verif Require Import CLib FloatModel TleModel TleSpec IoModel SkymapModel SkymapSpec.
Import ListNotations.
Open Scope Z_scope.

Definition x0 : b64 := of_int 0.
Definition ex_params : params :=
  mk_params (bytes "2020-04-20T12:00:00") [] [] (of_int 44) (of_int 11) (of_int 23) x0 x0 (of_int 20)
    (of_int 58959) x0 (of_int 100000) 1 1000 0
    true false false false false false false false false false false true (bytes ".").
Definition ex_hdr : hdr := mk_hdr x0 x0 x0 x0 x0 x0 x0 x0 x0 x0 x0 x0.
(** A satellite well inside the region and in sunlight. *)
Definition ex_num : num :=
  mk_num 0 0 false x0 x0 (of_int 420) x0 (of_int 5) (of_int 5) true (of_int 185) (of_int (-53)) (of_int 186) (of_int (-53)) (of_int 1436) (of_int 89) (of_int 2) 690893 true.
Definition tle0 : tle_t := mk_tle 0 0 0 0 0 0 0 0 0 0 0 0 0 0 0 (repeat 0 8).

Definition checked (t : list Z) : list Z := t ++ [48 + total t mod 10].
(** Element lines with a given catalogue code (5 characters) and designator (8 characters). *)
Definition el_line1 (code desig : list Z) : list Z :=
  checked (bytes "1 " ++ code ++ bytes "U " ++ desig ++ bytes " 24132.52083333  .00016717  00000+0  30270-3 0  999").
Definition el_line2 (code : list Z) : list Z :=
  checked (bytes "2 " ++ code ++ bytes "  51.6390 160.2230 0003580  90.1234 269.9876 15.5024912345289").
Definition mk_l1 (code desig : string) : list Z := el_line1 (bytes code) (bytes desig) ++ [10].
Definition mk_l2 (code : string) : list Z := el_line2 (bytes code) ++ [10].
Definition mk_rec (name code desig : string) : list Z := bytes name ++ [10] ++ mk_l1 code desig ++ mk_l2 code.
Definition ex_file : list Z := mk_rec "ISS (ZARYA)" "25544" "98067A  " ++ mk_rec "ISS (NAUKA)" "49044" "21066A  ".
Definition ex_env : env :=
  mk_env [bytes "sat_skymap"; bytes "s.txt"; bytes "-l44,11,23"] ex_params ex_hdr (fun _ _ => ex_num)
    (fun path => if list_eq_dec Z.eq_dec path (bytes "./s.txt") then Some ex_file else None) tle0.
Definition z100 : list Z := repeat 0 100.
Definition z25 : list Z := repeat 0 25.

(** Variants of the parameters: requests and filters. *)
Definition opt_params (intl satname : list Z) (norad max : Z) (sunlit_only single_i single_n satname_filter altrng : bool) : params :=
  mk_params (bytes "2020-04-20T12:00:00") intl satname (of_int 44) (of_int 11) (of_int 23) x0 x0 (of_int 20)
    (of_int 58959) x0 (of_int 100000) 1 max norad
    true false sunlit_only single_i single_n satname_filter false false altrng false false true (bytes ".").
Definition file_env (p : params) (num : nat -> tle_t -> num) (file : list Z) : env :=
  mk_env [bytes "sat_skymap"; bytes "s.txt"; bytes "-l44,11,23"] p ex_hdr num
    (fun path => if list_eq_dec Z.eq_dec path (bytes "./s.txt") then Some file else None) tle0.
Definition with_codes (c1 c2 : Z) : num :=
  mk_num c1 c2 false x0 x0 (of_int 420) x0 (of_int 5) (of_int 5) true (of_int 185) (of_int (-53)) (of_int 186) (of_int (-53)) (of_int 1436) (of_int 89) (of_int 2) 690893 true.
Definition dark_num : num :=
  mk_num 0 0 false x0 x0 (of_int 420) x0 (of_int 5) (of_int 5) false (of_int 185) (of_int (-53)) (of_int 186) (of_int (-53)) (of_int 1436) (of_int 89) (of_int 2) 690893 true.
Definition nan_alt_num : num :=
  mk_num 0 0 false x0 x0 (fdiv x0 x0) x0 (of_int 5) (of_int 5) true (of_int 185) (of_int (-53)) (of_int 186) (of_int (-53)) (of_int 1436) (of_int 89) (of_int 2) 690893 true.
Definition nan_num : num :=
  mk_num 0 0 true x0 x0 (of_int 420) x0 (of_int 5) (of_int 5) true (of_int 185) (of_int (-53)) (of_int 186) (of_int (-53)) (of_int 1436) (of_int 89) (of_int 2) 690893 true.
(** ISS (ZARYA) in the shadow, all others in sunlight. *)
Definition zarya_dark (k : nat) (t : tle_t) : num := if norad_number t =? 25544 then dark_num else ex_num.
Definition comma_file : list Z := mk_rec "A" "A,BCD" "98067A  " ++ mk_rec "B" "E,GHI" "98067B  " ++ mk_rec "C" "BCD,E" "98067C  ".
Definition alpha_file : list Z := mk_rec "ALPHA" "A0001" "98067A  ".
Definition pieces_file : list Z := mk_rec "PIECE AB" "25544" "98067AB " ++ mk_rec "PIECE A" "25545" "98067A  ".
(** No name lines. *)
Definition two_line_file : list Z := mk_l1 "25544" "98067A  " ++ mk_l2 "25544".
(** A list of files: a comment, two names, an empty line. *)
Definition list_env (rows : list Z) : env :=
  mk_env [bytes "sat_skymap"; bytes "@l.txt"; bytes "-l44,11,23"] ex_params ex_hdr (fun _ _ => ex_num)
    (fun path => if list_eq_dec Z.eq_dec path (bytes "./l.txt") then Some rows
                 else if list_eq_dec Z.eq_dec path (bytes "./s.txt") then Some ex_file
                 else if list_eq_dec Z.eq_dec path (bytes "./t.txt") then Some (mk_rec "HST" "20580" "90037B  ") else None) tle0.
Definition ex_rows : list Z := bytes "# mine" ++ [10] ++ bytes "s.txt" ++ [10; 10] ++ bytes "t.txt" ++ [10].

(** Evaluate a run and test the outcome. *)
Lemma ran : forall e l1 l2 nm (f : final -> bool), match skymap e l1 l2 nm with Ok fin => f fin | UB _ => false end = true ->
  exists fin, skymap e l1 l2 nm = Ok fin /\ f fin = true.
Proof. intros e l1 l2 nm f H. destruct (skymap e l1 l2 nm) as [fin|]; [now exists fin|discriminate H]. Qed.
Definition eqb_list (a b : list Z) : bool := if list_eq_dec Z.eq_dec a b then true else false.
Lemma eqb_list_true : forall a b, eqb_list a b = true -> a = b.
Proof. intros a b H. unfold eqb_list in H. now destruct (list_eq_dec Z.eq_dec a b). Qed.
Definition eqb_lists (a b : list (list Z)) : bool := if list_eq_dec (list_eq_dec Z.eq_dec) a b then true else false.
Lemma eqb_lists_true : forall a b, eqb_lists a b = true -> a = b.
Proof. intros a b H. unfold eqb_lists in H. now destruct (list_eq_dec (list_eq_dec Z.eq_dec) a b). Qed.
