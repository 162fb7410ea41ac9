(** What is claimed about a run of sat_skymap, in terms of its output and of the record of what it did. *)
From Coq Require Import String Ascii ZArith List Bool Reals.
From Flocq Require Import IEEE754.BinarySingleNaN.
From Verif Require Import CLib FloatModel TleModel TleSpec SkymapModel.
Import ListNotations.
Open Scope Z_scope.

(** A listed satellite. *)
Record item := mk_item { i_name : list Z; i_desig : list Z; i_tle : tle_t; i_num : num }.

Definition listing (log : list event) : list item :=
  flat_map (fun ev => match ev with EvList a d t n => [mk_item a d t n] | _ => [] end) log.
Definition entered_codes (log : list event) : list (list Z) :=
  flat_map (fun ev => match ev with EvNew c _ _ => [c] | _ => [] end) log.
Definition examined (log : list event) : list tle_t :=
  flat_map (fun ev => match ev with EvExam t => [t] | _ => [] end) log.
Definition opened (log : list event) : list (list Z) :=
  flat_map (fun ev => match ev with EvOpen p => [p] | _ => [] end) log.

(** Separated by comma and blank. *)
Fixpoint join (l : list (list Z)) : list Z :=
  match l with
  | [] => []
  | [a] => a
  | a :: r => a ++ [44; 32] ++ join r
  end.

(** Within the altitude limits, as a statement about real numbers. *)
Definition real (x : b64) : R := B2R x.
Definition within_alt (p : params) (n : num) : Prop :=
  (real (p_alt_min p) <= real (n_alt n) <= real (p_alt_max p))%R.
Definition near (p : params) (n : num) : Prop :=
  (is_finite (n_sep n) = true /\ (real (n_sep n) <= real (p_radius p))%R) \/
  (is_finite (n_sep1 n) = true /\ (real (n_sep1 n) <= real (p_radius p))%R).
Definition ordinary (p : params) (n : num) : Prop :=
  is_finite (p_alt_min p) = true /\ is_finite (p_alt_max p) = true /\ is_finite (p_radius p) = true /\
  is_finite (n_alt n) = true /\ is_finite (n_sep n) = true /\ is_finite (n_sep1 n) = true.
(** The filters in force let the satellite through. *)
Definition passes_filters (p : params) (n : num) : Prop :=
  (p_altrng p = true -> within_alt p n) /\
  (p_single_n p = true \/ p_single_i p = true \/ p_satname_filter p = true \/ near p n) /\
  (p_sunlit_only p = true -> n_sunlit n = true).

(** Codes met, whether entered or skipped. *)
Definition met_codes (log : list event) : list (list Z) :=
  flat_map (fun ev => match ev with EvNew c _ _ => [c] | EvDup c => [c] | _ => [] end) log.
(** The sunlit ones among the listed. *)
Definition sunlit_items (l : list item) : list item := filter (fun i => n_sunlit (i_num i)) l.
(** The fixed arrays have their declared sizes. *)
Definition arrays (l1 l2 nm : list Z) : Prop := length l1 = 100%nat /\ length l2 = 100%nat /\ length nm = 25%nat.

(** ** Element files *)
(** A file is a sequence of lines; two of them forming a set of elements, or one other line (a name, a comment). *)
Inductive block := Note (t : list Z) | Pair (t1 t2 : list Z) (el : elements).
Definition block_texts (b : block) : list (list Z) := match b with Note t => [t] | Pair a b _ => [a; b] end.
Definition block_elements (b : block) : list elements := match b with Note _ => [] | Pair _ _ el => [el] end.
Definition good_text (t : list Z) : Prop := ~ In 10 t /\ ~ In 0 t /\ (length t <= 98)%nat.
Definition good_block (b : block) : Prop :=
  match b with
  | Note t => good_text t /\ (forall r, t <> 50 :: r)
  | Pair t1 t2 el => good_text t1 /\ good_text t2 /\ layout1 (t1 ++ [10]) el /\ layout2 (t2 ++ [10]) el /\
                     check_digit_ok (t1 ++ [10]) /\ check_digit_ok (t2 ++ [10])
  end.
(** The contents of the file: its lines, the last with or without newline. *)
Definition file_of (contents : list Z) (bs : list block) : Prop :=
  let all := flat_map (fun t => t ++ [10]) (flat_map block_texts bs) in contents = all \/ contents ++ [10] = all.
Definition good_file (contents : list Z) (bs : list block) : Prop := file_of contents bs /\ Forall good_block bs.

(** Element sets with the line before them, when that line is not itself part of an element set. *)
Fixpoint records (prev : option (list Z)) (bs : list block) : list (option (list Z) * elements) :=
  match bs with
  | [] => []
  | Note t :: r => records (Some t) r
  | Pair _ _ el :: r => (prev, el) :: records None r
  end.
Definition white (c : Z) : Prop := c = 32 \/ 9 <= c <= 13.
(** A name line: short enough for the name buffer, not looking like an element line, not blank. *)
Definition good_name (t : list Z) : Prop :=
  (length t <= 21)%nat /\ ~ In 0 t /\ (forall r, t <> 49 :: r) /\ (forall r, t <> 50 :: r) /\ Exists (fun c => ~ white c) t.
(** [a] is [t] without the white space at its end. *)
Definition trimmed (a t : list Z) : Prop := exists w, t = a ++ w /\ Forall white w /\ ~ white (last a 32).

(** ** List files *)
(** One row of a list file (a text without newline) and the paths it names. *)
Definition good_row (r : list Z) : Prop := ~ In 10 r /\ ~ In 0 r /\ (length r <= 62)%nat /\ 32 <= last r 32.
Definition row_paths (dir : list Z) (r : list Z) : list (list Z) :=
  match r with [] => [] | 35 :: _ => [] | _ => [dir ++ 47 :: r] end.
Definition lines_of (contents : list Z) (ts : list (list Z)) : Prop :=
  let all := flat_map (fun t => t ++ [10]) ts in contents = all \/ contents ++ [10] = all.

(** ** Designators *)
Definition letter (c : Z) : Prop := 65 <= c <= 90.
(** International designator of a launch: year, number in the year, piece. *)
Definition designator (year number : Z) (piece : list Z) : list Z :=
  map (fun k => 48 + dig 10 year k) [3;2;1;0] ++ [45] ++ map (fun k => 48 + dig 10 number k) [2;1;0] ++ piece.
(** How it is written in the element set: eight columns. *)
Definition desig_field (year number : Z) (piece : list Z) : list Z :=
  map (fun k => 48 + dig 10 year k) [1;0] ++ map (fun k => 48 + dig 10 number k) [2;1;0] ++ piece ++ repeat 32 (3 - length piece).

(** ** Duplicates *)
Definition comma_free (log : list event) : Prop := Forall (fun c => ~ In 44 c) (met_codes log).
Definition unique (log : list event) : Prop :=
  NoDup (entered_codes log) /\ (forall a c b, log = a ++ EvDup c :: b -> In c (entered_codes a)).

(** ** Files of a run *)
(** [bl] gives the lines of each of the files. *)
Definition readable (e : env) (bl : list Z -> list block) (paths : list (list Z)) : Prop :=
  forall p c, In p paths -> e_fs e p = Some c -> good_file c (bl p).
(** All element sets of a sequence of files, with the lines before them. *)
Definition file_elements (bl : list Z -> list block) (paths : list (list Z)) : list elements := flat_map (fun p => flat_map block_elements (bl p)) paths.
Definition file_records (bl : list Z -> list block) (paths : list (list Z)) : list (option (list Z) * elements) := flat_map (fun p => records None (bl p)) paths.
(** Every satellite is listed right after it was entered. *)
Definition listed_when_entered (log : list event) : Prop :=
  forall a name d t n b, log = a ++ EvList name d t n :: b -> exists a' code, a = a' ++ [EvNew code t n].

(** The run broke off while working on a satellite whose position has no pixel: nothing follows its entry. *)
Definition stopped (log : list event) : Prop := exists l c t n, log = l ++ [EvNew c t n] /\ n_nan n = false /\ n_theta_ok n = false.
