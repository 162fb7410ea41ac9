(** Which element set sat_visibility should work with. *)
From Coq Require Import ZArith List Bool.
From Verif Require Import CLib TleSpec IoModel SkymapModel SkymapSpec VisCliModel VisModel.
Import ListNotations.
Open Scope Z_scope.

(** The designator of a launch of the years 1957 to 2056, as written in columns 10-17. *)
Definition launch (el : elements) (y n : Z) (p1 : Z) (rest : list Z) : Prop :=
  1957 <= y <= 2056 /\ 1 <= n <= 999 /\ letter p1 /\ (length rest <= 2)%nat /\ e_desig el = desig_field y n (p1 :: rest).
(** The request on the command line, -s with a catalogue number or -i with the begin of a designator, can be decided for this element set ... *)
Definition recognisable (p : vparams) (el : elements) : Prop :=
  if v_single_n p then e_number el < 100000 else exists y n p1 rest, launch el y n p1 rest.
(** ... and is met by it.  (Of the designator the first nine characters count.) *)
Definition asked (p : vparams) (el : elements) : Prop :=
  if v_single_n p then e_number el = v_norad_n p
  else exists y n p1 rest more, launch el y n p1 rest /\ firstn 9 (designator y n (p1 :: rest)) = v_intl_desig p ++ more.
(** A request that can be met: a number, or a designator of at most twelve characters. *)
Definition request (p : vparams) : Prop :=
  v_single_n p = true \/ (v_single_i p = true /\ (length (v_intl_desig p) <= 12)%nat /\ ~ In 0 (v_intl_desig p)).
(** The element files of a run: the one named, or those of the rows of the list. *)
Definition run_paths (e : venv) (argv : list (list Z)) (p : vparams) (paths : list (list Z)) : Prop :=
  forall arg, nth_error argv (file_arg argv) = Some arg ->
  (forall name, arg = 64 :: name -> exists contents rs, n_fs e (v_tle_path p ++ 47 :: name) = Some contents /\ lines_of contents rs /\ Forall good_row rs /\
     paths = flat_map (row_paths (v_tle_path p)) rs) /\
  ((forall name, arg <> 64 :: name) -> paths = [if existsb (Z.eqb 47) arg then arg else v_tle_path p ++ 47 :: arg]).
(** All the files that can be opened are element files with the lines [bl]. *)
Definition element_files (e : venv) (bl : list Z -> list block) (paths : list (list Z)) : Prop :=
  forall q c, In q paths -> n_fs e q = Some c -> good_file c (bl q).
