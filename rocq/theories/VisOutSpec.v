(** Conditions and claims about the text printed by sat_visibility. *)
From Coq Require Import String Ascii ZArith List Bool.
From Flocq Require Import IEEE754.BinarySingleNaN.
From Verif Require Import CLib FloatModel JsonSpec SkymapModel VisCliModel VisModel VisDataSpec.
Import ListNotations.
Open Scope Z_scope.

Definition all_finite (l : list b64) : Prop := Forall (fun x : b64 => is_finite x = true) l.
(** Every number of the parameters echoed at the top is finite. *)
Definition vhead_finite (L : lib) (p : vparams) : Prop :=
  let '(alt, az, parang) := l_dechalat L (fmul (v_lat p) DEG2RAD) (of_int 0) in
  all_finite [v_lat p; v_lon p; v_ht p; v_radius p; az; alt; parang; v_mjd0 p; v_mjd1 p].
(** Every number of the position of the Sun, of the satellite's place on Earth, of its place in the sky is finite. *)
Definition vsun_finite (u : sun) : Prop := all_finite [u_ra u; u_dec u; u_az u; u_alt u; u_lon u; u_parang u; u_sep u].
Definition vgeo_finite (g : geo) : Prop := all_finite [g_lat g; g_lon g; g_alt g; g_theta g].
Definition vsat_finite (s : sat) : Prop :=
  all_finite [sa_mjd s; fmul (sa_ra s) RAD2DEG; fmul (sa_dec s) RAD2DEG; sa_az s; sa_alt s; sa_dkm s; sa_sep s; sa_speed s].
Definition event_finite (x : list Z * geo * sun * sat) : Prop :=
  let '(_, g, u, s) := x in vgeo_finite g /\ vsun_finite u /\ vsat_finite s.
(** Each line of a list of files is free of quotes, backslashes and control characters. *)
Definition clean_rows (contents : list Z) : Prop := Forall (fun c => plain c \/ c = 10) contents.
(** The list file named on the command line, if any and if it exists, has such lines. *)
Definition list_clean (e : venv) (argv : list (list Z)) (p : vparams) : Prop :=
  forall name contents, nth_error argv (file_arg argv) = Some (64 :: name) -> n_fs e (v_tle_path p ++ 47 :: name) = Some contents -> clean_rows contents.

(** The command as given: program name and arguments. *)
Definition vis_command (argv : list (list Z)) : list Z := bytes "sat_visibility" ++ concat (map (fun a => 32 :: a) (skipn 1 argv)).
(** The text announces the satellite with this name and this designator. *)
Definition announces (out name desig : list Z) : Prop :=
  exists pre post, out = pre ++ q "'satellite': {'name': '" ++ name ++ q "', 'intl_desig': '" ++ desig ++ q "', 'norad_n': " ++ post.
