(** Conditions and claims about the text printed by sat_skymap. *)
From Coq Require Import ZArith List Bool.
From Flocq Require Import IEEE754.BinarySingleNaN.
From Verif Require Import CLib FloatModel JsonSpec SkymapModel SkymapSpec.
Import ListNotations.
Open Scope Z_scope.

(** Every number printed before the list of satellites is finite. *)
Definition hdr_finite (e : env) : Prop :=
  let p := e_p e in let h := e_h e in
  Forall (fun x : b64 => is_finite x = true)
    [p_lat p; p_lon p; p_ht p; p_ra p; p_de p; fmul (h_lmst h) (of_int 15); p_radius p; h_lmst h; h_az h; h_alt h; h_parang h; p_mjd p; h_gmst h;
     h_sun_ra h; h_sun_dec h; h_sun_az h; h_sun_alt h; h_sun_lon h; h_sun_parang h; h_sun_sep h].
(** Every number printed for a satellite is finite. *)
Definition num_finite (n : num) : Prop :=
  Forall (fun x : b64 => is_finite x = true) [n_lat n; n_lon n; n_alt n; n_theta n; n_ra n; n_dec n; n_ra1 n; n_dec1 n; n_dist n; n_sep n; n_speed n].
Definition item_clean (i : item) : Prop := clean (i_name i) /\ clean (i_desig i) /\ num_finite (i_num i).

(** The command as given: program name and arguments. *)
Definition command (argv : list (list Z)) : list Z := progname ++ concat (map (fun a => 32 :: a) (skipn 1 argv)).
