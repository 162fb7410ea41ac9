(** The propagator SDP8: sdp8.c. *)
From Coq Require Import ZArith List Bool.
From Verif Require Import CLib ArithModel OrbModel DeepModel Sgp8Model.
Open Scope Z_scope.

Section Sdp8.
Context (A : arith).
Local Notation D := (num A).
Local Infix "+." := (add A) (at level 50, left associativity).
Local Infix "-." := (sub A) (at level 50, left associativity).
Local Infix "*." := (mul A) (at level 40, left associativity).
Local Infix "/." := (div A) (at level 40, left associativity).
Local Notation "# n" := (int A n) (at level 1).
Local Notation "- x" := (opp A x).

(** sdp8.c:45-48: the fields of deep_arg that Deep_dpinit and Deep_dpsec read.  The other fields of [common_t], which sdp8.c keeps in
    variables of its own or does not have, are not read and are given the value 0. *)
Definition common8 (d : start_t A) (c : com8 A) (sinio : D) : common_t A :=
  mk_common A d #0 #0 #0 #0 #0 #0 #0 sinio #0 (b_xmdot A c) (b_omgdot A c) (b_xnodot A c) #0 #0.

(** sdp8.c:36-89: params[0]-[9] and deep_arg (RETAIN_PERTURBATION_VALUES_AT_EPOCH is not defined). *)
Record par8d := mk_par8d { p_com : com8 A; p_xndt : D; p_edot : D; p_deep : deep A }.
Definition SDP8_init (t : dorb A) : par8d :=
  let o := d_orb A t in
  let d := sxpall_common_init A o in
  let c := sxp8_common_init A o d in
  let sinio := c_sin A (o_xincl A o) in
  let g := drag_init A o d c sinio in
  let edot := - two_thirds A *. g_xndtn A g *. (#1 -. o_eo A o) in
  mk_par8d c (g_xndt A g) edot (Deep_dpinit A t (common8 d c sinio)).

(** sdp8.c:91-220; [None] when Deep_dpsec has not ended within [n] turns; the value returned is always 0. *)
Definition SDP8 (n : nat) (tsince : D) (t : dorb A) (p : par8d) (v : dstate A) : res (option (dstate A * place A)) :=
  let o := d_orb A t in
  let c := p_com p in
  let g := p_deep p in
  let k := g_com A g in
  let d := k_start A k in
  let z1 := p_xndt p *. cst A 5 10 *. tsince *. tsince in
  let z7 := two_thirds A *. cst A 35 10 *. z1 /. i_xnodp A d in
  let xmamdf := o_xmo A o +. k_xmdot A k *. tsince in
  let omgadf := o_omegao A o +. k_omgdot A k *. tsince +. z7 *. b_xgdt1 A c in
  let xnode := o_xnodeo A o +. k_xnodot A k *. tsince +. z7 *. b_xhdt1 A c in
  match Deep_dpsec A n t g tsince (mk_elems A xmamdf omgadf xnode #0 #0 (i_xnodp A d)) v with
  | None => Ok None
  | Some (y, v) =>
      let xn := y_xn A y +. p_xndt p *. tsince in
      let em := y_em A y +. p_edot p *. tsince in
      let xmam := y_xll A y +. z1 +. z7 *. b_xmdt1 A c in
      r <- Deep_dpper A t g tsince (mk_elems A xmam (y_omgadf A y) (y_xnode A y) em (y_xinc A y) xn) v ;;
      let '(y, v) := r in
      let xmam := FMod2p A (y_xll A y) in
      let sinio2 := c_sin A (y_xinc A y *. cst A 5 10) in
      let '(pos, vel) := posn_vel8 A c (k_sinio A k) (i_cosio A d) (i_cosio2 A d) sinio2 (y_xn A y) (y_em A y) xmam (y_omgadf A y) (y_xnode A y) in
      Ok (Some (v, mk_place A 0 pos vel))
  end.

End Sdp8.
