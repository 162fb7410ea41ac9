(** The resonance integrator of deep.c with settings other than the ones it starts with: the variables dpsec_integration_step,
    dpsec_integration_order and is_dundee_compliant, the functions of norad.h that set them, and the functions that read them.
    What is not changed by a setting is that of DeepModel.v.  A loop that has not ended after n turns is [None]. *)
From Coq Require Import ZArith List Bool.
From Verif Require Import CLib ArithModel OrbModel DeepModel.
Import ListNotations.
Open Scope Z_scope.

Section Settings.
Context (A : arith).
Let D := num A.
Local Infix "+." := (add A) (at level 50, left associativity).
Local Infix "-." := (sub A) (at level 50, left associativity).
Local Infix "*." := (mul A) (at level 40, left associativity).
Local Infix "/." := (div A) (at level 40, left associativity).
Local Infix "<." := (ltn A) (at level 70).
Local Infix "<=." := (len A) (at level 70).
Local Notation "# n" := (int A n) (at level 1).
Local Notation "- x" := (opp A x).

(** deep.c:96-98 *)
Record settings := mk_settings { z_step : D; z_order : Z; z_dundee : bool }.
Definition settings0 : settings := mk_settings #720 2 false.
(** deep.c:100-112; norad.h:78-80 *)
Definition sxpx_set_implementation_param (param_index new_param : Z) (z : settings) : settings :=
  if param_index =? 0 then mk_settings (z_step z) new_param (z_dundee z)
  else if param_index =? 1 then mk_settings (z_step z) (z_order z) (negb (new_param =? 0))
  else z.
(** deep.c:114-117 *)
Definition sxpx_set_dpsec_integration_step (new_step_size : D) (z : settings) : settings :=
  mk_settings new_step_size (z_order z) (z_dundee z).

(** deep.c:443-479, 497-544: term1a, term1b, term2a, term2b and, for a synchronous orbit, term3a, term3b *)
Definition dpsec_terms (omegaq omgdot : D) (c : coefs A) (xli atime : D) : list (D * D) :=
  let sin_li := c_sin A xli in
  let cos_li := c_cos A xli in
  let sin_2li := #2 *. sin_li *. cos_li in
  let cos_2li := #2 *. cos_li *. cos_li -. #1 in
  match c with
  | Synchronous _ del1 del2 del3 =>
      let c_fasx2 := (cst A 99139134268488593 100000000000000000) in
      let s_fasx2 := (cst A 13093206501640101 100000000000000000) in
      let c_2fasx4 := (cst A 87051638752972937 100000000000000000) in
      let s_2fasx4 := - (cst A 49213943048915526 100000000000000000) in
      let c_3fasx6 := (cst A 43258117585763334 100000000000000000) in
      let s_3fasx6 := (cst A 90159499016666422 100000000000000000) in
      let sin_3li := sin_2li *. cos_li +. cos_2li *. sin_li in
      let cos_3li := cos_2li *. cos_li -. sin_2li *. sin_li in
      let term1a := del1 *. (sin_li *. c_fasx2 -. cos_li *. s_fasx2) in
      let term2a := del2 *. (sin_2li *. c_2fasx4 -. cos_2li *. s_2fasx4) in
      let term3a := del3 *. (sin_3li *. c_3fasx6 -. cos_3li *. s_3fasx6) in
      let term1b := del1 *. (cos_li *. c_fasx2 +. sin_li *. s_fasx2) in
      let term2b := #2 *. del2 *. (cos_2li *. c_2fasx4 +. sin_2li *. s_2fasx4) in
      let term3b := #3 *. del3 *. (cos_3li *. c_3fasx6 +. sin_3li *. s_3fasx6) in
      [(term1a, term1b); (term2a, term2b); (term3a, term3b)]
  | Half _ d2201 d2211 d3210 d3222 d4410 d4422 d5220 d5232 d5421 d5433 =>
      let c_g22 := (cst A 87051638752972937 100000000000000000) in
      let s_g22 := - (cst A 49213943048915526 100000000000000000) in
      let c_g32 := (cst A 57972190187001149 100000000000000000) in
      let s_g32 := (cst A 81481440616389245 100000000000000000) in
      let c_g44 := - (cst A 22866241528815548 100000000000000000) in
      let s_g44 := (cst A 97350577801807991 100000000000000000) in
      let c_g52 := (cst A 49684831179884198 100000000000000000) in
      let s_g52 := (cst A 86783740128127729 100000000000000000) in
      let c_g54 := - (cst A 29695209575316894 100000000000000000) in
      let s_g54 := - (cst A 95489237761529999 100000000000000000) in
      let xomi := omegaq +. omgdot *. atime in
      let sin_omi := c_sin A xomi in
      let cos_omi := c_cos A xomi in
      let sin_li_m_omi := sin_li *. cos_omi -. sin_omi *. cos_li in
      let sin_li_p_omi := sin_li *. cos_omi +. sin_omi *. cos_li in
      let cos_li_m_omi := cos_li *. cos_omi +. sin_omi *. sin_li in
      let cos_li_p_omi := cos_li *. cos_omi -. sin_omi *. sin_li in
      let sin_2omi := #2 *. sin_omi *. cos_omi in
      let cos_2omi := #2 *. cos_omi *. cos_omi -. #1 in
      let sin_2li_m_omi := sin_2li *. cos_omi -. sin_omi *. cos_2li in
      let sin_2li_p_omi := sin_2li *. cos_omi +. sin_omi *. cos_2li in
      let cos_2li_m_omi := cos_2li *. cos_omi +. sin_omi *. sin_2li in
      let cos_2li_p_omi := cos_2li *. cos_omi -. sin_omi *. sin_2li in
      let sin_2li_p_2omi := sin_2li *. cos_2omi +. sin_2omi *. cos_2li in
      let cos_2li_p_2omi := cos_2li *. cos_2omi -. sin_2omi *. sin_2li in
      let sin_2omi_p_li := sin_li *. cos_2omi +. sin_2omi *. cos_li in
      let cos_2omi_p_li := cos_li *. cos_2omi -. sin_2omi *. sin_li in
      let term1a := d2201 *. (sin_2omi_p_li *. c_g22 -. cos_2omi_p_li *. s_g22)
                 +. d2211 *. (sin_li *. c_g22 -. cos_li *. s_g22)
                 +. d3210 *. (sin_li_p_omi *. c_g32 -. cos_li_p_omi *. s_g32)
                 +. d3222 *. (sin_li_m_omi *. c_g32 -. cos_li_m_omi *. s_g32)
                 +. d5220 *. (sin_li_p_omi *. c_g52 -. cos_li_p_omi *. s_g52)
                 +. d5232 *. (sin_li_m_omi *. c_g52 -. cos_li_m_omi *. s_g52) in
      let term2a := d4410 *. (sin_2li_p_2omi *. c_g44 -. cos_2li_p_2omi *. s_g44)
                 +. d4422 *. (sin_2li *. c_g44 -. cos_2li *. s_g44)
                 +. d5421 *. (sin_2li_p_omi *. c_g54 -. cos_2li_p_omi *. s_g54)
                 +. d5433 *. (sin_2li_m_omi *. c_g54 -. cos_2li_m_omi *. s_g54) in
      let term1b := d2201 *. (cos_2omi_p_li *. c_g22 +. sin_2omi_p_li *. s_g22)
                 +. d2211 *. (cos_li *. c_g22 +. sin_li *. s_g22)
                 +. d3210 *. (cos_li_p_omi *. c_g32 +. sin_li_p_omi *. s_g32)
                 +. d3222 *. (cos_li_m_omi *. c_g32 +. sin_li_m_omi *. s_g32)
                 +. d5220 *. (cos_li_p_omi *. c_g52 +. sin_li_p_omi *. s_g52)
                 +. d5232 *. (cos_li_m_omi *. c_g52 +. sin_li_m_omi *. s_g52) in
      let term2b := #2 *. (d4410 *. (cos_2li_p_2omi *. c_g44 +. sin_2li_p_2omi *. s_g44)
                 +. d4422 *. (cos_2li *. c_g44 +. sin_2li *. s_g44)
                 +. d5421 *. (cos_2li_p_omi *. c_g54 +. sin_2li_p_omi *. s_g54)
                 +. d5433 *. (cos_2li_m_omi *. c_g54 +. sin_2li_m_omi *. s_g54)) in
      [(term1a, term1b); (term2a, term2b)]
  end.
(** deep.c:488-493, 553-556: the multiplication by -1, -4 and -9 *)
Definition scale1 (n : Z) (x : D) : D := if n =? 1 then - x else x *. (- #(n * n)).
Fixpoint scale (n : Z) (ts : list (D * D)) : list (D * D) :=
  match ts with
  | [] => []
  | (a, b) :: ts => (scale1 n a, scale1 n b) :: scale (n + 1) ts
  end.
(** deep.c:484-485, 549-550: the sum of the terms *)
Definition sum_terms (f : D * D -> D) (ts : list (D * D)) : D :=
  match ts with
  | [] => #0
  | t :: ts => fold_left (fun s t => s +. f t) ts (f t)
  end.
(** deep.c:482-495, 547-558: the entries written in [turns] turns from entry [i] on; the array has 20 entries (deep.c:597) *)
Fixpoint derivs_loop (turns : nat) (i : Z) (ts : list (D * D)) : res (list D) :=
  match turns with
  | O => Ok []
  | S turns =>
      if i + 1 <? 20 then
        ds <- derivs_loop turns (i + 2) (scale 1 ts) ;; Ok (sum_terms fst ts :: sum_terms snd ts :: ds)
      else UB OutOfBounds
  end.
(** deep.c:440-560: the entries of derivs that have a value *)
Definition compute_dpsec_derivs_with (z : settings) (omegaq omgdot : D) (c : coefs A) (xli atime : D) : res (list D) :=
  if z_order z <=? 0 then Ok [#0]
  else derivs_loop (Z.to_nat ((z_order z + 1) / 2)) 0 (dpsec_terms omegaq omgdot c xli atime).

(** deep.c:616-623, from i on; [ds] are derivs[i - 1], derivs[i], ..., [prev] is derivs[i - 2] as it stands *)
Fixpoint series (ds : list D) (i : Z) (xldot xlpow delt delt_factor prev xli xni : D) : D * D :=
  match ds with
  | [] => (xli, xni)
  | d :: ds =>
      let xlpow := xlpow *. xldot in
      let d := d *. xlpow in
      let delt_factor := delt_factor *. (delt /. #i) in
      series ds (i + 1) xldot xlpow delt delt_factor d (xli +. delt_factor *. prev) (xni +. delt_factor *. d)
  end.
(** deep.c:611-623: xli and xni after one step [delt] *)
Definition dpsec_step_with (z : settings) (ds : list D) (xfact delt xni xli : D) : D * D :=
  let xldot := xni +. xfact in
  let d0 := hd #0 ds in
  let xli1 := xli +. delt *. xldot in
  let xni1 := xni +. delt *. d0 in
  series (firstn (Z.to_nat (z_order z - 1)) (tl ds)) 2 xldot #1 delt delt d0 xli1 xni1.
(** deep.c:595-630, at most [n] turns: xni and xli at the end, and the atime, xni and xli that are kept *)
Fixpoint dpsec_loop_with (n : nat) (z : settings) (derivs : D -> D -> res (list D)) (xfact t atime xni xli : D)
  : res (option (D * D * (D * D * D))) :=
  match n with
  | O => Ok None
  | S n =>
      let delt := t -. atime in
      ds <- derivs xli atime ;;
      let '(delt, final) :=
        if z_step z <. delt then (z_step z, false) else if delt <. - z_step z then ( - z_step z, false) else (delt, true) in
      let '(xli', xni') := dpsec_step_with z ds xfact delt xni xli in
      if final : bool then
        Ok (Some (xni', xli', if z_dundee z then (atime, xni, xli) else (atime +. delt, xni', xli')))
      else dpsec_loop_with n z derivs xfact t (atime +. delt) xni' xli'
  end.
(** deep.c:582-593: where the integration starts *)
Definition dpsec_start_with (z : settings) (g : deep A) (r : resonance A) (t : D) (v : dstate A) : D * D * D :=
  if (c_fabs A t <. c_fabs A (t -. v_atime A v)) || (z_dundee z && (c_fabs A t <. c_fabs A (v_atime A v)))
  then (#0, i_xnodp A (k_start A (g_com A g)), r_xlamo A r)
  else (v_atime A v, v_xni A v, v_xli A v).
(** deep.c:563-639 *)
Definition Deep_dpsec_with (n : nat) (z : settings) (t : dorb A) (g : deep A) (tsince : D) (y : elems A) (v : dstate A)
  : res (option (elems A * dstate A)) :=
  let xll := y_xll A y +. g_ssl A g *. tsince in
  let omgadf := y_omgadf A y +. g_ssg A g *. tsince in
  let xnode := y_xnode A y +. g_ssh A g *. tsince in
  let em := o_eo A (d_orb A t) +. g_sse A g *. tsince in
  let xinc := o_xincl A (d_orb A t) +. g_ssi A g *. tsince in
  match g_res A g with
  | None => Ok (Some (mk_elems A xll omgadf xnode em xinc (y_xn A y), v))
  | Some r =>
      let '(atime, xni, xli) := dpsec_start_with z g r tsince v in
      let derivs := compute_dpsec_derivs_with z (g_omegaq A g) (k_omgdot A (g_com A g)) (r_coefs A r) in
      e <- dpsec_loop_with n z derivs (r_xfact A r) tsince atime xni xli ;;
      Ok (match e with
          | None => None
          | Some (xni, xli, (atime', xni', xli')) =>
              let temp := - xnode +. g_thgr A g +. tsince *. thdt A in
              let xll := xli +. temp +. (match r_coefs A r with Synchronous _ _ _ _ => - omgadf | Half _ _ _ _ _ _ _ _ _ _ _ => temp end) in
              Some (mk_elems A xll omgadf xnode em xinc xni, mk_dstate A atime' xni' xli' (v_savtsn A v) (v_perts A v))
          end)
  end.
(** deep.c:651-657 *)
Definition refresh_with (z : settings) (g : deep A) (t : D) (v : dstate A) : dstate A :=
  if (#30 <=. c_fabs A (v_savtsn A v -. t)) || z_dundee z
  then mk_dstate A (v_atime A v) (v_xni A v) (v_xli A v) t (Some (perts_at A g t)) else v.
(** deep.c:641-766 *)
Definition Deep_dpper_with (z : settings) (t : dorb A) (g : deep A) (tsince : D) (y : elems A) (v : dstate A) : res (elems A * dstate A) :=
  let v := refresh_with z g tsince v in
  match v_perts A v with
  | None => UB Uninit
  | Some p => Ok (apply_perts A (o_xincl A (d_orb A t)) p y, v)
  end.
(** sdp4.c:293-338 *)
Definition SDP4_deep_with (n : nat) (z : settings) (tsince : D) (t : dorb A) (g : deep A) (v : dstate A) : res (option (dstate A * sdp_out A)) :=
  let o := d_orb A t in
  let k := g_com A g in
  let omgadf := o_omegao A o +. k_omgdot A k *. tsince in
  let xnoddf := o_xnodeo A o +. k_xnodot A k *. tsince in
  let tsince_squared := tsince *. tsince in
  let xnode := xnoddf +. k_xnodcf A k *. tsince_squared in
  let xnodp := i_xnodp A (k_start A k) in
  let xll := o_xmo A o +. k_xmdot A k *. tsince in
  e <- Deep_dpsec_with n z t g tsince (mk_elems A xll omgadf xnode #0 #0 xnodp) v ;;
  match e with
  | None => Ok None
  | Some (y, v) =>
      let tempa := #1 -. k_c1 A k *. tsince in
      if y_xn A y <. #0 then Ok (Some (v, NegativeXn A))
      else
        let a := c_pow A (xke A /. y_xn A y) (two_thirds A) *. tempa *. tempa in
        let em := y_em A y -. o_bstar A o *. k_c4 A k *. tsince in
        let xll := y_xll A y +. xnodp *. k_t2cof A k *. tsince_squared in
        r <- Deep_dpper_with z t g tsince (mk_elems A xll (y_omgadf A y) (y_xnode A y) em (y_xinc A y) (y_xn A y)) v ;;
        let '(y, v) := r in
        let xl := y_xll A y +. y_omgadf A y +. y_xnode A y in
        Ok (Some (v, Placed A (sxpx_posn_vel A (y_xnode A y) a (y_em A y) (c_cos A (y_xinc A y)) (c_sin A (y_xinc A y)) (y_xinc A y) (y_omgadf A y) xl)))
  end.
End Settings.
