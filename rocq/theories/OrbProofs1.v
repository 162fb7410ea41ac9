(** The last stage of the propagator, in real arithmetic. *)
From Coq Require Import ZArith Reals Lra Lia Bool.
From Verif Require Import CLib ArithModel GeoLemmas OrbModel OrbSpec.
Open Scope R_scope.

(** The quantities of common.c:131-279, one by one. *)
Section Mirror.
Context (xnode a ecc cosio sinio xincl omega xl : R).
Definition q_axn : R := ecc * cos omega.
Definition q_temp : R := 1 / 1 / (a * (1 / 1 - ecc * ecc)).
Definition q_ayn : R := ecc * sin omega + q_temp * (25 / 100 * a3ovk2 ideal * sinio).
Definition q_elsq : R := q_axn * q_axn + q_ayn * q_ayn.
Definition q_xlt : R := xl + q_temp * (125 / 1000 * a3ovk2 ideal * sinio * (3 / 1 + 5 / 1 * cosio) / (1 / 1 + cosio)) * q_axn.
Definition q_capu : R := centralize_angle ideal (q_xlt - xnode).
Definition q_x3 : R := 3 / 1 * (cosio * cosio) - 1 / 1.
Definition q_s2 : R := 1 / 1 - cosio * cosio.
Definition q_x7 : R := 7 / 1 * (cosio * cosio) - 1 / 1.
Definition q_code (rval : Z) : Z :=
  let rval := if Rltb (a * (1 / 1 - ecc)) (1 / 1) && Rltb (a * (1 / 1 + ecc)) (1 / 1) then (-3)%Z else rval in
  if Rltb (a * (1 / 1 - ecc)) (1 / 1) || Rltb (a * (1 / 1 + ecc)) (1 / 1) then (-4)%Z else rval.
Section E.
Context (E : R).
Definition q_ecos : R := q_axn * cos E + q_ayn * sin E.
Definition q_esin : R := q_axn * sin E - q_ayn * cos E.
Definition q_pl : R := a * (1 / 1 - q_elsq).
Definition q_r : R := a * (1 / 1 - q_ecos).
Definition q_betal : R := sqrt (1 / 1 - q_elsq).
Definition q_t : R := q_esin / (1 / 1 + q_betal).
Definition q_cosu : R := a / q_r * (cos E - q_axn + q_ayn * q_t).
Definition q_sinu : R := a / q_r * (sin E - q_ayn - q_axn * q_t).
Definition q_u : R := Ratan2 q_sinu q_cosu.
Definition q_sin2u : R := 2 / 1 * q_sinu * q_cosu.
Definition q_cos2u : R := 2 / 1 * q_cosu * q_cosu - 1 / 1.
Definition q_t1 : R := ck2 ideal / q_pl.
Definition q_t2 : R := q_t1 / q_pl.
Definition q_rk : R := q_r * (1 / 1 - 15 / 10 * q_t2 * q_betal * q_x3) + 5 / 10 * q_t1 * q_s2 * q_cos2u.
Definition q_uk : R := q_u - 25 / 100 * q_t2 * q_x7 * q_sin2u.
Definition q_nodek : R := xnode + 15 / 10 * q_t2 * cosio * q_sin2u.
Definition q_inck : R := xincl + 15 / 10 * q_t2 * cosio * sinio * q_cos2u.
Definition q_ux : R := - sin q_nodek * cos q_inck * sin q_uk + cos q_nodek * cos q_uk.
Definition q_uy : R := cos q_nodek * cos q_inck * sin q_uk + sin q_nodek * cos q_uk.
Definition q_uz : R := sin q_inck * sin q_uk.
Definition q_vx : R := - sin q_nodek * cos q_inck * cos q_uk - cos q_nodek * sin q_uk.
Definition q_vy : R := cos q_nodek * cos q_inck * cos q_uk - sin q_nodek * sin q_uk.
Definition q_vz : R := sin q_inck * cos q_uk.
Definition q_xn : R := xke ideal / (a * sqrt a).
Definition q_rdotk : R := xke ideal * sqrt a * q_esin / q_r - q_xn * q_t1 * q_s2 * q_sin2u.
Definition q_rfdotk : R := xke ideal * sqrt q_pl / q_r + q_xn * q_t1 * (q_s2 * q_cos2u + 15 / 10 * q_x3).
Definition q_km : R := earth_radius_in_km ideal.
Definition q_pos : vect ideal := (q_rk * q_ux * q_km, q_rk * q_uy * q_km, q_rk * q_uz * q_km).
Definition q_vel : vect ideal :=
  ((q_rdotk * q_ux + q_rfdotk * q_vx) * q_km, (q_rdotk * q_uy + q_rfdotk * q_vy) * q_km, (q_rdotk * q_uz + q_rfdotk * q_vz) * q_km).
End E.
Definition q_first : Z := if Rltb (1 / 1 - 1 / 1000000) q_elsq then (-1)%Z else if Rltb a (0 / 1) then (-2)%Z else 0%Z.

Lemma posn_mirror : sxpx_posn_vel ideal xnode a ecc cosio sinio xincl omega xl =
  if negb (q_first =? 0)%Z then mk_place ideal q_first (zero ideal) (zero ideal)
  else match kepler ideal 10 true q_axn q_ayn q_capu ecc q_capu with
       | None => mk_place ideal (-6) (zero ideal) (zero ideal)
       | Some E => mk_place ideal (q_code q_first) (q_pos E) (q_vel E)
       end.
Proof. reflexivity. Qed.
End Mirror.
