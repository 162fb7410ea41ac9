(** SGP8 in binary64 for a circular orbit. *)
From Coq Require Import ZArith Bool List.
From Flocq Require Import IEEE754.BinarySingleNaN.
From Verif Require Import CLib FloatModel ArithModel OrbModel Sgp8Model.
Import ListNotations.

Definition nan : b64 := B754_nan.
(** Zero, or not a number. *)
Definition zn (x : b64) : Prop := match x with B754_zero _ | B754_nan => True | _ => False end.
Lemma zn_mul_l x y : zn x -> zn (fmul x y). Proof. destruct x; cbn [zn]; intros H; try contradiction; destruct y; exact I. Qed.
Lemma zn_opp x : zn x -> zn (fopp x). Proof. destruct x; cbn [zn]; intros H; try contradiction; exact I. Qed.
Lemma zn_div x y : zn x -> zn y -> fdiv x y = nan. Proof. destruct x; cbn [zn]; intros H; try contradiction; destruct y; cbn [zn]; intros K; try contradiction; reflexivity. Qed.
Lemma nan_add_l x : fadd nan x = nan. Proof. destruct x; reflexivity. Qed.
Lemma nan_add_r x : fadd x nan = nan. Proof. destruct x; reflexivity. Qed.
Lemma nan_sub_l x : fsub nan x = nan. Proof. destruct x; reflexivity. Qed.
Lemma nan_sub_r x : fsub x nan = nan. Proof. destruct x; reflexivity. Qed.
Lemma nan_mul_l x : fmul nan x = nan. Proof. destruct x; reflexivity. Qed.
Lemma nan_mul_r x : fmul x nan = nan. Proof. destruct x; reflexivity. Qed.
Lemma nan_div_l x : fdiv nan x = nan. Proof. destruct x; reflexivity. Qed.
Lemma nan_div_r x : fdiv x nan = nan. Proof. destruct x; reflexivity. Qed.
Lemma nan_opp : fopp nan = nan. Proof. reflexivity. Qed.
Ltac nans := repeat first [rewrite nan_add_l | rewrite nan_add_r | rewrite nan_sub_l | rewrite nan_sub_r | rewrite nan_mul_l | rewrite nan_mul_r | rewrite nan_div_l | rewrite nan_div_r | rewrite nan_opp].
Ltac mc := unfold int; cbn [add sub mul div opp machine].

(** Names for the first let of a term under [f]. *)
Ltac name_ := lazymatch goal with |- ?f (let x := ?v in @?b x) => let y := fresh x in pose (y := v); change (f (b y)); cbv beta end.

Section Round.
Context (m : libm) (o : orb (machine m)).
Local Notation A := (machine m).
Context (Z : zn (o_eo A o)).
Let d := sxpall_common_init A o.
Let c := sxp8_common_init A o d.
Let s := c_sin A (o_xincl A o).
Let g := drag_init A o d c s.
Definition flat_g (x : drag8 A) : Prop := zn (g_eta A x) /\ g_eta2 A x = fmul (g_eta A x) (g_eta A x).
Lemma eta_zn : flat_g g.
Proof. unfold g. cbv delta [drag_init]; cbv beta. repeat name_. split; [apply zn_mul_l, zn_mul_l, Z|reflexivity]. Qed.
Definition no_third (x : rates8 A) : Prop := q_xntrdt A x = nan.
Lemma xntrdt_nan : no_third (more_rates A o d c g).
Proof.
  destruct eta_zn as [H1 H2]. generalize dependent g. intros g' H1 H2.
  cbv delta [more_rates]; cbv beta. repeat name_. unfold no_third. cbn [q_xntrdt].
  assert (P : zn psdtps) by (apply zn_mul_l, zn_mul_l, zn_opp, H1).
  assert (Q : d19 = nan). { unfold d19. assert (Y : eta2 = fmul eta eta) by exact H2. clearbody eta2. subst eta2. cbn [div machine sub]. rewrite zn_div; [nans; reflexivity|apply zn_opp, zn_mul_l, P|apply zn_mul_l, H1]. }
  unfold xntrdt. clearbody d19. subst d19. clearbody d1ddt d25 d18 d17. mc. nans. reflexivity.
Qed.
Lemma decay_nan t : f_fit A (SGP8_init A o) <> None -> fst (fst (decay A (o_eo A o) (SGP8_init A o) t)) = nan /\ snd (fst (decay A (o_eo A o) (SGP8_init A o) t)) = nan.
Proof.
  assert (E : f_fit A (SGP8_init A o) = if ltn A (cst A 216 100000) (c_fabs A (mul A (g_xndtn A g) (int A 1440))) then Some (fit A (g_xndt A g) (more_rates A o d c g)) else None).
  { unfold SGP8_init. cbv zeta. change (drag_init _ _ _ _ _) with g. change (sxpall_common_init A o) with d. change (sxp8_common_init A o d) with c. destruct (ltn _ _ _); reflexivity. }
  intros F. unfold decay. rewrite E in *. destruct (ltn _ _ _); [|destruct F; reflexivity].
  assert (X := xntrdt_nan). set (r := more_rates A o d c g) in *. clearbody r. set (x := g_xndt A g). clearbody x. destruct r as [r1 r2 r3 r4]. unfold no_third in X. cbn [q_xntrdt] in X. subst r4.
  unfold fit. cbv zeta. cbn [f_pp f_gamma f_xnd f_qq f_ed f_ovgpp q_edot q_xnddt q_eddot q_xntrdt fst snd]. mc. nans. split; reflexivity.
Qed.
Definition lost (x : vect A * vect A) : Prop := x = ((nan, nan, nan), (nan, nan, nan)).
Lemma place_nan (k : com8 A) (a b e f M w n : b64) : lost (posn_vel8 A k a b e f nan nan M w n).
Proof.
  cbv delta [posn_vel8]; cbv beta. name_. destruct (kepler8 _ _ _ _ _) as [[sine cose] zc5]. repeat name_.
  assert (B : beta2m = nan) by (unfold beta2m; mc; nans; reflexivity). assert (P : pm = nan) by (unfold pm; rewrite B; mc; nans; reflexivity).
  assert (R : rm = nan) by (unfold rm; rewrite P; mc; nans; reflexivity). assert (RR : rr = nan) by (unfold rr; rewrite R; mc; nans; reflexivity).
  assert (G : rdot = nan) by (unfold rdot; mc; nans; reflexivity). assert (V : rvdot = nan) by (unfold rvdot; rewrite R; mc; nans; reflexivity).
  clearbody rr rdot rvdot ux uy uz vx vy vz km. subst rr rdot rvdot. unfold lost. mc. nans. reflexivity.
Qed.
Theorem circular_nan t : f_fit A (SGP8_init A o) <> None ->
  SGP8 A t o (SGP8_init A o) = mk_place A 0 (nan, nan, nan) (nan, nan, nan).
Proof.
  intros F. destruct (decay_nan t F) as [X Y]. unfold SGP8. cbv zeta. destruct (decay A (o_eo A o) (SGP8_init A o) t) as [[xn em] z1]. cbn [fst snd] in X, Y. subst xn em.
  rewrite place_nan. reflexivity.
Qed.
End Round.

(** A library whose sine and cosine are 1/2 and whose powers are 11/10, and an orbit in strong drag. *)
Definition flat_libm : libm :=
  mk_libm (fun _ => round_ratio 1 2) (fun _ => round_ratio 1 2) (fun x => x) (fun x => x) (fun x => x) (fun x _ => x) (fun _ _ => round_ratio 11 10).
Definition o_circle : orb (machine flat_libm) :=
  mk_orb (machine flat_libm) (round_ratio 1 1) (round_ratio 1 1) (B754_zero false) (B754_zero false) (B754_zero false) (B754_zero false) (round_ratio 6 100) 52.
Lemma circle_fast : zn (o_eo (machine flat_libm) o_circle) /\ f_fit (machine flat_libm) (SGP8_init (machine flat_libm) o_circle) <> None.
Proof.
  split; [exact I|]. intros H. assert (E : match f_fit (machine flat_libm) (SGP8_init (machine flat_libm) o_circle) with Some _ => true | None => false end = true) by (vm_compute; reflexivity).
  rewrite H in E. discriminate E.
Qed.
Lemma no_place8 : exists m o, zn (o_eo (machine m) o) /\ forall t, SGP8 (machine m) t o (SGP8_init (machine m) o) = mk_place (machine m) 0 (nan, nan, nan) (nan, nan, nan).
Proof. exists flat_libm, o_circle. split; [exact I|]. intros t. apply circular_nan; apply circle_fast. Qed.
