(** Runs of sat_visibility: what is printed as sidereal time. *)
From Coq Require Import String Ascii ZArith List Bool Lia.
From Coq Require Import Reals Lra.
From Flocq Require Import Core IEEE754.BinarySingleNaN.
From Verif Require Import CLib FloatModel FloatLemmas TleModel IoModel JsonSpec JsonAcceptor JsonProofs JsonDataSpec JsonAgreeSpec JsonAgreeProofs SkymapModel SkymapExamples SkymapRuns CliModel CliRuns VisCliModel VisModel VisSpec VisDataSpec VisOutSpec VisReadSpec VisReadProofs VisRuns VisRuns3.
Import ListNotations.
Open Scope Z_scope.

(** The library of the examples, with the local sidereal time 13 h and the Greenwich one 12 h. *)
Definition star_lib : lib :=
  let L := ex_lib (after_begin 100) (after_begin 200) in
  mk_lib (fun _ => (of_int 13, of_int 12)) (l_deep L) (l_epoch L) (l_propagate L) (l_geo L) (l_observer L) (l_radec L) (l_skysep L) (l_pa L) (l_sun_alt L) (l_sun L) (l_sun_vec L)
    (l_blocked L) (l_dechalat L) (l_precess L).
Definition star_env : venv := venv_of star_lib [("./s.txt"%string, ex_file)].
Lemma star_conditions : Forall clean short_line /\ vhead_finite star_lib short_p /\ v_delta_time short_p = 30 /\ vsun_finite (sun_of star_lib (range_begin short_p)) /\ bnd 29 (range_begin short_p) /\ bnd 29 (range_end short_p).
Proof.
  split; [|split; [|split; [|split; [|split]]]].
  - assert (K: forallb (forallb is_plain) short_line = true) by (vm_compute; reflexivity). rewrite forallb_forall in K. apply Forall_forall. intros x Hx. apply Forall_forall. intros c Hc. apply plain_iff. specialize (K x Hx). rewrite forallb_forall in K. now apply K.
  - unfold vhead_finite. match goal with |- let '(_, _) := ?x in _ => change x with (of_int 0, of_int 0, of_int 0) end. cbv iota beta. apply fin64_ok. vm_compute. reflexivity.
  - vm_compute. reflexivity.
  - apply fin64_ok. vm_compute. reflexivity.
  - apply bnd_by. vm_compute. reflexivity.
  - apply bnd_by. vm_compute. reflexivity.
Qed.
Lemma star_run0 : exists fin, visibility star_env 100 short_line short_p = Ok fin /\ vf_code fin = 0 /\ events (vf_log fin) = [].
Proof.
  vgo (fun fin => (vf_code fin =? 0) && (reported fin =? 0)). split; [now apply Z.eqb_eq|]. match goal with K : (reported _ =? 0) = true |- _ => apply Z.eqb_eq in K; unfold reported in K end.
  destruct (events (vf_log fin)); [reflexivity|cbn [length] in *; lia].
Qed.
Lemma agree_num x tol y tol' : agree (Num x tol) (Num y tol') -> (Rabs (x - y) <= tol + tol')%R.
Proof. intros H. inversion H. assumption. Qed.
Lemma agree_at k t l k' t' l' : agree_members ((k, t) :: l) ((k', t') :: l') -> agree t t' /\ agree_members l l'.
Proof. intros H. inversion H; subst. tauto. Qed.
Lemma agree_obj l l' : agree (Obj l) (Obj l') -> agree_members l l'. Proof. intros H. now inversion H. Qed.
(** No reader finds the sidereal time, whatever else is expected of the document. *)
Lemma star_run : exists fin, visibility star_env 100 short_line short_p = Ok fin /\ vf_code fin = 0 /\ (forall t, l_lmst (n_lib star_env) t = (of_int 13, of_int 12)) /\
  exists text, vf_out fin = text ++ [10] /\ (exists t, shows text t) /\ (forall file ra gmst part n, ~ shows text (vdocument (vrequest (n_lib star_env) short_p file ra (of_int 13) gmst) part n)) /\
    (forall file ra lmst part n, ~ shows text (vdocument (vrequest (n_lib star_env) short_p file ra lmst (of_int 12)) part n)) /\
    (forall file lmst gmst part n, ~ shows text (vdocument (vrequest (n_lib star_env) short_p file (fmul (of_int 13) (of_int 15)) lmst gmst) part n)).
Proof.
  destruct star_run0 as (fin & H & K & E). exists fin. split; [exact H|]. split; [exact K|]. split; [reflexivity|]. destruct star_conditions as (C1 & C2 & C3 & C4 & C5 & C6).
  destruct (read_vis dec_reader 10 star_env 100 short_line short_p fin short_ok H K C1 C2 ltac:(rewrite C3; lia) C5 C6 ltac:(rewrite E; constructor)) as (fl & _ & R & _). cbv zeta in R.
  destruct (R E C4) as (text & Et & S). exists text. split; [exact Et|]. split; [eexists; exact S|]. clear R Et H.
  destruct (of_int_R 0 ltac:(lia)) as (_ & V0). destruct (of_int_R 13 ltac:(lia)) as (_ & V13). destruct (of_int_R 12 ltac:(lia)) as (_ & V12).
  assert (V195 : toR (fmul (of_int 13) (of_int 15)) = 195%R). { assert (Q : match fmul (of_int 13) (of_int 15) with B754_finite false m e _ => (Z.pos m =? 195 * 2 ^ 45) && (e =? - 45) | _ => false end = true) by (vm_compute; reflexivity).
    destruct (fmul (of_int 13) (of_int 15)) as [| | |[|] m e Hb]; try discriminate Q. apply andb_prop in Q. destruct Q as (Qm & Qe). apply Z.eqb_eq in Qm, Qe. unfold B2R, F2R. cbn [cond_Zopp Fnum Fexp]. rewrite Qm, Qe.
    change (bpow radix2 (- 45)) with (/ IZR (2 ^ 45))%R. rewrite mult_IZR. field. apply not_0_IZR. discriminate. }
  assert (G : forall file ra lmst gmst part n, shows text (vdocument (vrequest (n_lib star_env) short_p file ra lmst gmst) part n) ->
     (Rabs (B2R (of_int 0) - B2R ra) <= 1 / 2 / 10 ^ 4 + 1 / 2 / 10 ^ 4)%R /\ (Rabs (B2R (of_int 0) - B2R lmst) <= 1 / 2 / 10 ^ 4 + 1 / 2 / 10 ^ 4)%R /\ (Rabs (B2R (of_int 0) - B2R gmst) <= 1 / 2 / 10 ^ 4 + 1 / 2 / 10 ^ 4)%R).
  { intros file ra lmst gmst part n S'. pose proof (shows_agree _ _ S _ S') as A. clear S S'. unfold vdocument, vrequest in A. destruct (l_dechalat _ _ _) as ((alt & az) & pg). apply agree_obj in A. cbn [app] in A.
    apply agree_at in A. destruct A as (_ & A). apply agree_at in A. destruct A as (_ & A). apply agree_at in A. destruct A as (A & _). apply agree_obj in A.
    apply agree_at in A. destruct A as (_ & A). apply agree_at in A. destruct A as (_ & A). apply agree_at in A. destruct A as (B & A). apply agree_at in A. destruct A as (_ & A). apply agree_at in A. destruct A as (_ & A). apply agree_at in A. destruct A as (G & _).
    apply agree_obj in B. apply agree_at in B. destruct B as (R & B). apply agree_at in B. destruct B as (_ & B). apply agree_at in B. destruct B as (_ & B). apply agree_at in B. destruct B as (L & _).
    unfold Real in *. apply agree_num in R, L, G. tauto. }
  split; [|split]; intros file a b part n S'; destruct (G _ _ _ _ _ _ S') as (G1 & G2 & G3).
  - rewrite V0, V13 in G2. apply Rabs_le_inv in G2. cbn [pow] in G2. lra.
  - rewrite V0, V12 in G3. apply Rabs_le_inv in G3. cbn [pow] in G3. lra.
  - rewrite V0, V195 in G1. apply Rabs_le_inv in G1. cbn [pow] in G1. lra.
Qed.
Lemma sidereal_run : exists fin text, vis_command_line dec_reader 10 short_line = Ok (Done short_p) /\ visibility star_env 100 short_line short_p = Ok fin /\ vf_code fin = 0 /\
  (forall t, l_lmst (n_lib star_env) t = (of_int 13, of_int 12)) /\ vf_out fin = text ++ [10] /\ (exists t, shows text t) /\
  (forall file ra gmst part n, ~ shows text (vdocument (vrequest (n_lib star_env) short_p file ra (of_int 13) gmst) part n)) /\
  (forall file ra lmst part n, ~ shows text (vdocument (vrequest (n_lib star_env) short_p file ra lmst (of_int 12)) part n)) /\
  (forall file lmst gmst part n, ~ shows text (vdocument (vrequest (n_lib star_env) short_p file (fmul (of_int 13) (of_int 15)) lmst gmst) part n)).
Proof. destruct star_run as (fin & H & K & L & text & E & R). exists fin, text. split; [exact short_ok|]. tauto. Qed.
