(** Runs of sat_visibility with a library whose numbers change with time. *)
From Coq Require Import String Ascii ZArith List Bool Lia.
From Flocq Require Import IEEE754.BinarySingleNaN.
From Verif Require Import CLib FloatModel CalendarModel TleModel IoModel SkymapModel SkymapExamples SkymapRuns CliModel CliRuns VisCliModel VisModel VisSpec VisDataSpec VisProofs9 VisProofs11 VisRuns.
Import ListNotations.
Open Scope Z_scope.

(** As [ex_lib], with a Sun whose right ascension is the time, a declination that is the time in minutes, precession by one unit, altitude and
    azimuth that are the declination and the hour angle; the separation from one step to the next is the distance in time from [peak]. *)
Definition moving_lib (peak dark : b64) : lib :=
  let L := ex_lib peak dark in
  mk_lib (l_lmst L) (l_deep L) (l_epoch L) (fun _ _ _ m => mk_vec m (of_int 0) (of_int 0)) (l_geo L) (l_observer L) (fun o s => (vx o, vx s, of_int 1000)) (l_skysep L)
    (fun _ dec _ dec1 => fsub dec1 dec) (l_sun_alt L) (fun t _ _ _ => mk_sun t (of_int 0) (of_int 0) (of_int 0) (of_int 0) (of_int 0) (of_int 0)) (l_sun_vec L) (l_blocked L)
    (fun dec ha => (dec, ha, of_int 0)) (fun _ ra dec => (fadd ra (of_int 1), fadd dec (of_int 1))).
Definition moving (peak dark : Z) : venv := venv_of (moving_lib (after_begin peak) (after_begin dark)) [("./s.txt"%string, ex_file)].

Definition nth_event (n : nat) (fin : vfinal) : option (list Z * geo * sun * sat) := nth_error (events (vf_log fin)) n.
Definition is_named (nm : string) (x : list Z * geo * sun * sat) : bool := same (fst (fst (fst x))) (bytes nm).
(** The doubles are not equal: they differ and the second is a number. *)
Definition unlike (a b : b64) : bool := negb (feq a b) && feq b b.
Lemma unlike_ne : forall a b, unlike a b = true -> a <> b.
Proof. intros a b H ->. unfold unlike in H. destruct (feq b b); discriminate H. Qed.

(** The doubles are the same. *)
Definition is_same (a b : b64) : bool :=
  match a, b with
  | B754_zero s, B754_zero s' => Bool.eqb s s'
  | B754_finite s m e _, B754_finite s' m' e' _ => Bool.eqb s s' && Pos.eqb m m' && Z.eqb e e'
  | _, _ => false
  end.
Lemma is_same_eq : forall a b, is_same a b = true -> a = b.
Proof.
  intros [s|s| |s m e H] [s'|s'| |s' m' e' H']; cbn [is_same]; try discriminate; intro E.
  - apply eqb_prop in E. now subst.
  - apply andb_prop in E. destruct E as (E & E3). apply andb_prop in E. destruct E as (E1 & E2). apply eqb_prop in E1. apply Pos.eqb_eq in E2. apply Z.eqb_eq in E3. subst.
    f_equal. apply Eqdep_dec.UIP_dec, Bool.bool_dec.
Qed.
(** The speed of two samples, in terms of the library of these runs. *)
Definition speed_then (peak : Z) (p : vparams) (t : b64) : b64 :=
  fdiv (fmul (l_skysep (ex_lib (after_begin peak) (of_int 0)) (of_int 0) (of_int 0) t (of_int 0)) (of_int 60)) (of_int (v_delta_time p)).
Lemma moving_speed : forall peak dark p tle n n' t m, motion_at (n_lib (moving peak dark)) p tle n n' t m -> snd m = speed_then peak p t.
Proof. intros peak dark p tle n n' t m H. unfold motion_at in H. cbn in H. subst m. reflexivity. Qed.

(** Position angle and speed printed with the highest position are those of another time. *)
Lemma stale_motion : exists r e argv p fin x m, vis_command_line r 10 argv = Ok (Done p) /\ visibility e 100 argv p = Ok fin /\
  nth_error (events (vf_log fin)) 3 = Some x /\ named "max" x /\ nth_error (samples (vf_log fin)) 2 = Some m /\ date_of (fsub (m_t m) JD_OFF) = Ok (sa_date (snd x)) /\
  forall tle n n', ~ motion_at (n_lib e) p tle n n' (m_t m) (motion_of x).
Proof.
  set (e := moving 6 7).
  destruct (vran e 100 long_line long_p (fun fin => match nth_error (events (vf_log fin)) 3, nth_error (samples (vf_log fin)) 2 with
    | Some x, Some m => is_named "max" x && unlike (sa_speed (snd x)) (speed_then 6 long_p (m_t m)) &&
        match date_of (fsub (m_t m) JD_OFF) with Ok d => same d (sa_date (snd x)) | _ => false end | _, _ => false end) ltac:(vm_compute; reflexivity)) as (fin & H & T).
  destruct (nth_error (events (vf_log fin)) 3) as [x|] eqn:E3; [|discriminate T]. destruct (nth_error (samples (vf_log fin)) 2) as [m|] eqn:E2; [|discriminate T].
  apply andb_prop in T. destruct T as (T & Td). apply andb_prop in T. destruct T as (Tn & Tu). exists dec_reader, e, long_line, long_p, fin, x, m.
  split; [exact long_ok|]. split; [exact H|]. split; [exact E3|]. split; [apply same_eq; exact Tn|]. split; [exact E2|].
  split; [destruct (date_of (fsub (m_t m) JD_OFF)); [|discriminate Td]; apply same_eq in Td; now rewrite Td|].
  intros tle n n' M. apply moving_speed in M. exact (unlike_ne _ _ Tu M).
Qed.
(** A pass that ends by leaving the radius: the Sun printed with the end is that of the sample before. *)
Lemma stale_sun : exists r e argv p fin x y z, vis_command_line r 10 argv = Ok (Done p) /\ visibility e 100 argv p = Ok fin /\
  nth_error (events (vf_log fin)) 1 = Some x /\ named "end" x /\ length (samples (vf_log fin)) = 4%nat /\ nth_error (samples (vf_log fin)) 2 = Some y /\ nth_error (samples (vf_log fin)) 3 = Some z /\
  date_of (fsub (m_t z) JD_OFF) = Ok (sa_date (snd x)) /\ u_ra (snd (fst x)) = u_ra (sun_of (n_lib e) (m_t y)) /\ u_ra (snd (fst x)) <> u_ra (sun_of (n_lib e) (m_t z)).
Proof.
  set (e := moving 5 100).
  destruct (vran e 100 long_line long_p (fun fin => match nth_error (events (vf_log fin)) 1, nth_error (samples (vf_log fin)) 2, nth_error (samples (vf_log fin)) 3 with
    | Some x, Some y, Some z => is_named "end" x && (length (samples (vf_log fin)) =? 4)%nat && is_same (u_ra (snd (fst x))) (m_t y) && unlike (u_ra (snd (fst x))) (m_t z) &&
        match date_of (fsub (m_t z) JD_OFF) with Ok d => same d (sa_date (snd x)) | _ => false end | _, _, _ => false end) ltac:(vm_compute; reflexivity)) as (fin & H & T).
  destruct (nth_error (events (vf_log fin)) 1) as [x|] eqn:E1; [|discriminate T]. destruct (nth_error (samples (vf_log fin)) 2) as [y|] eqn:E2; [|discriminate T]. destruct (nth_error (samples (vf_log fin)) 3) as [z|] eqn:E3; [|discriminate T].
  apply andb_prop in T. destruct T as (T & Td). apply andb_prop in T. destruct T as (T & Tu). apply andb_prop in T. destruct T as (T & Ts). apply andb_prop in T. destruct T as (Tn & Tl).
  exists dec_reader, e, long_line, long_p, fin, x, y, z. split; [exact long_ok|]. split; [exact H|]. split; [exact E1|]. split; [apply same_eq; exact Tn|]. split; [now apply Nat.eqb_eq|]. split; [exact E2|]. split; [exact E3|].
  split; [destruct (date_of (fsub (m_t z) JD_OFF)); [|discriminate Td]; apply same_eq in Td; now rewrite Td|]. split; [exact (is_same_eq _ _ Ts)|exact (unlike_ne _ _ Tu)].
Qed.
(** Only the last sample of the range is visible: start and end are the same instant, at different places. *)
Lemma moved_twice : exists r e argv p fin x1 x2, vis_command_line r 10 argv = Ok (Done p) /\ visibility e 100 argv p = Ok fin /\
  nth_error (events (vf_log fin)) 0 = Some x1 /\ nth_error (events (vf_log fin)) 1 = Some x2 /\ named "start" x1 /\ named "end" x2 /\ sa_date (snd x1) = sa_date (snd x2) /\
  sa_ra (snd x1) <> sa_ra (snd x2) /\ sa_alt (snd x1) <> sa_alt (snd x2).
Proof.
  set (e := moving 11 100).
  destruct (vran e 100 short_line short_p (fun fin => match nth_error (events (vf_log fin)) 0, nth_error (events (vf_log fin)) 1 with
    | Some x, Some y => is_named "start" x && is_named "end" y && same (sa_date (snd x)) (sa_date (snd y)) &&
        unlike (sa_ra (snd x)) (sa_ra (snd y)) && unlike (sa_alt (snd x)) (sa_alt (snd y)) | _, _ => false end) ltac:(vm_compute; reflexivity)) as (fin & H & T).
  destruct (nth_error (events (vf_log fin)) 0) as [x|] eqn:E0; [|discriminate T]. destruct (nth_error (events (vf_log fin)) 1) as [y|] eqn:E1; [|discriminate T].
  repeat (apply andb_prop in T; let K := fresh "K" in destruct T as (T & K)).
  exists dec_reader, e, short_line, short_p, fin, x, y. split; [exact short_ok|]. split; [exact H|]. split; [exact E0|]. split; [exact E1|]. split; [apply same_eq; exact T|]. split; [apply same_eq; assumption|].
  split; [apply same_eq; assumption|]. split; apply unlike_ne; assumption.
Qed.

(** The first run told. *)
Lemma data_told : forall e fuel argv p fin, visibility e fuel argv p = Ok fin -> vf_code fin = 0 -> events (vf_log fin) <> [] ->
  exists tle, told (n_lib e) p tle (samples (vf_log fin)) (events (vf_log fin)).
Proof.
  intros e fuel argv p fin H C E. destruct (whole _ _ _ _ _ H) as [(K & _)|(argv' & il & file & f & R)]; [congruence|]. exists (f_tle f). exact (events_data _ _ _ _ _ _ _ _ R C E).
Qed.
Lemma told_run : exists e argv p fin tle, visibility e 100 argv p = Ok fin /\ vf_code fin = 0 /\ lit_flags fin = [-1; 1; 1; 0] /\ event_names fin = map bytes ["start"; "end"; "mid"; "max"]%string /\
  told (n_lib e) p tle (samples (vf_log fin)) (events (vf_log fin)).
Proof.
  destruct (vran (moving 6 7) 100 long_line long_p (fun fin => (vf_code fin =? 0) && same (lit_flags fin) [-1; 1; 1; 0] && lists_eqb (event_names fin) (map bytes ["start"; "end"; "mid"; "max"]%string)) ltac:(vm_compute; reflexivity)) as (fin & H & T).
  apply andb_prop in T. destruct T as (T & T3). apply andb_prop in T. destruct T as (T1 & T2). apply Z.eqb_eq in T1. apply same_eq in T2. apply lists_eq in T3.
  destruct (data_told _ _ _ _ _ H T1) as (tle & D); [unfold event_names in T3; intro K; rewrite K in T3; discriminate T3|]. exists (moving 6 7), long_line, long_p, fin, tle. tauto.
Qed.
