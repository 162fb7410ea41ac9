(** What the events of sat_visibility contain.  Nothing here but the statements. *)
From Coq Require Import String Ascii ZArith List Bool.
From Verif Require Import CLib FloatModel CalendarModel TleModel SkymapModel CliModel VisCliModel VisModel VisSpec VisDataSpec VisRuns VisRuns2.
Import ListNotations.
Open Scope Z_scope.

(** C103: in every run that sees the satellite, for every numerical library, the four events contain the place, the Sun, the point below,
    distance, zenith distance, altitude, azimuth and J2000 coordinates of their instant, but (see [told], [end_data]) all of them have
    the motion of the first visible sample, and the end may have an older Sun or coordinates precessed twice. *)
Theorem C103_event_data : forall e fuel argv p fin, visibility e fuel argv p = Ok fin -> vf_code fin = 0 -> events (vf_log fin) <> [] ->
  exists tle, told (n_lib e) p tle (samples (vf_log fin)) (events (vf_log fin)).
Proof. exact data_told. Qed.
Print Assumptions C103_event_data.
Example C103_example : exists e argv p fin tle, visibility e 100 argv p = Ok fin /\ vf_code fin = 0 /\ lit_flags fin = [-1; 1; 1; 0] /\
  event_names fin = map bytes ["start"; "end"; "mid"; "max"]%string /\ told (n_lib e) p tle (samples (vf_log fin)) (events (vf_log fin)).
Proof. exact told_run. Qed.
(** Position angle and speed printed with the highest position are not those of that instant. *)
Theorem C103_motion_refuted : exists r e argv p fin x m, vis_command_line r 10 argv = Ok (Done p) /\ visibility e 100 argv p = Ok fin /\
  nth_error (events (vf_log fin)) 3 = Some x /\ named "max" x /\ nth_error (samples (vf_log fin)) 2 = Some m /\ date_of (fsub (m_t m) JD_OFF) = Ok (sa_date (snd x)) /\
  forall tle n n', ~ motion_at (n_lib e) p tle n n' (m_t m) (motion_of x).
Proof. exact stale_motion. Qed.
Print Assumptions C103_motion_refuted.
(** When the pass ends by leaving the radius the Sun of the end is that of the sample before. *)
Theorem C103_end_sun_refuted : exists r e argv p fin x y z, vis_command_line r 10 argv = Ok (Done p) /\ visibility e 100 argv p = Ok fin /\
  nth_error (events (vf_log fin)) 1 = Some x /\ named "end" x /\ length (samples (vf_log fin)) = 4%nat /\ nth_error (samples (vf_log fin)) 2 = Some y /\ nth_error (samples (vf_log fin)) 3 = Some z /\
  date_of (fsub (m_t z) JD_OFF) = Ok (sa_date (snd x)) /\ u_ra (snd (fst x)) = u_ra (sun_of (n_lib e) (m_t y)) /\ u_ra (snd (fst x)) <> u_ra (sun_of (n_lib e) (m_t z)).
Proof. exact stale_sun. Qed.
Print Assumptions C103_end_sun_refuted.
(** When only the last sample of the range is visible start and end have the same date and different right ascension and altitude. *)
Theorem C103_end_place_refuted : exists r e argv p fin x1 x2, vis_command_line r 10 argv = Ok (Done p) /\ visibility e 100 argv p = Ok fin /\
  nth_error (events (vf_log fin)) 0 = Some x1 /\ nth_error (events (vf_log fin)) 1 = Some x2 /\ named "start" x1 /\ named "end" x2 /\ sa_date (snd x1) = sa_date (snd x2) /\
  sa_ra (snd x1) <> sa_ra (snd x2) /\ sa_alt (snd x1) <> sa_alt (snd x2).
Proof. exact moved_twice. Qed.
Print Assumptions C103_end_place_refuted.
