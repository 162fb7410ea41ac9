(** Property theorem C122: what a reader of JSON finds in the output of sat_visibility. *)
From Coq Require Import String Ascii ZArith List Bool.
From Flocq Require Import Core IEEE754.BinarySingleNaN.
From Verif Require Import CLib FloatModel TleModel IoModel JsonSpec JsonDataSpec SkymapModel SkymapRuns CliModel CliRuns VisCliModel VisModel VisSpec VisDataSpec VisOutSpec VisReadSpec VisReadProofs VisProofs12 VisRuns VisRuns3 VisRuns4.
Import ListNotations.
Open Scope Z_scope.

(** C122: the text of a run that ends normally (conditions as in C114) ends with a newline; before it stands a JSON object with the members
    of [vdocument] in their order.  If the satellite was never seen: the request and the Sun at the begin of the range.  If it was
    seen: its name, designator and number, the four events in their order, each with place, Sun and satellite, and the minutes between the
    two clock readings of [seen].  Every number is the computed one to half a unit of the last place printed.  Right ascension
    and sidereal times of the request are printed as 0. *)
Theorem C122_document : forall r f e fuel argv p fin, vis_command_line r f argv = Ok (Done p) -> visibility e fuel argv p = Ok fin -> vf_code fin = 0 ->
  Forall clean argv -> vhead_finite (n_lib e) p -> 1 <= v_delta_time p <= 2147483647 -> bnd 29 (range_begin p) -> bnd 29 (range_end p) ->
  Forall event_finite (events (vf_log fin)) ->
  exists file, file_named argv file /\
  let asked := vrequest (n_lib e) p file (of_int 0) (of_int 0) (of_int 0) in
  (events (vf_log fin) = [] -> vsun_finite (sun_of (n_lib e) (range_begin p)) ->
     exists text, vf_out fin = text ++ [10] /\ shows text (vdocument asked (unseen_part (sun_of (n_lib e) (range_begin p))) 0)) /\
  (events (vf_log fin) <> [] -> exists name desig tle t0 idle lit en,
     seen (n_lib e) p tle t0 (range_end p) (samples (vf_log fin)) idle lit en (events (vf_log fin)) /\ announces (vf_out fin) name desig /\
     (clean name -> clean desig -> exists text, vf_out fin = text ++ [10] /\
        let minutes := duration (begin_clock (vstep p) t0 (length idle)) (end_clock (vstep p) t0 (length (samples (vf_log fin))) en) in
        shows text (vdocument asked (seen_part name desig (norad_number tle) minutes (events (vf_log fin))) 1))).
Proof. exact read_vis. Qed.
Print Assumptions C122_document.
(** C122 for the right ascension of the zenith and the sidereal times is false: with the local sidereal time 13 h and the Greenwich one 12 h at
    all times the text, which is JSON, holds no document with any of the three right, whatever else is expected of it. *)
Theorem C122_sidereal_refuted : exists r e argv p fin text, vis_command_line r 10 argv = Ok (Done p) /\ visibility e 100 argv p = Ok fin /\ vf_code fin = 0 /\
  (forall t, l_lmst (n_lib e) t = (of_int 13, of_int 12)) /\ vf_out fin = text ++ [10] /\ (exists t, shows text t) /\
  (forall file ra gmst part n, ~ shows text (vdocument (vrequest (n_lib e) p file ra (of_int 13) gmst) part n)) /\
  (forall file ra lmst part n, ~ shows text (vdocument (vrequest (n_lib e) p file ra lmst (of_int 12)) part n)) /\
  (forall file lmst gmst part n, ~ shows text (vdocument (vrequest (n_lib e) p file (fmul (of_int 13) (of_int 15)) lmst gmst) part n)).
Proof. exact (ex_intro _ dec_reader (ex_intro _ star_env (ex_intro _ short_line (ex_intro _ short_p sidereal_run)))). Qed.
Print Assumptions C122_sidereal_refuted.

(** The conditions hold for the runs of the examples of C114, one seeing the satellite and one not. *)
Example C122_conditions : (Forall clean long_line /\ vhead_finite (n_lib (ex_venv 6 7)) long_p /\ v_delta_time long_p = 30 /\ vsun_finite (sun_of (n_lib (ex_venv 6 7)) (range_begin long_p))) /\
  bnd 29 (range_begin long_p) /\ bnd 29 (range_end long_p).
Proof. exact (conj long_conditions long_range). Qed.
Example C122_seen : exists fin, visibility (ex_venv 6 7) 100 long_line long_p = Ok fin /\ vf_code fin = 0 /\ length (events (vf_log fin)) = 4%nat /\ Forall event_finite (events (vf_log fin)) /\ json (vf_out fin).
Proof. exact seen_json. Qed.
Example C122_unseen : exists fin, visibility (ex_venv 100 200) 100 short_line short_p = Ok fin /\ vf_code fin = 0 /\ events (vf_log fin) = [] /\ json (vf_out fin).
Proof. exact unseen_json. Qed.
