(** What a reader of JSON finds in the output of sat_visibility. *)
From Coq Require Import String Ascii ZArith List Bool Lia Reals Lra.
From Flocq Require Import Core IEEE754.BinarySingleNaN.
From Verif Require Import CLib ListLemmas FloatModel FloatLemmas TleModel IoModel JsonSpec JsonAcceptor JsonProofs JsonText JsonDataSpec JsonDataProofs.
From Verif Require Import CliModel SkymapModel SkymapReadSpec SkymapReadProofs VisCliModel VisModel VisSpec VisDataSpec VisOutSpec VisReadSpec.
From Verif Require Import VisProofs1 VisProofs2 VisProofs3 VisProofs12.
Import ListNotations.
Open Scope Z_scope.

Definition place_rows (g : geo) : list Z := 123 :: rows_text [r false "lat" (print_f 7 3 (g_lat g)); r true "lon" (print_f 7 3 (g_lon g)); r true "alt" (print_f 9 2 (g_alt g)); r true "theta" (print_f 8 3 (g_theta g))] ++ [125].
Definition sun_rows (u : VisModel.sun) : list Z := 123 :: rows_text [r false "ra" (print_f 7 3 (u_ra u)); r true "dec" (print_f 7 3 (u_dec u)); r true "az" (print_f 8 3 (u_az u)); r true "alt" (print_f 7 3 (u_alt u));
  r true "lon" (print_f 8 3 (u_lon u)); r true "parang" (print_f 8 3 (u_parang u)); r true "separation_deg" (print_f 7 3 (u_sep u))] ++ [125].
Definition sat_rows (s : sat) (pa : Z) : list Z := 123 :: rows_text [r false "Date" (32 :: 34 :: sa_date s ++ [34]); r true "MJD" (32 :: print_f 11 5 (sa_mjd s)); r true "ra" (32 :: print_f 8 4 (fmul (sa_ra s) RAD2DEG));
  r true "dec" (32 :: print_f 8 4 (fmul (sa_dec s) RAD2DEG)); r true "az" (print_f 9 4 (sa_az s)); r true "alt" (print_f 8 4 (sa_alt s)); r true "Distance" (32 :: print_f 9 2 (sa_dkm s));
  r true "Separation" (32 :: print_f 6 4 (sa_sep s)); r true "PA" (32 :: print_d 3 pa); r true "Speed" (32 :: print_f 6 3 (sa_speed s))] ++ [125].
Lemma place_rows_ok g : vgeo_finite g -> shown (place_rows g) (vplace g).
Proof. intros F. unfold vgeo_finite, all_finite in F. fin2 F. apply obj_rows; [|discriminate]. repeat (apply Forall2_cons; [onerow; leaf|]). apply Forall2_nil. Qed.
Lemma sun_rows_ok u : vsun_finite u -> shown (sun_rows u) (vsun u).
Proof. intros F. unfold vsun_finite, all_finite in F. fin2 F. apply obj_rows; [|discriminate]. repeat (apply Forall2_cons; [onerow; leaf|]). apply Forall2_nil. Qed.
Lemma sat_rows_ok s pa : vsat_finite s -> clean (sa_date s) -> to_int (fmul (sa_parang s) RAD2DEG) = Ok pa -> shown (sat_rows s pa) (vsat s).
Proof.
  intros F D H. apply pa_trunc in H. unfold vsat. rewrite <- H. unfold vsat_finite, all_finite in F. fin2 F. apply obj_rows; [|discriminate].
  apply Forall2_cons; [onerow; apply shown_blank, shown_str, D|]. repeat (apply Forall2_cons; [onerow; leaf|]). apply Forall2_nil.
Qed.
Lemma geo_is label g : vis_geo_json label g = 34 :: label ++ 34 :: 58 :: 32 :: place_rows g ++ [44; 32].
Proof. unfold vis_geo_json, place_rows, r. same. Qed.
Lemma sun_is label u : vis_sun_json label u = 34 :: label ++ 34 :: 58 :: 32 :: sun_rows u ++ [44; 32].
Proof. unfold vis_sun_json, sun_rows, r. same. Qed.
Lemma sat_is label s o : vis_sat_json label s = Ok o -> exists pa, to_int (fmul (sa_parang s) RAD2DEG) = Ok pa /\ o = 34 :: label ++ 34 :: 58 :: 32 :: sat_rows s pa ++ (if strstrb label (bytes "sat_max") then [] else [44; 32]).
Proof.
  intros H. unfold vis_sat_json in H. destruct (to_int _) as [pa|]; [|discriminate H]. cbn [bind] in H. apply ok_eq in H. subst o. exists pa. split; [reflexivity|]. unfold sat_rows, r. destruct (strstrb _ _); same.
Qed.
Lemma sun_member label u rest ms : clean label -> vsun_finite u -> shows_members rest ms -> shows_members (vis_sun_json label u ++ rest) ((label, vsun u) :: ms).
Proof.
  intros C F H. apply members_blank in H. eapply eq_members; [apply (member_cons label (32 :: sun_rows u) _ _ _ C (shown_blank _ _ (sun_rows_ok u F)) H)|].
  rewrite sun_is. cbn [app]. rewrite <- !app_assoc. cbn [app]. rewrite <- !app_assoc. reflexivity.
Qed.
Lemma geo_member label g rest ms : clean label -> vgeo_finite g -> shows_members rest ms -> shows_members (vis_geo_json label g ++ rest) ((label, vplace g) :: ms).
Proof.
  intros C F H. apply members_blank in H. eapply eq_members; [apply (member_cons label (32 :: place_rows g) _ _ _ C (shown_blank _ _ (place_rows_ok g F)) H)|].
  rewrite geo_is. cbn [app]. rewrite <- !app_assoc. cbn [app]. rewrite <- !app_assoc. reflexivity.
Qed.
Lemma event_p nm g u s o rest ms : clean nm -> clean (sa_date s) -> event_finite (nm, g, u, s) -> event_text (nm, g, u, s) = Ok o -> strstrb (bytes "sat_" ++ nm) (bytes "sat_max") = false ->
  shows_members rest ms -> shows_members (o ++ rest) (vevent_members (nm, g, u, s) ++ ms).
Proof.
  intros C D (FG & FU & FS) H N R. unfold event_text in H. destruct (vis_sat_json _ s) as [a|] eqn:E; [|discriminate H]. cbn [bind] in H. apply ok_eq in H. subst o. apply sat_is in E. destruct E as (pa & P & ->). rewrite N.
  assert (L : forall x : string, forallb is_plain (bytes x) = true -> clean (bytes x ++ nm)) by (intros x K; apply clean_app; [now apply clean_key|exact C]).
  cbn [vevent_members app]. rewrite <- !app_assoc. apply geo_member; [now apply L|exact FG|]. apply sun_member; [now apply L|exact FU|].
  apply members_blank in R. eapply eq_members; [apply (member_cons _ (32 :: sat_rows s pa) _ _ _ (L "sat_"%string eq_refl) (shown_blank _ _ (sat_rows_ok s pa FS D P)) R)|].
  cbn [app]. rewrite <- !app_assoc. cbn [app]. rewrite <- !app_assoc. reflexivity.
Qed.
Lemma event_last nm g u s o : clean nm -> clean (sa_date s) -> event_finite (nm, g, u, s) -> event_text (nm, g, u, s) = Ok o -> strstrb (bytes "sat_" ++ nm) (bytes "sat_max") = true ->
  shows_members o (vevent_members (nm, g, u, s)).
Proof.
  intros C D (FG & FU & FS) H N. unfold event_text in H. destruct (vis_sat_json _ s) as [a|] eqn:E; [|discriminate H]. cbn [bind] in H. apply ok_eq in H. subst o. apply sat_is in E. destruct E as (pa & P & ->). rewrite N.
  assert (L : forall x : string, forallb is_plain (bytes x) = true -> clean (bytes x ++ nm)) by (intros x K; apply clean_app; [now apply clean_key|exact C]).
  cbn [vevent_members]. apply geo_member; [now apply L|exact FG|]. apply sun_member; [now apply L|exact FU|]. rewrite app_nil_r.
  apply (member_one _ (32 :: sat_rows s pa) _ (L "sat_"%string eq_refl) (shown_blank _ _ (sat_rows_ok s pa FS D P))).
Qed.

(** ** The other pieces *)
Lemma vopen_p rest ms : shows_members rest ms -> shows_members (tl vis_open_json ++ rest) ((key "swinfo", Any) :: ms).
Proof.
  intros H. apply members_blank in H. eapply eq_members; [eapply (member_cons (bytes "swinfo") (q " {'name': 'sat_visibility', 'author': 'L. Nicastro @ INAF-OAS', 'date': '2024-05-13', 'version': '0.1a'}") Any _ _); [cleank|anyv|exact H]|].
  unfold vis_open_json. same.
Qed.
Lemma vrequest_p L p file rest ms : clean file -> clean (v_date0 p) -> clean (v_date1 p) -> vhead_finite L p -> shows_members rest ms ->
  let '(alt, az, parang) := l_dechalat L (fmul (v_lat p) DEG2RAD) (of_int 0) in
  shows_members (vis_params_json file p az alt parang ++ rest) ((key "input_params", vrequest L p file (of_int 0) (of_int 0) (of_int 0)) :: ms).
Proof.
  intros C D0 D1 F H. unfold vrequest, vhead_finite in *. destruct (l_dechalat L _ _) as ((alt & az) & parang). unfold all_finite in F. fin2 F. assert (Z0 : is_finite (of_int 0) = true) by reflexivity. unfold vis_params_json. set (z := of_int 0) in *. clearbody z.
  apply members_blank in H. eapply eq_members; [eapply (member_cons (bytes "input_params") (32 :: 123 :: rows_text
    [r false "tle_file" (32 :: 34 :: file ++ [34]);
     r true "location" (32 :: 123 :: rows_text [r false "lat" (print_f 8 4 (v_lat p)); r true "lon" (print_f 9 4 (v_lon p)); r true "alt" (print_f 8 1 (v_ht p))] ++ [125]);
     r true "region" (32 :: 123 :: rows_text [r false "ra" (print_f 9 4 z); r true "dec" (print_f 8 4 (v_lat p)); r true "radius" (print_f 8 4 (v_radius p)); r true "lmst" (print_f 8 4 z); r true "az" (print_f 9 4 az); r true "alt" (print_f 8 4 alt); r true "parang" (print_f 8 3 parang)] ++ [125]);
     r true "mjd_range" (32 :: 91 :: cells_text [print_f 11 5 (v_mjd0 p); 32 :: print_f 11 5 (v_mjd1 p)] ++ [93]);
     r true "date_utc_range" (32 :: 91 :: cells_text [34 :: v_date0 p ++ [34]; 32 :: 34 :: v_date1 p ++ [34]] ++ [93]); r true "gmst" (print_f 8 4 z);
     r true "delta_time_s" (32 :: print_d 0 (v_delta_time p)); r true "notes" (q " 'All coordinates and radius in degrees. GMST, LMST in hrs.'")] ++ [125]) _ _ _); [cleank| |exact H]|].
  - apply shown_blank, obj_rows; [|discriminate].
    apply Forall2_cons; [onerow; apply shown_blank, shown_str, C|]. apply Forall2_cons; [onerow; apply shown_blank, obj_rows; [|discriminate]; repeat (apply Forall2_cons; [onerow; leaf|]); apply Forall2_nil|].
    apply Forall2_cons; [onerow; apply shown_blank, obj_rows; [|discriminate]; repeat (apply Forall2_cons; [onerow; leaf|]); apply Forall2_nil|].
    apply Forall2_cons; [onerow; apply shown_blank, arr_cells; [|discriminate]; repeat (apply Forall2_cons; [leaf|]); apply Forall2_nil|].
    apply Forall2_cons; [onerow; apply shown_blank, arr_cells; [|discriminate]; apply Forall2_cons; [apply shown_str, D0|]; apply Forall2_cons; [apply shown_blank, shown_str, D1|]; apply Forall2_nil|].
    apply Forall2_cons; [onerow; leaf|]. apply Forall2_cons; [onerow; leaf|]. apply Forall2_cons; [onerow; anyv|]. apply Forall2_nil.
  - unfold r. same.
Qed.
Lemma vlegend_p rest ms : shows_members rest ms -> shows_members (vis_fields_json ++ rest) ((key "sat_fields", vlegend) :: ms).
Proof.
  intros H. eapply eq_members; [eapply (member_cons (bytes "sat_fields") (32 :: 123 :: rows_text
    [r false "desc" (q " ['Date start/end sunlit', 'MJD start/end sunlit', 'RA J2000', 'Dec J2000', 'Azimuth', 'Altitude', 'Distance to sat.', 'Angular separation', 'Position angle', 'Apparent angular rate of motion']");
     r true "type" (q " ['datetime', 'double', 'double', 'double', 'double', 'double', 'double', 'float', 'float', 'float']");
     r true "unit" (32 :: 91 :: cells_text [q "''"; q " 'MJD'"; q " 'deg'"; q " 'deg'"; q " 'deg'"; q " 'deg'"; q " 'km'"; q " 'deg'"; q " 'deg'"; q " 'arcmin/s'"] ++ [93])] ++ [125]) _ _ _); [cleank| |exact H]|].
  - assert (T : forall s, forallb is_plain (bytes s) = true -> shown (34 :: bytes s ++ [34]) (Str (bytes s))) by (intros s K; apply shown_str, clean_key, K).
    apply shown_blank, obj_rows; [|discriminate]. apply Forall2_cons; [onerow; anyv|]. apply Forall2_cons; [onerow; anyv|].
    apply Forall2_cons; [onerow; apply shown_blank, arr_cells; [|discriminate]|apply Forall2_nil].
    apply Forall2_cons; [exact (T ""%string eq_refl)|]. apply Forall2_cons; [exact (shown_blank _ _ (T "MJD"%string eq_refl))|]. do 4 (apply Forall2_cons; [exact (shown_blank _ _ (T "deg"%string eq_refl))|]). apply Forall2_cons; [exact (shown_blank _ _ (T "km"%string eq_refl))|].
    do 2 (apply Forall2_cons; [exact (shown_blank _ _ (T "deg"%string eq_refl))|]). apply Forall2_cons; [exact (shown_blank _ _ (T "arcmin/s"%string eq_refl))|]. apply Forall2_nil.
  - unfold vis_fields_json, r. same.
Qed.
Lemma vsatellite_p name desig n o evs d rest ms : clean name -> clean desig -> is_finite d = true -> shows_members o evs -> shows_members rest ms ->
  shows_members (q " 'satellite': {'name': '" ++ name ++ q "', 'intl_desig': '" ++ desig ++ q "', 'norad_n': " ++ print_d 0 n ++ q ", " ++ o ++ q "}, 'sunlit_duration_minutes': " ++ print_f 0 2 d ++ q ", " ++ rest)
    ((key "satellite", Obj ([(key "name", Str name); (key "intl_desig", Str desig); (key "norad_n", Int n)] ++ evs)) :: (key "sunlit_duration_minutes", Real 2 d) :: ms).
Proof.
  intros C D F E H. apply members_blank in H. apply members_blank in E.
  assert (H1 : shows_members (34 :: bytes "sunlit_duration_minutes" ++ 34 :: 58 :: (32 :: print_f 0 2 d) ++ 44 :: 32 :: rest) ((key "sunlit_duration_minutes", Real 2 d) :: ms)) by (eapply member_cons; [cleank|leaf|exact H]).
  apply members_blank in H1.
  assert (O : shown (32 :: 123 :: (rows_text [r false "name" (32 :: 34 :: name ++ [34]); r true "intl_desig" (32 :: 34 :: desig ++ [34]); r true "norad_n" (32 :: print_d 0 n)] ++ 44 :: 32 :: o) ++ [125]) (Obj ([(key "name", Str name); (key "intl_desig", Str desig); (key "norad_n", Int n)] ++ evs))).
  { apply shown_blank, shown_obj. apply rows_then; [|exact E|discriminate]. apply Forall2_cons; [onerow; apply shown_blank, shown_str, C|]. apply Forall2_cons; [onerow; apply shown_blank, shown_str, D|]. apply Forall2_cons; [onerow; leaf|]. apply Forall2_nil. }
  eapply eq_members; [apply members_blank; eapply (member_cons (bytes "satellite") _ _ _ _); [cleank|exact O|exact H1]|]. unfold r. same.
Qed.
Lemma vclose_p argv il a t : Forall clean argv -> vis_close argv il 0 [] a = Ok t ->
  exists u, t = u ++ [125; 10] /\ shows_members u [(key "run_command", Any); (key "status", Int 0); (key "errmsg", Str []); (key "n_sats_found", Int a)].
Proof.
  intros C H. unfold vis_close in H.
  destruct (if il then _ else _) as [fs|] eqn:H1; [|discriminate H]. cbn [bind] in H. apply ok_eq in H. subst t.
  assert (CF: clean fs).
  { destruct il; [|apply ok_eq in H1; subst fs; constructor]. destruct (nth_error argv 1) as [x|] eqn:N; [|discriminate H1]. apply ok_eq in H1. subst fs.
    apply clean_app; [repeat constructor; unfold plain; cbn; lia|]. rewrite Forall_forall in C. apply C. now apply nth_error_In with (n := 1%nat). }
  assert (CA: clean (concat (map (fun a => 32 :: a) (skipn (if il then 2 else 1) argv)))).
  { generalize (if il then 2%nat else 1%nat). intro k. assert (C': Forall clean (skipn k argv)) by (rewrite <- (firstn_skipn k argv) in C; apply Forall_app in C; tauto).
    induction C' as [|x l X L IH]; [constructor|]. cbn [map concat]. apply clean_app; [|exact IH]. constructor; [unfold plain; lia|exact X]. }
  assert (CC: clean (bytes "sat_visibility" ++ fs ++ concat (map (fun a => 32 :: a) (skipn (if il then 2 else 1) argv)))) by (apply clean_app; [cleank|]; apply clean_app; assumption).
  exists (rows_text [r false "run_command" (32 :: 34 :: (bytes "sat_visibility" ++ fs ++ concat (map (fun a => 32 :: a) (skipn (if il then 2 else 1) argv))) ++ [34]); r true "status" (32 :: print_d 0 0); r true "errmsg" (32 :: 34 :: [] ++ [34]); r true "n_sats_found" (32 :: print_d 0 a)]).
  split.
  - unfold r. generalize (concat (map (fun a => 32 :: a) (skipn (if il then 2 else 1) argv))). intros cc. same.
  - apply rows_ok; [|discriminate]. apply Forall2_cons; [onerow; apply shown_blank, string_any, CC|]. apply Forall2_cons; [onerow; leaf|]. apply Forall2_cons; [onerow; apply shown_blank, shown_str; constructor|]. apply Forall2_cons; [onerow; leaf|]. apply Forall2_nil.
Qed.

(** ** The document *)
Lemma prepared_named argv argv' il file : prepared argv argv' il file -> file_named argv file.
Proof. intros [(_ & _ & N & _)|(_ & _ & N)]; [left|right]; exact N. Qed.
Lemma to_document L p file rest part n t argv il : clean file -> clean (v_date0 p) -> clean (v_date1 p) -> vhead_finite L p -> Forall clean argv -> vis_close argv il 0 [] n = Ok t ->
  (forall u, shows_members u [(key "run_command", Any); (key "status", Int 0); (key "errmsg", Str []); (key "n_sats_found", Int n)] ->
     shows_members (rest ++ u) (part ++ [(key "run_command", Any); (key "status", Int 0); (key "errmsg", Str []); (key "n_sats_found", Int n)])) ->
  exists text, preamble L file p ++ rest ++ t = text ++ [10] /\ shows text (vdocument (vrequest L p file (of_int 0) (of_int 0) (of_int 0)) part n).
Proof.
  intros C D0 D1 F A CL R. destruct (vclose_p _ _ _ _ A CL) as (u & -> & U). specialize (R u U).
  assert (Q := vrequest_p L p file _ _ C D0 D1 F R). unfold preamble. destruct (l_dechalat L _ _) as ((alt & az) & parang). apply geo_p in Q. apply vopen_p in Q.
  exists (123 :: (tl vis_open_json ++ geofieldsdesc_json ++ vis_params_json file p az alt parang ++ rest ++ u) ++ [125]). split; [|apply sh_obj; exact Q].
  change vis_open_json with (123 :: tl vis_open_json) at 1. generalize (tl vis_open_json). intros w. cbn [app]. rewrite <- !app_assoc. reflexivity.
Qed.
Theorem read_vis : forall r f e fuel argv p fin, vis_command_line r f argv = Ok (Done p) -> visibility e fuel argv p = Ok fin -> vf_code fin = 0 ->
  Forall clean argv -> vhead_finite (n_lib e) p -> 1 <= v_delta_time p <= 2147483647 -> bnd 29 (range_begin p) -> bnd 29 (range_end p) ->
  Forall event_finite (events (vf_log fin)) ->
  exists file, file_named argv file /\
  let asked := vrequest (n_lib e) p file (of_int 0) (of_int 0) (of_int 0) in
  (events (vf_log fin) = [] -> vsun_finite (sun_of (n_lib e) (range_begin p)) ->
     exists text, vf_out fin = text ++ [10] /\ shows text (vdocument asked (unseen_part (sun_of (n_lib e) (range_begin p))) 0)) /\
  (events (vf_log fin) <> [] -> exists name desig tle t0 idle lit en,
     seen (n_lib e) p tle t0 (range_end p) (samples (vf_log fin)) idle lit en (events (vf_log fin)) /\ announces (vf_out fin) name desig /\
     (clean name -> clean desig -> exists text, vf_out fin = text ++ [10] /\
        let minutes := duration (begin_clock (vstep p) t0 (length idle)) (end_clock (vstep p) t0 (length (samples (vf_log fin))) en) in
        shows text (vdocument asked (seen_part name desig (norad_number tle) minutes (events (vf_log fin))) 1))).
Proof.
  intros r f0 e fuel argv p fin HC H C0 CA HF Hd B0 B1 EF. destruct (parsed_texts _ _ _ _ CA HC) as (D0 & D1 & _).
  destruct (whole_text _ _ _ _ _ H) as (argv' & il & file & Pr & [(_ & N & _)|(f & K)]); [congruence|]. destruct (prepared_clean _ _ _ _ Pr CA) as (CA' & CF).
  exists file. split; [exact (prepared_named _ _ _ _ Pr)|]. cbv zeta.
  destruct (run_facts _ _ _ _ _ _ _ _ K) as (t0 & Fi & T & _ & In & Cs). cbv zeta in *.
  destruct Cs as [(_ & _ & _ & Ev & c & CL & Eo)|[(C1 & _)|(_ & idle & lit & en & SN & name & desig & o & c & _ & _ & Tx & CL & Eo)]].
  - split; [|congruence]. intros _ SF. rewrite Eo. eapply to_document; try eassumption. intros u U. unfold unseen_part. cbn [app]. apply sun_member; [cleank|exact SF|exact U].
  - congruence.
  - assert (SN2 := SN). destruct SN as [Sp _ _ Ne _ _ X]. pose proof (duration_finite _ _ _ _ _ _ _ _ Fi T In Sp Ne Hd B0 B1) as DF.
    destruct X as (g1 & u1 & s1 & g2 & u2 & s2 & g3 & u3 & s3 & g4 & u4 & s4 & tmax & Ev & (_ & T1) & (_ & T2) & (_ & T3) & (_ & T4) & _). split; [rewrite Ev; discriminate|]. intros _. exists name, desig, (f_tle f), t0, idle, lit, en.
    split; [exact SN2|]. split; [rewrite Eo; apply announced|]. intros Cn Cd. clear SN2. rewrite Eo. rewrite Ev in *. clear Ev Eo.
    inversion EF as [|? ? E1 EF1]; subst. inversion EF1 as [|? ? E2 EF2]; subst. inversion EF2 as [|? ? E3 EF3]; subst. inversion EF3 as [|? ? E4 _]; subst.
    apply date_clean in T1, T2, T3, T4.
    apply texts_split in Tx. destruct Tx as (o1 & r1 & X1 & Tx & ->). apply texts_split in Tx. destruct Tx as (o2 & r2 & X2 & Tx & ->). apply texts_split in Tx. destruct Tx as (o3 & r3 & X3 & Tx & ->).
    apply texts_split in Tx. destruct Tx as (o4 & r4 & X4 & Tx & ->). cbn [event_texts] in Tx. apply ok_eq in Tx. subst r4. rewrite app_nil_r.
    assert (CN: forall n : string, forallb is_plain (bytes n) = true -> clean (bytes n)) by (intros n Hn; now apply clean_key).
    unfold seen_part. set (d := duration _ _) in *.
    match goal with |- exists text, preamble ?L ?fl ?pp ++ ?a ++ ?b ++ ?dd ++ c = _ /\ _ => replace (preamble L fl pp ++ a ++ b ++ dd ++ c) with (preamble L fl pp ++ (a ++ b ++ dd) ++ c) by (rewrite <- !app_assoc; reflexivity) end.
    assert (EV : shows_members (o1 ++ o2 ++ o3 ++ o4) (flat_map vevent_members [(bytes "start", g1, u1, s1); (bytes "end", g2, u2, s2); (bytes "mid", g3, u3, s3); (bytes "max", g4, u4, s4)])).
    { cbn [flat_map]. rewrite app_nil_r.
      apply (event_p _ _ _ _ _ _ _ (CN "start"%string eq_refl) T1 E1 X1 eq_refl). apply (event_p _ _ _ _ _ _ _ (CN "end"%string eq_refl) T2 E2 X2 eq_refl). apply (event_p _ _ _ _ _ _ _ (CN "mid"%string eq_refl) T3 E3 X3 eq_refl).
      apply (event_last _ _ _ _ _ (CN "max"%string eq_refl) T4 E4 X4 eq_refl). }
    clear X1 X2 X3 X4. revert EV. generalize (o1 ++ o2 ++ o3 ++ o4). generalize (flat_map vevent_members [(bytes "start", g1, u1, s1); (bytes "end", g2, u2, s2); (bytes "mid", g3, u3, s3); (bytes "max", g4, u4, s4)]) as evs. intros evs o EV.
    eapply to_document; try eassumption. intros u U. assert (Q := vlegend_p _ _ (vsatellite_p name desig (norad_number (f_tle f)) o evs d u _ Cn Cd DF EV U)).
    eapply eq_members; [exact Q|]. unfold sat_head, duration_text. fold d. rewrite <- !app_assoc. reflexivity.
Qed.
