(** What a reader of JSON finds in the output of sat_skymap. *)
From Coq Require Import String Ascii ZArith List Bool Lia Reals Lra.
From Flocq Require Import Core IEEE754.BinarySingleNaN.
From Verif Require Import CLib ListLemmas FloatModel FloatLemmas TleModel IoModel JsonSpec JsonAcceptor JsonProofs JsonText DatefSpec JsonDataSpec JsonDataProofs SkymapModel SkymapSpec SkymapOutSpec SkymapReadSpec SkymapProofs1 SkymapProofs2 SkymapProofs3 SkymapProofs10.
From Verif Require Import CalendarProofs5 CalendarProofs6 CalendarProofs8.
Import ListNotations.
Open Scope Z_scope.

Lemma eq_shown l l' t : shown l' t -> l = l' -> shown l t. Proof. intros H ->. exact H. Qed.
Lemma obj_rows l ms : Forall2 row_ok l ms -> l <> [] -> shown (123 :: rows_text l ++ [125]) (Obj ms). Proof. intros H N. apply shown_obj. now apply rows_ok. Qed.
Lemma arr_cells l ts : Forall2 shown l ts -> l <> [] -> shown (91 :: cells_text l ++ [93]) (Arr ts). Proof. intros H N. apply shown_arr. now apply cells_ok. Qed.
Lemma clean_key : forall l, forallb is_plain l = true -> clean l.
Proof. intros l H. apply Forall_forall. intros c Hc. apply plain_iff. rewrite forallb_forall in H. now apply H. Qed.
Ltac cleank := apply clean_key; reflexivity.
Ltac hide := repeat match goal with |- context [print_f ?w ?k ?x] => generalize (print_f w k x); intro | |- context [print_d ?w ?x] => generalize (print_d w x); intro end.
Ltac lits := repeat match goal with
  | |- context [q ?x] => let v := eval vm_compute in (q x) in change (q x) with v
  | |- context [bytes ?x] => let v := eval vm_compute in (bytes x) in change (bytes x) with v end.
Ltac same := hide; lits; cbn [rows_text row_text cells_text app]; repeat (rewrite <- app_assoc; cbn [app]); reflexivity.
Definition r (b : bool) (k : string) (v : list Z) : row := (b, bytes k, v).
Ltac onerow := unfold row_ok, r; cbn [fst snd]; split; [reflexivity|split; [cleank|]].
Ltac leaf := first [apply shown_real; [lia|assumption]|apply shown_int|apply shown_blank; apply shown_real; [lia|assumption]|apply shown_blank; apply shown_int].

Lemma place_shown n : num_finite n -> shown (123 :: rows_text [r false "lat" (print_f 7 3 (n_lat n)); r true "lon" (print_f 7 3 (n_lon n)); r true "alt" (print_f 9 2 (n_alt n)); r true "theta" (print_f 8 3 (n_theta n))] ++ [125]) (place n).
Proof. intros F. unfold num_finite in F. fin F. apply obj_rows; [|discriminate]. repeat (apply Forall2_cons; [onerow; leaf|]). apply Forall2_nil. Qed.
Lemma pa_trunc (x : b64) z : to_int x = Ok z -> z = Ztrunc (B2R x).
Proof. intros H. apply to_int_inv in H. rewrite H. apply Btrunc_R. Qed.
Lemma entry_shown b i en : item_clean i -> entry_json b (i_name i) (i_desig i) (i_tle i) (i_num i) = Ok en -> shown en (satellite b i).
Proof.
  intros (C1 & C2 & F) H. unfold entry_json in H. inv_bind H pa H1. apply ok_inj in H. subst en. assert (PL := place_shown (i_num i) F). unfold num_finite in F. fin F. apply pa_trunc in H1. set (n := i_num i) in *. unfold satellite. fold n. rewrite <- H1.
  eapply eq_shown; [apply (obj_rows ([r false "name" (32 :: 34 :: i_name i ++ [34]); r true "intl_desig" (32 :: 34 :: i_desig i ++ [34]); r true "norad_n" (32 :: print_d 0 (norad_number (i_tle i)))] ++
      (if b then [r true "geoloc" (32 :: 123 :: rows_text [r false "lat" (print_f 7 3 (n_lat n)); r true "lon" (print_f 7 3 (n_lon n)); r true "alt" (print_f 9 2 (n_alt n)); r true "theta" (print_f 8 3 (n_theta n))] ++ [125])] else []) ++
      [r true "data" (32 :: 91 :: cells_text [print_f 8 4 (n_ra n); print_f 8 4 (n_dec n); print_f 8 4 (n_ra1 n); print_f 8 4 (n_dec1 n); print_f 9 2 (n_dist n); print_f 6 4 (n_sep n); print_d 3 pa; print_f 6 3 (n_speed n); print_d 0 (if n_sunlit n then 1 else 0); print_d 0 (n_id n)] ++ [93])]))|]; [|discriminate|].
  - apply Forall2_app; [|apply Forall2_app].
    + apply Forall2_cons; [onerow; apply shown_blank, shown_str, C1|]. apply Forall2_cons; [onerow; apply shown_blank, shown_str, C2|]. apply Forall2_cons; [onerow; apply shown_blank, shown_int|]. apply Forall2_nil.
    + destruct b; [|apply Forall2_nil]. apply Forall2_cons; [onerow; apply shown_blank; exact PL|]. apply Forall2_nil.
    + apply Forall2_cons; [|apply Forall2_nil]. onerow. apply shown_blank. apply arr_cells; [|discriminate]. repeat (apply Forall2_cons; [leaf|]). apply Forall2_nil.
  - unfold satlatlon_json, r. destruct b; same.
Qed.

(** ** Pieces of the document *)
Lemma json_any l : accepts l = true -> shown l Any.
Proof. intros H. apply accepts_json in H. destruct H as (a & v & b & A & V & B & ->). exists a, v, b. split; [exact A|]. split; [exact B|]. split; [reflexivity|now constructor]. Qed.
Lemma string_any s : clean s -> shown (34 :: s ++ [34]) Any.
Proof. intros C. apply shown_is. constructor. apply v_str. exists s. split; [now apply clean_chars|reflexivity]. Qed.
Lemma eq_members l l' ms : shows_members l' ms -> l = l' -> shows_members l ms. Proof. intros H ->. exact H. Qed.
Ltac fin2 H := repeat match type of H with Forall _ (_ :: _) => let A := fresh "F" in pose proof (Forall_inv H) as A; cbv beta in A; apply Forall_inv_tail in H end.
Ltac anyv := apply json_any; vm_compute; reflexivity.

Lemma open_p rest ms : shows_members rest ms -> shows_members (tl open_json ++ rest) ((key "swinfo", Any) :: ms).
Proof.
  intros H. apply members_blank in H. eapply eq_members; [eapply (member_cons (bytes "swinfo") (q " {'name': 'sat_skymap', 'author': 'L. Nicastro @ INAF-OAS', 'date': '2024-05-06', 'version': '0.3f'}") Any _ _); [cleank|anyv|exact H]|].
  unfold open_json. same.
Qed.
Lemma geo_p rest ms : shows_members rest ms -> shows_members (geofieldsdesc_json ++ rest) ((key "geoloc_fields", Any) :: ms).
Proof.
  intros H. apply members_blank in H. eapply eq_members; [eapply (member_cons (bytes "geoloc_fields") (q " {'lat': {'desc': 'Geodetic Latitude', 'unit': 'deg'}, 'lon': {'desc': 'Geodetic Longitude', 'unit': 'deg'}, 'alt': {'desc': 'Geodetic Altitude', 'unit': 'km'}, 'theta': {'desc': 'Equatorial angle (Lon + GMST = RA)', 'unit': 'deg'}}") Any _ _); [cleank|anyv|exact H]|].
  unfold geofieldsdesc_json. same.
Qed.
Lemma sun_p h rest ms : Forall (fun x : b64 => is_finite x = true) [h_sun_ra h; h_sun_dec h; h_sun_az h; h_sun_alt h; h_sun_lon h; h_sun_parang h; h_sun_sep h] ->
  shows_members rest ms -> shows_members (sun_json h ++ rest) ((key "sun", sun h) :: ms).
Proof.
  intros F H. fin F. apply members_blank in H. eapply eq_members; [eapply (member_cons (bytes "sun") (32 :: 123 :: rows_text [r false "ra" (print_f 7 3 (h_sun_ra h)); r true "dec" (print_f 7 3 (h_sun_dec h)); r true "az" (print_f 8 3 (h_sun_az h)); r true "alt" (print_f 7 3 (h_sun_alt h));
     r true "lon" (print_f 8 3 (h_sun_lon h)); r true "parang" (print_f 8 3 (h_sun_parang h)); r true "separation_deg" (print_f 7 3 (h_sun_sep h))] ++ [125]) (sun h) _ _); [cleank| |exact H]|].
  - apply shown_blank, obj_rows; [|discriminate]. repeat (apply Forall2_cons; [onerow; leaf|]). apply Forall2_nil.
  - unfold sun_json, r. same.
Qed.
Lemma request_p p h file rest ms : clean file -> clean (p_date p) ->
  let zenith := p_georef p || single_sat p || negb (p_in_region p) in
  let ra := if zenith then fmul (h_lmst h) (of_int 15) else p_ra p in
  let de := if zenith then p_lat p else p_de p in
  Forall (fun x : b64 => is_finite x = true) [p_lat p; p_lon p; p_ht p; ra; de; p_radius p; h_lmst h; h_az h; h_alt h; h_parang h; p_mjd p; h_gmst h] ->
  shows_members rest ms -> shows_members (params_json file p h ra de ++ rest) ((key "input_params", request p h file) :: ms).
Proof.
  intros C D zenith ra de F H. unfold request. assert (Z0 : p_in_region p && negb (p_georef p) && negb (p_single_i p) && negb (p_single_n p) = negb zenith) by (unfold zenith, single_sat; destruct (p_in_region p), (p_georef p), (p_single_i p), (p_single_n p); reflexivity).
  rewrite Z0. replace (if negb zenith then p_ra p else fmul (h_lmst h) (of_int 15)) with ra by (unfold ra; destruct zenith; reflexivity). replace (if negb zenith then p_de p else p_lat p) with de by (unfold de; destruct zenith; reflexivity). clear Z0. clearbody ra de. clear zenith.
  fin F. apply members_blank in H. eapply eq_members; [eapply (member_cons (bytes "input_params") (32 :: 123 :: rows_text
    [r false "tle_file" (32 :: 34 :: file ++ [34]);
     r true "location" (32 :: 123 :: rows_text [r false "lat" (print_f 8 4 (p_lat p)); r true "lon" (print_f 9 4 (p_lon p)); r true "alt" (print_f 8 1 (p_ht p))] ++ [125]);
     r true "region" (32 :: 123 :: rows_text [r false "ra" (print_f 9 4 ra); r true "dec" (print_f 8 4 de); r true "radius" (print_f 8 4 (p_radius p)); r true "lmst" (print_f 8 4 (h_lmst h)); r true "az" (print_f 9 4 (h_az h)); r true "alt" (print_f 8 4 (h_alt h)); r true "parang" (print_f 8 3 (h_parang h))] ++ [125]);
     r true "mjd" (32 :: print_f 11 5 (p_mjd p)); r true "epoch_UTC" (32 :: 34 :: p_date p ++ [34]); r true "gmst" (print_f 8 4 (h_gmst h));
     r true "delta_time_s" (32 :: print_d 0 (p_delta_time p)); r true "max_sats" (32 :: print_d 0 (p_max_sats p)); r true "notes" (q " 'All coordinates and radius in degrees. GMST, LMST in hrs.'")] ++ [125]) _ _ _); [cleank| |exact H]|].
  - apply shown_blank, obj_rows; [|discriminate].
    apply Forall2_cons; [onerow; apply shown_blank, shown_str, C|]. apply Forall2_cons; [onerow; apply shown_blank, obj_rows; [|discriminate]; repeat (apply Forall2_cons; [onerow; leaf|]); apply Forall2_nil|].
    apply Forall2_cons; [onerow; apply shown_blank, obj_rows; [|discriminate]; repeat (apply Forall2_cons; [onerow; leaf|]); apply Forall2_nil|].
    apply Forall2_cons; [onerow; leaf|]. apply Forall2_cons; [onerow; apply shown_blank, shown_str, D|]. repeat (apply Forall2_cons; [onerow; leaf|]). apply Forall2_cons; [onerow; anyv|]. apply Forall2_nil.
  - unfold params_json, r. same.
Qed.
Lemma columns_p rest ms : shows_members rest ms -> shows_members (fieldsdesc_json ++ rest) ((key "data_fields", columns) :: ms).
Proof.
  intros H. eapply eq_members; [eapply (member_cons (bytes "data_fields") (32 :: 123 :: rows_text
    [r false "name" (32 :: 91 :: cells_text [q "'RA_start'"; q " 'Dec_start'"; q " 'RA_end'"; q " 'Dec_end'"; q " 'Distance'"; q " 'Separation'"; q " 'PA'"; q " 'Speed'"; q " 'sunlit'"; q " 'HPXID_8'"] ++ [93]);
     r true "desc" (q " ['RA T_ini', 'Dec T_ini', 'RA T_end', 'Dec T_end', 'distance to sat.', 'angular separation', 'position angle', 'apparent angular rate of motion', 'sunlit sat. flag', 'HEALPix order 8 nested schema ID']");
     r true "type" (q " ['double', 'double', 'double', 'double', 'double', 'float', 'float', 'float', 'int', 'int']");
     r true "unit" (32 :: 91 :: cells_text [q "'deg'"; q " 'deg'"; q " 'deg'"; q " 'deg'"; q " 'km'"; q " 'deg'"; q " 'deg'"; q " 'arcmin/s'"; q " ''"; q " ''"] ++ [93])] ++ [125]) _ _ _); [cleank| |exact H]|].
  - assert (T : forall s, forallb is_plain (bytes s) = true -> shown (34 :: bytes s ++ [34]) (Str (bytes s))) by (intros s K; apply shown_str, clean_key, K).
    apply shown_blank, obj_rows; [|discriminate].
    apply Forall2_cons; [onerow; apply shown_blank, arr_cells; [|discriminate]|].
    { apply Forall2_cons; [exact (T "RA_start"%string eq_refl)|]. apply Forall2_cons; [exact (shown_blank _ _ (T "Dec_start"%string eq_refl))|]. apply Forall2_cons; [exact (shown_blank _ _ (T "RA_end"%string eq_refl))|]. apply Forall2_cons; [exact (shown_blank _ _ (T "Dec_end"%string eq_refl))|]. apply Forall2_cons; [exact (shown_blank _ _ (T "Distance"%string eq_refl))|]. apply Forall2_cons; [exact (shown_blank _ _ (T "Separation"%string eq_refl))|].
      apply Forall2_cons; [exact (shown_blank _ _ (T "PA"%string eq_refl))|]. apply Forall2_cons; [exact (shown_blank _ _ (T "Speed"%string eq_refl))|]. apply Forall2_cons; [exact (shown_blank _ _ (T "sunlit"%string eq_refl))|]. apply Forall2_cons; [exact (shown_blank _ _ (T "HPXID_8"%string eq_refl))|]. apply Forall2_nil. }
    apply Forall2_cons; [onerow; anyv|]. apply Forall2_cons; [onerow; anyv|].
    apply Forall2_cons; [onerow; apply shown_blank, arr_cells; [|discriminate]|apply Forall2_nil].
    apply Forall2_cons; [exact (T "deg"%string eq_refl)|]. do 3 (apply Forall2_cons; [exact (shown_blank _ _ (T "deg"%string eq_refl))|]). apply Forall2_cons; [exact (shown_blank _ _ (T "km"%string eq_refl))|]. do 2 (apply Forall2_cons; [exact (shown_blank _ _ (T "deg"%string eq_refl))|]). apply Forall2_cons; [exact (shown_blank _ _ (T "arcmin/s"%string eq_refl))|].
    do 2 (apply Forall2_cons; [exact (shown_blank _ _ (T ""%string eq_refl))|]). apply Forall2_nil.
  - unfold fieldsdesc_json, r. same.
Qed.
Lemma join_shown p l : Forall item_clean l -> l <> [] -> Forall (fun i => exists en, entry_json (p_geoloc p || single_sat p) (i_name i) (i_desig i) (i_tle i) (i_num i) = Ok en) l ->
  shows_elements (join (map (entry_text p) l)) (map (satellite (p_geoloc p || single_sat p)) l).
Proof.
  induction l as [|i l IH]; intros C N J; [congruence|]. inversion C as [|? ? Ci Cl]; subst. inversion J as [|? ? (en & Je) Jl]; subst. assert (T: entry_text p i = en) by (unfold entry_text; now rewrite Je). assert (S := entry_shown _ i en Ci Je).
  destruct l as [|i' l]; cbn [map join]; rewrite T; [now apply element_one|]. change ([44; 32] ++ ?x) with (44 :: 32 :: x). apply element_cons; [exact S|]. apply elements_blank. apply IH; [exact Cl|discriminate|exact Jl].
Qed.
Lemma sats_p p l rest ms : Forall item_clean l -> l <> [] -> Forall (fun i => exists en, entry_json (p_geoloc p || single_sat p) (i_name i) (i_desig i) (i_tle i) (i_num i) = Ok en) l ->
  shows_members rest ms -> shows_members (q " 'satellites': [" ++ join (map (entry_text p) l) ++ bytes "]," ++ rest) ((key "satellites", Arr (map (satellite (p_geoloc p || single_sat p)) l)) :: ms).
Proof.
  intros C N J H. eapply eq_members; [apply members_blank; eapply (member_cons (bytes "satellites") (32 :: 91 :: join (map (entry_text p) l) ++ [93]) _ _ _); [cleank|apply shown_blank, shown_arr, join_shown; assumption|exact H]|]. generalize (join (map (entry_text p) l)). intros j. same.
Qed.
Lemma close_p argv il msg a b c t : Forall clean argv -> clean msg -> close_stat argv il 0 msg a b c = Ok t ->
  exists u, t = u ++ [125; 10] /\ shows_members u [(key "run_command", Any); (key "status", Int 0); (key "errmsg", Str msg); (key "n_sats_found", Int a); (key "n_sats", Int b); (key "n_sunlit_sats", Int c)].
Proof.
  intros C M H. unfold close_stat in H. inv_bind H fs H1. apply ok_inj in H. subst t.
  assert (CF: clean fs).
  { destruct il; [|apply ok_inj in H1; subst fs; constructor]. destruct (nth_error argv 1) as [x|] eqn:N; [|discriminate H1]. apply ok_inj in H1. subst fs.
    apply clean_app; [repeat constructor; unfold plain; cbn; lia|]. rewrite Forall_forall in C. apply C. now apply nth_error_In with (n := 1%nat). }
  assert (CA: clean (concat (map (fun a => 32 :: a) (skipn (if il then 2 else 1) argv)))).
  { generalize (if il then 2%nat else 1%nat). intro k. assert (C': Forall clean (skipn k argv)) by (rewrite <- (firstn_skipn k argv) in C; apply Forall_app in C; tauto).
    induction C' as [|x l X L IH]; [constructor|]. cbn [map concat]. apply clean_app; [|exact IH]. constructor; [unfold plain; lia|exact X]. }
  assert (CC: clean (progname ++ fs ++ concat (map (fun a => 32 :: a) (skipn (if il then 2 else 1) argv)))) by (apply clean_app; [cleank|]; apply clean_app; assumption).
  exists (rows_text [r true "run_command" (32 :: 34 :: (progname ++ fs ++ concat (map (fun a => 32 :: a) (skipn (if il then 2 else 1) argv))) ++ [34]); r true "status" (32 :: print_d 0 0); r true "errmsg" (32 :: 34 :: msg ++ [34]); r true "n_sats_found" (32 :: print_d 0 a); r true "n_sats" (32 :: print_d 0 b); r true "n_sunlit_sats" (32 :: print_d 0 c)]).
  split.
  - unfold r. generalize (concat (map (fun a => 32 :: a) (skipn (if il then 2 else 1) argv))). generalize progname. intros pn cc. same.
  - apply rows_ok; [|discriminate]. apply Forall2_cons; [onerow; apply shown_blank, string_any, CC|]. apply Forall2_cons; [onerow; leaf|]. apply Forall2_cons; [onerow; apply shown_blank, shown_str, M|]. repeat (apply Forall2_cons; [onerow; leaf|]). apply Forall2_nil.
Qed.

Lemma longer e a : open_json ++ preamble e a = open_json -> False.
Proof.
  intros H. assert (L : length (preamble e a) = 0%nat) by (apply (f_equal (@length Z)) in H; rewrite app_length in H; lia). unfold preamble in L. cbv zeta in L. rewrite !app_length in L.
  match type of L with context [params_json ?f ?p ?h ?x ?y] => assert (G : (0 < length (params_json f p h x y))%nat) end; [|lia]. unfold params_json. rewrite app_length. apply Nat.lt_lt_add_r. apply Nat.ltb_lt. reflexivity.
Qed.
Lemma skymap_output2 : forall e0 l1 l2 nm fin, skymap e0 l1 l2 nm = Ok fin ->
  exists arg argv il out0 f, nth_error (e_argv e0) (file_arg (e_argv e0)) = Some arg /\ began e0 arg argv il out0 /\ (out0 = open_json -> exists s, f = Exited 2 s) /\
    finish (with_path e0) argv il f = Ok fin /\
    if live f then tally (e_p (with_path e0)) out0 (flow_st f) else left_ok (with_path e0) out0 argv il f.
Proof.
  intros e0 l1 l2 nm fin H. set (e := with_path e0) in *.
  assert (F1: forall out0 argv il path s f, tally (e_p e) out0 s -> one_file e argv il path s = Ok f -> if live f then tally (e_p e) out0 (flow_st f) else left_ok e out0 argv il f).
  { intros out0. apply (one_file_inv2 e0 (tally (e_p e) out0) (fun argv il f => left_ok e out0 argv il f)).
    - intros argv il chunk s f. apply tally_step.
    - intros s path. apply tally_opens.
    - intros s first k1 k2 K _ _. now apply tally_begins.
    - intros argv il s code status msg f K M E. apply exit_with_inv in E. destruct E as (_ & s' & -> & X). cbn [left_ok]. right. exists s, status, msg.
      split; [exact K|]. split; [exact X|]. split; [destruct X as (t & _ & ->); reflexivity|]. tauto. }
  unfold skymap in H. cbv zeta in H. change (e_argv (with_path e0)) with (e_argv e0) in H. destruct (nth_error (e_argv e0) (file_arg (e_argv e0))) as [arg|] eqn:EA; [|discriminate H]. fold e in H.
  assert (One: (forall r, arg <> 64 :: r) -> (path <- c_sprintf 200 (if existsb (Z.eqb 47) arg then arg else p_tle_path (e_p e) ++ 47 :: arg) ;;
       f <- one_file e (e_argv e0) false path (start l1 l2 nm (open_json ++ preamble e arg)) ;; finish e (e_argv e0) false f) = Ok fin ->
       exists arg0 argv il out0 f, Some arg = Some arg0 /\ began e0 arg0 argv il out0 /\ (out0 = open_json -> exists s, f = Exited 2 s) /\ finish e argv il f = Ok fin /\
         if live f then tally (e_p e) out0 (flow_st f) else left_ok e out0 argv il f).
  { intros NA K. inv_bind K path K1. inv_bind K fl K2. exists arg, (e_argv e0), false, (open_json ++ preamble e arg), fl. split; [reflexivity|]. split; [left; tauto|]. split; [intros X; exfalso; exact (longer _ _ X)|]. split; [exact K|].
    exact (F1 _ _ _ _ _ _ (tally_start _ _ _ _ _) K2). }
  destruct arg as [|c a]; [apply One; [discriminate|exact H]|].
  destruct (Z.eq_dec c 64) as [->|N].
  - inv_bind H path K1. destruct (e_fs e path) as [contents|]; inv_bind H fl K2.
    + exists (64 :: a), (set_nth (file_arg (e_argv e0)) a (e_argv e0)), true, (open_json ++ preamble e a), fl. split; [reflexivity|]. split; [right; exists a; tauto|]. split; [intros X; exfalso; exact (longer _ _ X)|]. split; [exact H|].
      refine (rows_inv e _ (tally (e_p e) (open_json ++ preamble e a)) (left_ok e _ _ true) _ _ _ _ _ K2); [|apply tally_start]. intros path0 s0 f0. apply F1.
    + exists (64 :: a), (set_nth (file_arg (e_argv e0)) a (e_argv e0)), true, open_json, fl. split; [reflexivity|]. split; [right; exists a; tauto|].
      apply exit_with_inv in K2. destruct K2 as (_ & s' & -> & X). split; [intros _; exists s'; reflexivity|]. split; [exact H|]. cbn [live left_ok]. right. eexists. eexists. eexists. split; [apply tally_start|]. split; [exact X|].
      split; [destruct X as (t & _ & ->); reflexivity|]. right. left. split; [reflexivity|]. split; [reflexivity|]. exists path. split; [|reflexivity]. right. split; [reflexivity|]. exists a. split; [exact EA|].
      unfold c_sprintf in K1. destruct (S (length (p_tle_path (e_p e) ++ 47%Z :: a)) <=? 200)%nat; [apply ok_inj in K1; now symmetry|discriminate K1].
  - apply One; [intros r K; congruence|]. destruct c as [|c|c]; try exact H. do 7 (destruct c as [c|c|]; try exact H). exfalso. now apply N.
Qed.

Lemma read_normal e l1 l2 nm fin : skymap e l1 l2 nm = Ok fin -> f_code fin = 0 ->
  Forall clean (e_argv e) -> clean (p_date (e_p e)) -> hdr_finite e -> Forall item_clean (listing (f_log fin)) ->
  exists file msg text, (nth_error (e_argv e) (file_arg (e_argv e)) = Some file \/ nth_error (e_argv e) (file_arg (e_argv e)) = Some (64 :: file)) /\
    (msg = [] \/ msg = bytes "Requested satellite not found in TLE file") /\ (p_single_i (e_p e) = false -> p_single_n (e_p e) = false -> msg = []) /\ f_out fin = text ++ [10] /\
    shows text (document (e_p e) (e_h e) file msg (listing (f_log fin)) (f_found fin) (f_nsats fin) (f_nsunlit fin)).
Proof.
  intros H K C D F I. destruct (skymap_output2 _ _ _ _ _ H) as (arg & argv & il & out0 & f & EA & B & NP & Fi & T).
  apply finish_counts in Fi. destruct Fi as (FF & FS & FL & Fi).
  assert (T': (exists c s, f = Exited c s) \/ tally (e_p (with_path e)) out0 (flow_st f)) by (destruct f; cbn [live left_ok flow_st] in T; try (right; exact T); left; eauto).
  destruct T' as [(c & s & ->)|(T1 & T2 & T3 & T4)].
  { exfalso. destruct Fi as (Kc & _). cbn [live left_ok] in T. rewrite Kc in K. subst c. destruct T as [(X & _)|(s0 & status & msg & _ & _ & _ & X)]; [discriminate X|]. destruct X as [(X & _)|[(X & _)|(X & _)]]; discriminate X. }
  assert (N: (forall s, f <> Exited 0 s) /\ exists msg t, close_stat argv il 0 msg (s_found (flow_st f)) (f_nsats fin) (s_sunlit (flow_st f)) = Ok t /\ (msg = [] \/ msg = bytes "Requested satellite not found in TLE file") /\ (single_sat (e_p (with_path e)) = false -> msg = []) /\
        f_out fin = s_out (flow_st f) ++ (if negb (p_info_only (e_p (with_path e))) && (0 <? s_found (flow_st f)) then bytes "]," else []) ++ t).
  { destruct f as [s|s|s|c s]; try (split; [discriminate|]; destruct Fi as (_ & _ & msg & t & X1 & X2 & X4 & X3); exists msg, t; split; [exact X1|]; split; [exact X2|]; split; [intros SG; destruct msg; [reflexivity|]; destruct (proj1 X4 ltac:(discriminate)); congruence|exact X3]).
    exfalso. destruct Fi as (Kc & _). cbn [live left_ok] in T. rewrite Kc in K. subst c. destruct T as [(X & _)|(s0 & status & msg & _ & _ & _ & X)]; [discriminate X|]. destruct X as [(X & _)|[(X & _)|(X & _)]]; discriminate X. }
  destruct N as (NE & msg & t & CS & M & MS & O). rewrite FL in *.
  assert (BG : exists file, (arg = file \/ arg = 64 :: file) /\ clean file /\ Forall clean argv /\ out0 = open_json ++ preamble (with_path e) file).
  { assert (CA: clean arg) by (rewrite Forall_forall in C; apply C; now apply nth_error_In with (n := file_arg (e_argv e))).
    destruct B as [(_ & -> & _ & ->)|(a & -> & EI & -> & BO)]; [exists arg; tauto|]. exists a. assert (Ca: clean a) by (now inversion CA). split; [tauto|]. split; [exact Ca|]. split.
    - unfold set_nth. apply Forall_app. split; [|constructor; [exact Ca|]].
      + rewrite <- (firstn_skipn (file_arg (e_argv e)) (e_argv e)) in C. apply Forall_app in C. tauto.
      + rewrite <- (firstn_skipn (S (file_arg (e_argv e))) (e_argv e)) in C. apply Forall_app in C. tauto.
    - destruct BO as [BO|BO]; [|exact BO]. exfalso. destruct (NP BO) as [s ->]. destruct Fi as (Kc & _). congruence. }
  destruct BG as (file & AF & CF & CA & EO). exists file, msg. destruct (close_p argv il msg _ _ _ t CA ltac:(destruct M as [->| ->]; [constructor|cleank]) CS) as (u & -> & SU).
  set (p := e_p (with_path e)) in *. set (items := listing (s_log (flow_st f))) in *. set (geo := p_geoloc p || single_sat p) in *.
  assert (SB : exists m, shows_members m ((if p_info_only p then [] else match items with [] => [] | _ => [(key "data_fields", columns); (key "satellites", Arr (map (satellite geo) items))] end) ++
     [(key "run_command", Any); (key "status", Int 0); (key "errmsg", Str msg); (key "n_sats_found", Int (s_found (flow_st f))); (key "n_sats", Int (f_nsats fin)); (key "n_sunlit_sats", Int (s_sunlit (flow_st f)))]) /\
     body p items ++ (if negb (p_info_only p) && (0 <? s_found (flow_st f)) then bytes "]," else []) ++ u = m).
  { unfold body. destruct (p_info_only p); [exists u; split; [exact SU|reflexivity]|]. destruct items as [|i0 li] eqn:EI; [exists u; split; [exact SU|rewrite T1; reflexivity]|]. rewrite <- EI in *. cbn [negb andb].
    replace (0 <? s_found (flow_st f)) with true by (symmetry; apply Z.ltb_lt; rewrite T1, EI; cbn [length]; lia).
    eexists. split; [cbn [app]; apply columns_p; apply sats_p; [exact I|rewrite EI; discriminate|exact (T4 eq_refl)|exact SU]|]. rewrite <- !app_assoc. reflexivity. }
  destruct SB as (m & SM & EM). unfold hdr_finite in F. cbv zeta in F. change (e_p e) with (e_p e) in F.
  assert (SP : exists w, out0 ++ m = 123 :: w /\ shows_members w ([(key "swinfo", Any)] ++ (if geo then [(key "geoloc_fields", Any)] else []) ++ [(key "input_params", request p (e_h e) file); (key "sun", sun (e_h e))] ++
     (if p_info_only p then [] else match items with [] => [] | _ => [(key "data_fields", columns); (key "satellites", Arr (map (satellite geo) items))] end) ++
     [(key "run_command", Any); (key "status", Int 0); (key "errmsg", Str msg); (key "n_sats_found", Int (s_found (flow_st f))); (key "n_sats", Int (f_nsats fin)); (key "n_sunlit_sats", Int (s_sunlit (flow_st f)))])).
  { exists (tl open_json ++ preamble (with_path e) file ++ m). split; [rewrite EO, <- app_assoc; reflexivity|]. cbn [app]. apply open_p. unfold preamble. cbv zeta. fold p. change (e_h (with_path e)) with (e_h e). fin2 F.
    assert (SR : shows_members (params_json file p (e_h e) (if p_georef p || single_sat p || negb (p_in_region p) then fmul (h_lmst (e_h e)) (of_int 15) else p_ra p) (if p_georef p || single_sat p || negb (p_in_region p) then p_lat p else p_de p) ++ sun_json (e_h e) ++ m)
      ((key "input_params", request p (e_h e) file) :: (key "sun", sun (e_h e)) :: (if p_info_only p then [] else match items with [] => [] | _ => [(key "data_fields", columns); (key "satellites", Arr (map (satellite geo) items))] end) ++
     [(key "run_command", Any); (key "status", Int 0); (key "errmsg", Str msg); (key "n_sats_found", Int (s_found (flow_st f))); (key "n_sats", Int (f_nsats fin)); (key "n_sunlit_sats", Int (s_sunlit (flow_st f)))])).
    { apply request_p; [exact CF|exact D| |].
      - repeat (apply Forall_cons; [first [assumption|match goal with |- is_finite (if ?b then _ else _) = true => destruct b; assumption end]|]). apply Forall_nil.
      - apply sun_p; [repeat (apply Forall_cons; [assumption|]); apply Forall_nil|exact SM]. }
    fold geo. rewrite <- !app_assoc. destruct geo; [apply geo_p|]; exact SR. }
  destruct SP as (w & EW & SW). exists (123 :: w ++ [125]). split; [destruct AF as [<- |<-]; tauto|]. split; [exact M|]. split; [intros S1 S2; apply MS; unfold single_sat, p; cbn [with_path e_p p_single_n p_single_i]; rewrite S1, S2; reflexivity|]. split.
  - rewrite O, T3. replace ((out0 ++ body p items) ++ (if negb (p_info_only p) && (0 <? s_found (flow_st f)) then bytes "]," else []) ++ u ++ [125; 10]) with ((out0 ++ m) ++ [125; 10]) by (rewrite <- EM, <- !app_assoc; reflexivity). rewrite EW. cbn [app]. rewrite <- app_assoc. reflexivity.
  - rewrite FF, FS. unfold document. cbv zeta. replace (p_geoloc (e_p e) || p_single_i (e_p e) || p_single_n (e_p e)) with geo by (unfold geo, single_sat, p; cbn [with_path e_p p_geoloc p_single_n p_single_i]; destruct (p_geoloc (e_p e)), (p_single_n (e_p e)), (p_single_i (e_p e)); reflexivity). apply sh_obj. exact SW.
Qed.
