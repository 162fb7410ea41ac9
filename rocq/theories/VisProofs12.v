(** The text printed by sat_visibility: well-formedness and the echoed command line. *)
From Coq Require Import String Ascii ZArith List Bool Lia Reals Lra.
From Flocq Require Import Core IEEE754.BinarySingleNaN.
From Verif Require Import CLib ListLemmas FloatModel FloatLemmas CalendarModel CalendarProofs2 TleModel IoModel JsonSpec JsonAcceptor JsonProofs JsonText SkymapModel SkymapSpec SkymapProofs6 SkymapProofs8 SkymapProofs10 CliModel CliProofs4 VisCliModel VisModel VisSpec VisDataSpec VisOutSpec VisProofs1 VisProofs2 VisProofs3 VisProofs4 VisProofs6 VisProofs8 VisProofs9.
Import ListNotations.
Open Scope Z_scope.

(** ** Dates *)
Lemma clean_repeat : forall n c, plain c -> clean (repeat c n).
Proof. intros n c H. apply Forall_forall. intros x Hx. apply repeat_spec in Hx. now subst x. Qed.
Lemma digits_rev_dig : forall f z, 0 <= z -> Forall plain (digits_rev f z).
Proof.
  induction f as [|f IH]; intros z Hz; cbn [digits_rev]; [constructor|]. destruct (z <? 10) eqn:E; [constructor; [unfold plain; lia|constructor]|].
  pose proof (Z.mod_pos_bound z 10 ltac:(lia)). constructor; [unfold plain; lia|]. apply IH. apply Z.div_pos; lia.
Qed.
Lemma print_int_clean : forall w p z, clean (print_int w p z).
Proof.
  intros w p z. unfold print_int. apply clean_app; [apply clean_repeat; unfold plain; lia|].
  assert (D: clean (repeat 48 (p - length (rev (digits_rev 20 (Z.abs z)))) ++ rev (digits_rev 20 (Z.abs z)))).
  { apply clean_app; [apply clean_repeat; unfold plain; lia|]. apply Forall_rev. apply digits_rev_dig. lia. }
  destruct (z <? 0); [constructor; [unfold plain; lia|exact D]|exact D].
Qed.
Lemma sprintf_same : forall n t x, c_sprintf n t = Ok x -> x = t.
Proof. intros n t x H. unfold c_sprintf in H. destruct (_ <=? _)%nat; [congruence|discriminate]. Qed.
Lemma date_clean : forall m d, date_of m = Ok d -> clean d.
Proof.
  intros m d H. unfold date_of in H. step H. destruct a as [t|]; [|discriminate]. apply sprintf_same in H. subst d.
  unfold mjd2date in E. step E. destruct a as [(jd, f)|]; [|discriminate]. destruct (gregorian jd) as ((y & mo) & dd). step E. destruct a as ((h & mm) & s). cbv zeta in E. destruct (_ <? 20)%nat; [|discriminate].
  assert (t = print_date y mo dd h mm s) as -> by congruence. unfold print_date.
  repeat (apply clean_app; [first [apply print_int_clean|repeat constructor; unfold plain; lia]|]). apply print_int_clean.
Qed.

(** ** The options keep the texts clean *)
Definition texts_clean (p : vparams) : Prop := clean (v_date0 p) /\ clean (v_date1 p) /\ clean (v_tle_path p).
Lemma word_clean : forall w t a r, word w t = (a, r) -> clean t -> clean a /\ clean r.
Proof.
  induction w as [|w IH]; intros t a r H C; cbn [word] in H; [assert (a = [] /\ r = t) as (-> & ->) by (split; congruence); split; [constructor|exact C]|].
  destruct t as [|c t]; [assert (a = [] /\ r = []) as (-> & ->) by (split; congruence); split; constructor|].
  inversion C as [|? ? C1 C2]; subst. destruct (is_space c); [assert (a = [] /\ r = c :: t) as (-> & ->) by (split; congruence); split; [constructor|exact C]|].
  destruct (word w t) as (a' & r') eqn:E. assert (a = c :: a' /\ r = r') as (-> & ->) by (split; congruence). destruct (IH _ _ _ E C2). split; [constructor; assumption|assumption].
Qed.
Lemma skip_clean : forall t, clean t -> clean (c_skip_space t).
Proof. induction t as [|c t IH]; intro C; cbn [c_skip_space]; [constructor|]. inversion C; subst. destruct (is_space c); [now apply IH|exact C]. Qed.
Lemma scan_clean : forall w t a r, scan_word w t = Some (a, r) -> clean t -> clean a /\ clean r.
Proof.
  intros w t a r H C. unfold scan_word in H. destruct (word w (c_skip_space t)) as (a' & r') eqn:E. destruct a' as [|c a']; [discriminate|]. assert (a = c :: a' /\ r = r') as (-> & ->) by (split; congruence).
  exact (word_clean _ _ _ _ E (skip_clean _ C)).
Qed.
Lemma dates_clean : forall t a b, clean t -> clean a -> clean b -> clean (fst (scan_dates t a b)) /\ clean (snd (scan_dates t a b)).
Proof.
  intros t a b Ct Ca Cb. unfold scan_dates. destruct (scan_word 19 t) as [(a' & r)|] eqn:E; [|now split]. destruct (scan_clean _ _ _ _ E Ct) as (Ca' & Cr).
  destruct r as [|c r]; [now split|]. inversion Cr as [|? ? _ Cr']; subst. destruct (c =? 44); [|now split].
  destruct (scan_word 19 r) as [(b' & r')|] eqn:E'; [|now split]. destruct (scan_clean _ _ _ _ E' Cr') as (Cb' & _). now split.
Qed.
Lemma switch_texts : forall r argv o val cur p sw p', (forall t, val = Ok t -> clean t) -> texts_clean p -> vis_switch r argv o val cur p = Ok (Go sw p') -> texts_clean p'.
Proof.
  intros r argv o val cur p sw p' V (C0 & C1 & C2) H. unfold vis_switch in H.
  repeat match type of H with
         | bind val _ = _ => destruct val as [t|]; cbn [bind] in H; [specialize (V t eq_refl)|discriminate]
         | bind ?m _ = _ => let E := fresh "E" in destruct m eqn:E; cbn [bind] in H; [|discriminate]
         | vis_error _ _ _ = _ => exfalso; unfold vis_error in H
         | (let _ := _ in _) = _ => cbv zeta in H
         | (if ?b then _ else _) = _ => destruct b
         | (let '(_, _) := ?x in _) = _ => let E := fresh "E" in destruct x eqn:E
         end; try discriminate H;
  match type of H with Ok (Go _ ?x) = Ok (Go _ _) => assert (X: p' = x) by congruence; subst p'; clear H end;
  repeat match goal with |- context [if ?b then _ else _] => destruct b end;
  try (repeat split; assumption).
  - pose proof (dates_clean t _ _ V C0 C1) as (A & B). rewrite E in A, B. repeat split; assumption.
  - apply sprintf_same in E. subst. repeat split; assumption.
  - apply date_clean in E, E0. repeat split; assumption.
Qed.
Lemma adv_clean : forall t pos v, clean t -> (pos <= 2)%nat -> c_text (adv (t ++ [0]) pos) = Ok v -> clean v.
Proof.
  intros t pos v C Hp H. unfold adv in H. destruct (le_lt_dec pos (length t)) as [L|L].
  - rewrite skipn_app in H. replace (pos - length t)%nat with O in H by lia. cbn [skipn] in H. refine (text_clean _ _ _ H). rewrite <- (firstn_skipn pos t) in C. apply Forall_app in C. tauto.
  - rewrite skipn_all2 in H by (rewrite app_length; cbn; lia). discriminate H.
Qed.
Lemma parsed_texts : forall r fuel argv p, Forall clean argv -> vis_command_line r fuel argv = Ok (Done p) -> texts_clean p.
Proof.
  intros r fuel argv p C H. unfold vis_command_line in H. destruct (length argv <? 2)%nat; [step H; step H; discriminate|].
  assert (G : forall f i q, texts_clean q -> forall q', opt_loop (vis_switch r argv) f argv i q = Ok (Done q') -> texts_clean q').
  { induction f as [|f IH]; intros i q Hq q' E; cbn [opt_loop] in E; (destruct (i <? length argv)%nat; [|assert (q' = q) by congruence; subst; exact Hq]); [discriminate|].
    destruct (one_arg _ _ i q) as [[i' q1|c o]|] eqn:E1; cbn [bind] in E; try discriminate. apply (IH i' q1); [|exact E].
    unfold one_arg in E1. destruct (arg argv i); cbn [bind] in E1; [|discriminate]. destruct (rd a 0) as [c|]; cbn [bind] in E1; [|discriminate].
    destruct (c =? 45)%Z; [|assert (q1 = q) by congruence; subst; exact Hq].
    destruct (rd a 1) as [o|]; cbn [bind] in E1; [|discriminate]. destruct (rd a 2) as [c2|]; cbn [bind] in E1; [|discriminate].
    destruct (if c2 =? 0 then _ else _)%Z as (j, pos) eqn:Ej. destruct (vis_switch _ _ _ _ _ _) as [[sw s'|? ?]|] eqn:Es; cbn [bind] in E1; try discriminate.
    assert (q1 = s') by congruence. subst q1. refine (switch_texts _ _ _ _ _ _ _ _ _ Hq Es). intros t Et.
    unfold arg in Et. destruct (nth_error argv j) as [b|] eqn:Eb; cbn [bind] in Et; [|discriminate].
    refine (adv_clean b pos t _ _ Et); [exact (proj1 (Forall_forall _ _) C b (nth_error_In _ _ Eb))|destruct (c2 =? 0); assert (pos = 0 \/ pos = 2)%nat by (first [left; congruence|right; congruence]); lia]. }
  destruct (opt_loop (vis_switch r argv) fuel argv 1 vis_defaults) as [[q|c o]|] eqn:E; cbn [bind] in H; try discriminate.
  destruct (v_in_geopos q) eqn:Eg; [|discriminate]. assert (X: p = put_tle_path (if v_deftledir q then DEF_TLEDIR else v_tle_path q) q) by congruence. subst p.
  assert (Q: texts_clean q). { refine (G _ _ _ _ _ E). repeat split; apply clean_lit; reflexivity. }
  destruct Q as (A & B & D). repeat split; [exact A|exact B|]. cbn [put_tle_path v_tle_path]. destruct (v_deftledir q); [apply clean_lit; vm_compute; reflexivity|exact D].
Qed.

(** ** Pieces *)
Lemma vopen_run : forall l, run (MV, []) (vis_open_json ++ l) = run (MK, [FObj]) l.
Proof. intro l. apply run_lit. vm_compute. reflexivity. Qed.
Lemma zero_finite : is_finite (of_int 0) = true.
Proof. vm_compute. reflexivity. Qed.
Lemma vparams_run : forall file p az alt pa l s, clean file -> clean (v_date0 p) -> clean (v_date1 p) ->
  all_finite [v_lat p; v_lon p; v_ht p; v_radius p; az; alt; pa; v_mjd0 p; v_mjd1 p] ->
  run (MK, FObj :: s) (vis_params_json file p az alt pa ++ l) = run (MK, FObj :: s) l.
Proof.
  intros file p az alt pa l s C D0 D1 F. pose proof zero_finite as Z0. unfold all_finite in F. fin F. unfold vis_params_json. rewrite <- !app_assoc. set (z0 := of_int 0) in *. clearbody z0. pieces. reflexivity.
Qed.
Lemma vfields_run : forall l s, run (MK, FObj :: s) (vis_fields_json ++ l) = run (MK, FObj :: s) l.
Proof. intros l s. unfold vis_fields_json. rewrite <- !app_assoc. pieces. reflexivity. Qed.
Lemma vsun_run : forall lb u l s, clean lb -> vsun_finite u -> run (MK, FObj :: s) (vis_sun_json lb u ++ l) = run (MK, FObj :: s) l.
Proof. intros lb u l s C F. unfold vsun_finite, all_finite in F. fin F. unfold vis_sun_json. rewrite <- !app_assoc. pieces. reflexivity. Qed.
Lemma vgeo_run : forall lb g l s, clean lb -> vgeo_finite g -> run (MK, FObj :: s) (vis_geo_json lb g ++ l) = run (MK, FObj :: s) l.
Proof. intros lb g l s C F. unfold vgeo_finite, all_finite in F. fin F. unfold vis_geo_json. rewrite <- !app_assoc. pieces. reflexivity. Qed.
Lemma vsat_run : forall lb x o l s, clean lb -> clean (sa_date x) -> vsat_finite x -> vis_sat_json lb x = Ok o ->
  run (MK, FObj :: s) (o ++ l) = if strstrb lb (bytes "sat_max") then run (ME, FObj :: s) l else run (MK, FObj :: s) l.
Proof.
  intros lb x o l s C D F H. unfold vsat_finite, all_finite in F. fin F. unfold vis_sat_json in H. step H. apply ok_eq in H. subst o. rewrite <- !app_assoc. set (b := strstrb _ _). clearbody b. pieces.
  destruct b; cbn [app]; [reflexivity|]. pieces. reflexivity.
Qed.
Lemma event_run : forall nm g u x o l s, clean nm -> clean (sa_date x) -> event_finite (nm, g, u, x) -> event_text (nm, g, u, x) = Ok o ->
  run (MK, FObj :: s) (o ++ l) = if strstrb (bytes "sat_" ++ nm) (bytes "sat_max") then run (ME, FObj :: s) l else run (MK, FObj :: s) l.
Proof.
  intros nm g u x o l s C D (Fg & Fu & Fs) H. unfold event_text in H. step H. apply ok_eq in H. subst o. rewrite <- !app_assoc.
  rewrite vgeo_run, vsun_run by (first [assumption|apply clean_app; [apply clean_lit; reflexivity|exact C]]).
  apply (vsat_run _ x); try assumption. apply clean_app; [apply clean_lit; reflexivity|exact C].
Qed.
Lemma vhead_run : forall name desig tle l s, clean name -> clean desig -> run (MK, FObj :: s) (sat_head name desig tle ++ l) = run (MK, FObj :: FObj :: s) l.
Proof. intros name desig tle l s Cn Cd. unfold sat_head. rewrite <- !app_assoc, vfields_run. pieces. reflexivity. Qed.
Lemma vclose_run : forall argv il status msg n t s, Forall clean argv -> clean msg -> vis_close argv il status msg n = Ok t -> run (MK, FObj :: s) t = Some (ME, s).
Proof.
  intros argv il status msg n t s C M H. unfold vis_close in H. step H. apply ok_eq in H. subst t. rewrite <- ?app_assoc.
  assert (CF: clean a).
  { destruct il; [|apply ok_eq in E; subst a; constructor]. destruct (nth_error argv 1) as [x|] eqn:N; [|discriminate E]. apply ok_eq in E. subst a.
    apply clean_app; [apply clean_lit; reflexivity|]. rewrite Forall_forall in C. apply C. now apply nth_error_In with (n := 1%nat). }
  assert (CA: clean (concat (map (fun a => 32 :: a) (skipn (if il then 2 else 1) argv)))).
  { generalize (if il then 2%nat else 1%nat). intro k. assert (C': Forall clean (skipn k argv)) by (rewrite <- (firstn_skipn k argv) in C; apply Forall_app in C; tauto).
    induction C' as [|x l X L IH]; [constructor|]. cbn [map concat]. apply clean_app; [|exact IH]. constructor; [unfold plain; lia|exact X]. }
  pieces. destruct s; vm_compute; reflexivity.
Qed.
Lemma vpre_run : forall L file p l, clean file -> clean (v_date0 p) -> clean (v_date1 p) -> vhead_finite L p ->
  run (MV, []) (preamble L file p ++ l) = run (MK, [FObj]) l.
Proof.
  intros L file p l C D0 D1 F. unfold preamble. unfold vhead_finite in F. destruct (l_dechalat L _ _) as ((alt & az) & pa). rewrite <- !app_assoc, vopen_run, geofields_run. now apply vparams_run.
Qed.
Lemma pre_brace : forall L file p l, exists r, preamble L file p ++ l = 123 :: r.
Proof. intros L file p l. unfold preamble. destruct (l_dechalat L _ _) as ((alt & az) & pa). rewrite <- !app_assoc. eexists. reflexivity. Qed.

(** ** From the arguments to the search *)
Definition prepared (argv argv' : list (list Z)) (il : bool) (file : list Z) : Prop :=
  (il = false /\ argv' = argv /\ nth_error argv (file_arg argv) = Some file /\ forall a, file <> 64 :: a) \/
  (il = true /\ argv' = set_nth (file_arg argv) file argv /\ nth_error argv (file_arg argv) = Some (64 :: file)).

(** A line: plain characters, and perhaps a line feed at the end. *)
Definition plain_line (t : list Z) : Prop := clean t \/ exists u, t = u ++ [10] /\ clean u.
Lemma fgets_lines : forall cap l room cur, clean_rows l -> clean cur -> Forall plain_line (fgets_go cap room cur l).
Proof.
  intros cap l. induction l as [|c l IH]; intros room cur L C; cbn [fgets_go].
  - destruct cur; [constructor|]. constructor; [|constructor]. left. now apply Forall_rev.
  - inversion L as [|? ? Lc Ll]; subst. destruct (Z.eqb_spec c 10).
    + subst c. constructor; [|apply IH; [exact Ll|constructor]]. right. exists (rev cur). split; [reflexivity|]. now apply Forall_rev.
    + assert (Pc: plain c) by tauto. assert (CC: clean (c :: cur)) by (constructor; assumption).
      destruct room as [|[|r]]; [| |now apply IH]; (constructor; [left; now apply Forall_rev|apply IH; [exact Ll|constructor]]).
Qed.
Lemma text_of_line : forall t x v, c_text (t ++ 0 :: x) = Ok v -> exists w, t = v ++ w.
Proof.
  induction t as [|c t IH]; intros x v H; cbn [c_text app] in H; [assert (v = []) by (cbn in H; congruence); subst; now exists []|].
  destruct (c =? 0); [assert (v = []) by congruence; subst; now exists (c :: t)|]. step H. apply ok_eq in H. subst v. destruct (IH _ _ E) as (w & ->). now exists w.
Qed.
Lemma row_clean : forall row name, plain_line row -> row_name row = Ok (Some name) -> clean name.
Proof.
  intros row name P H. unfold row_name in H. step H. step H. destruct (_ =? 35); [discriminate|]. step H. destruct (store_text _ _ _ E) as (x & ->). destruct (text_of_line _ _ _ E1) as (w & W).
  destruct (rev a1) as [|last r] eqn:R; [discriminate|]. cbv zeta in H. assert (Ea: a1 = rev r ++ [last]) by (rewrite <- (rev_involutive a1), R; reflexivity).
  destruct (_ =? 0)%nat; [discriminate|]. assert (Hn: name = if last <? 32 then rev r else a1) by congruence. clear H. subst name.
  destruct P as [P|(u & U & P)].
  - rewrite W in P. apply Forall_app in P. destruct P as (P & _). destruct (last <? 32); [|exact P]. rewrite Ea in P. apply Forall_app in P. tauto.
  - assert (Pr: clean (rev r) /\ (last <? 32 = true \/ clean a1)).
    { destruct (exists_last (l := w ++ [0])) as (w' & z & Ew); [destruct w; discriminate|]. clear Ew w' z. destruct w as [|z w] using rev_ind.
      - rewrite app_nil_r in W. rewrite W, Ea in U. apply app_inj_tail in U. destruct U as (-> & ->). split; [exact P|]. left. reflexivity.
      - clear IHw. rewrite U, app_assoc in W. apply app_inj_tail in W. destruct W as (-> & _). apply Forall_app in P. destruct P as (P & _). split; [|right; exact P]. rewrite Ea in P. apply Forall_app in P. tauto. }
    destruct Pr as (Pr & [K|K]); [rewrite K; exact Pr|]. destruct (last <? 32); assumption.
Qed.
Lemma path_clean : forall a b, clean a -> clean b -> clean (a ++ 47 :: b).
Proof. intros a b A B. apply clean_app; [exact A|]. constructor; [unfold plain; lia|exact B]. Qed.

Section Quits.
Context (argv : list (list Z)) (il : bool).
(** An exit with a message, before anything was computed. *)
Definition gave_up (K : Prop) (code : Z) (out : list Z) : Prop :=
  code <> 0 /\ exists st msg t, vis_close argv il st msg 0 = Ok t /\ out = vis_open_json ++ t /\ (K -> clean msg).
Lemma quits : forall (K : Prop) code st msg r, code <> 0 -> (K -> clean msg) -> vis_quit argv il code st msg 0 vis_open_json = Ok r -> gave_up K (fst r) (snd r).
Proof.
  intros K code st msg r N M H. unfold vis_quit in H. step H. step H. apply sprintf_same in E. subst a. apply ok_eq in H. subst r. cbn [fst snd]. split; [exact N|]. exists st, msg, a0. repeat split; assumption.
Qed.
Lemma file_gives_up : forall (K : Prop) p fs path s code out, (K -> clean path) -> scan_file p fs argv il path s = Ok (Quit code out) -> gave_up K code out.
Proof.
  intros K p fs path s code out C H. unfold scan_file in H.
  assert (Q: forall c st msg, c <> 0 -> (K -> clean msg) -> find_quit argv il c st msg = Ok (Quit code out) -> gave_up K code out).
  { intros c st msg N M X. unfold find_quit in X. step X. apply (quits K) in E; [|exact N|exact M]. assert (fst a = code /\ snd a = out) as (<- & <-) by (split; congruence). exact E. }
  destruct (fs path) as [contents|].
  - destruct (fgets_seq 99 contents) as [|c0 rest].
    + apply Q in H; [exact H|lia|]. intro k. apply clean_app; [apply clean_lit; reflexivity|now apply C].
    + step H. step H. exfalso. revert H. generalize (mk_f a (f_line2 s) a0 (f_desig s) (f_tle s) true). induction rest as [|c rest IH]; intros s0 H; cbn [scan_lines] in H; [discriminate|].
      step H. step H. destruct a2 as (cd & t). step H. destruct a2 as (b & d). destruct b; [discriminate|]. step H. step H. step H. step H. exact (IH _ H).
  - apply Q in H; [exact H|lia|]. intro k. apply clean_app; [apply clean_lit; reflexivity|now apply C].
Qed.
End Quits.
Lemma rows_give_up : forall (K : Prop) p fs argv lines path0 s f path, (K -> clean (v_tle_path p)) -> (K -> Forall plain_line lines) -> (K -> clean path0) ->
  scan_rows p fs argv lines path0 s = Ok (f, path) -> (K -> clean path) /\ forall code out, f = Quit code out -> gave_up argv true K code out.
Proof.
  intros K p fs argv lines. induction lines as [|row r IH]; intros path0 s f path C L C0 H; cbn [scan_rows] in H.
  { assert (f = Missing s /\ path = path0) as (-> & ->) by (split; congruence). split; [exact C0|discriminate]. }
  assert (Lr: K -> Forall plain_line r) by (intro k; specialize (L k); now inversion L).
  step H. destruct a as [name|]; [|exact (IH _ _ _ _ C Lr C0 H)]. step H. apply sprintf_same in E0. subst a.
  assert (CP: K -> clean (v_tle_path p ++ 47 :: name)). { intro k. specialize (L k). inversion L as [|? ? Lrow _]; subst. apply path_clean; [now apply C|]. exact (row_clean _ _ Lrow E). }
  step H. destruct a as [s'|s'|c o].
  - assert (f = Found s' /\ path = v_tle_path p ++ 47 :: name) as (-> & ->) by (split; congruence). split; [exact CP|discriminate].
  - exact (IH _ _ _ _ C Lr CP H).
  - assert (f = Quit c o /\ path = v_tle_path p ++ 47 :: name) as (-> & ->) by (split; congruence). split; [exact CP|]. intros code out Q. assert (c = code /\ o = out) as (-> & ->) by (split; congruence).
    exact (file_gives_up _ _ _ _ _ _ _ _ _ CP E0).
Qed.
Lemma whole_text : forall e fuel argv p fin, visibility e fuel argv p = Ok fin ->
  exists argv' il file, prepared argv argv' il file /\
  ((vf_log fin = [] /\ gave_up argv' il (Forall clean argv /\ clean (v_tle_path p) /\ list_clean e argv p) (vf_code fin) (vf_out fin)) \/
   exists f, vis_found e fuel argv' il p file f = Ok fin).
Proof.
  intros e fuel argv p fin H. unfold visibility in H. cbv zeta in H. destruct (nth_error argv (file_arg argv)) as [ar|] eqn:EA; [|discriminate].
  set (K := Forall clean argv /\ clean (v_tle_path p) /\ list_clean e argv p). assert (CA: K -> clean ar). { intros (A & _). rewrite Forall_forall in A. apply A. exact (nth_error_In _ _ EA). }
  set (il := match ar with 64 :: _ => true | _ => false end) in *. set (file := if il then tl ar else ar) in *. set (argv' := if il then _ else argv) in *.
  assert (Pr: prepared argv argv' il file /\ (il = true -> ar = 64 :: file)).
  { unfold argv', file. destruct il eqn:Il.
    - assert (ar = 64 :: tl ar) as Ar by (clear - Il; destruct ar as [|a ar]; [discriminate Il|]; destruct a as [|a|a]; try discriminate Il; do 7 (destruct a as [a|a|]; try discriminate Il); reflexivity).
      split; [|intros _; exact Ar]. right. split; [reflexivity|]. split; [reflexivity|]. rewrite EA. now rewrite Ar at 1.
    - split; [|discriminate]. left. split; [reflexivity|]. split; [reflexivity|]. split; [exact EA|]. intros a ->. discriminate Il. }
  destruct Pr as (Pr & Ar). assert (CF: K -> clean file). { intro k. specialize (CA k). unfold file. destruct il; [|exact CA]. destruct ar; [constructor|now inversion CA]. }
  exists argv', il, file. split; [exact Pr|]. clearbody il file argv'. step H.
  assert (Q: forall code st msg, code <> 0 -> (K -> clean msg) -> (r <- vis_quit argv' il code st msg 0 vis_open_json ;; Ok (mk_vfinal (fst r) (snd r) [])) = Ok fin -> vf_log fin = [] /\ gave_up argv' il K (vf_code fin) (vf_out fin)).
  { intros code st msg N M X. step X. apply (quits _ _ K) in E0; [|exact N|exact M]. assert (fin = mk_vfinal (fst a0) (snd a0) []) by congruence. subst fin. split; [reflexivity|exact E0]. }
  assert (G: forall fp : res (find * list Z), (forall f path, fp = Ok (f, path) -> (K -> clean path) /\ forall code out, f = Quit code out -> gave_up argv' il K code out) ->
    (fp <- fp ;; (let '(f, path) := fp in match f with Quit code out => Ok (mk_vfinal code out [])
      | Missing s => if f_open s then r <- vis_quit argv' il 1 1 (bytes "Satellite not found in " ++ path) 0 vis_open_json ;; Ok (mk_vfinal (fst r) (snd r) []) else UB NullDeref
      | Found s => vis_found e fuel argv' il p file s end)) = Ok fin ->
    (vf_log fin = [] /\ gave_up argv' il K (vf_code fin) (vf_out fin)) \/ exists f, vis_found e fuel argv' il p file f = Ok fin).
  { intros fp N X. step X. destruct a0 as (f & path). destruct (N f path E0) as (CP & GU). destruct f as [s|s|code out].
    - right. exists s. exact X.
    - destruct (f_open s); [|discriminate]. left. apply Q in X; [exact X|lia|]. intro k. apply clean_app; [apply clean_lit; reflexivity|now apply CP].
    - left. assert (fin = mk_vfinal code out []) by congruence. subst fin. split; [reflexivity|now apply GU]. }
  assert (CL: forall m, forallb is_plain m = true -> K -> clean m) by (intros m Hm _; now apply clean_lit).
  assert (LP: il = true -> a = Some (v_tle_path p ++ 47 :: file, n_fs e (v_tle_path p ++ 47 :: file))).
  { intros ->. step E. apply sprintf_same in E0. subst a0. apply ok_eq in E. congruence. }
  assert (CP: K -> clean (v_tle_path p ++ 47 :: file)) by (intro k; apply path_clean; [exact (proj1 (proj2 k))|now apply CF]).
  destruct a as [(path & [contents|])|].
  - destruct il; [|discriminate E]. specialize (LP eq_refl). assert (path = v_tle_path p ++ 47 :: file /\ n_fs e (v_tle_path p ++ 47 :: file) = Some contents) as (-> & Fs) by (split; congruence).
    destruct (negb _ && _); [left; apply Q in H; [exact H|lia|apply CL; reflexivity]|]. apply G in H; [exact H|]. intros f path' X.
    destruct Pr as [(Pr & _)|(_ & -> & Nth)]; [discriminate Pr|].
    refine (rows_give_up K _ _ _ _ _ _ _ _ _ _ _ X); [intro k; exact (proj1 (proj2 k))| |intros _; constructor].
    intros (_ & _ & k). apply fgets_lines; [|constructor]. apply (k file); [rewrite <- Nth; reflexivity|exact Fs].
  - destruct il; [|discriminate E]. specialize (LP eq_refl). assert (path = v_tle_path p ++ 47 :: file) as -> by congruence.
    left. apply Q in H; [exact H|lia|]. intro k. apply clean_app; [apply clean_lit; reflexivity|now apply CP].
  - destruct il; [specialize (LP eq_refl); discriminate LP|].
    destruct (negb _ && _); [left; apply Q in H; [exact H|lia|apply CL; reflexivity]|]. apply G in H; [exact H|]. intros f path X. step X. apply sprintf_same in E0. step X. assert (a0 = f /\ a = path) as (-> & ->) by (split; congruence).
    assert (CPa: K -> clean path) by (intro k; rewrite E0; destruct (existsb _ _); [now apply CF|now apply CP]).
    split; [exact CPa|]. intros code out ->. exact (file_gives_up _ _ _ _ _ _ _ _ _ CPa E1).
Qed.

Lemma set_nth_clean : forall k x l, clean x -> Forall clean l -> Forall clean (set_nth k x l).
Proof.
  intros k x l X C. unfold set_nth. apply Forall_app. split; [|constructor; [exact X|]].
  - rewrite <- (firstn_skipn k l) in C. apply Forall_app in C. tauto.
  - rewrite <- (firstn_skipn (S k) l) in C. apply Forall_app in C. tauto.
Qed.
Lemma prepared_clean : forall argv argv' il file, prepared argv argv' il file -> Forall clean argv -> Forall clean argv' /\ clean file.
Proof.
  intros argv argv' il file [(_ & -> & N & _)|(_ & -> & N)] C; (assert (CN := C); rewrite Forall_forall in CN; apply nth_error_In in N; specialize (CN _ N)).
  - now split.
  - assert (clean file) by (now inversion CN). split; [now apply set_nth_clean|assumption].
Qed.

(** The printed duration is finite. *)
Lemma duration_finite : forall e fuel p t0 l idle lit en, first_sample e fuel p t0 -> timed (vstep p) t0 l -> Forall (fun m => fle (m_t m) (range_end p) = true) l ->
  l = idle ++ lit ++ last_ones en -> lit <> [] -> 1 <= v_delta_time p <= 2147483647 -> bnd 29 (range_begin p) -> bnd 29 (range_end p) ->
  is_finite (duration (begin_clock (vstep p) t0 (length idle)) (end_clock (vstep p) t0 (length l) en)) = true.
Proof.
  intros e fuel p t0 l idle lit en Fi T In Sp Ne Hd B0 B1. destruct (first_at 29 e fuel p t0 ltac:(lia) B0 B1 Fi) as (F0 & _ & K).
  destruct lit as [|m rest] eqn:El; [congruence|]. rewrite <- El in *. destruct (exists_last Ne) as (lit' & m' & Em').
  assert (Nm: nth_error l (length idle) = Some m) by (rewrite Sp, nth_error_app2, Nat.sub_diag by lia; rewrite El; reflexivity).
  assert (Nm': nth_error lit (length lit - 1) = Some m'). { rewrite Em', app_length. cbn [length]. replace (length lit' + 1 - 1)%nat with (length lit') by lia. rewrite nth_error_app2, Nat.sub_diag by lia. reflexivity. }
  assert (Nl: nth_error l (length idle + (length lit - 1)) = Some m').
  { rewrite Sp, nth_error_app2 by lia. replace (length idle + (length lit - 1) - length idle)%nat with (length lit - 1)%nat by lia. rewrite nth_error_app1; [exact Nm'|]. apply nth_error_Some. congruence. }
  assert (B: (Rabs (toR t0) <= bpow radix2 29)%R).
  { destruct K as [K|K]; [exact K|]. exfalso. assert (Z: fle (ticks (vstep p) t0 0) (range_end p) = true) by (apply (grid _ _ _ _ T In); assert (length idle < length l)%nat by (apply nth_error_Some; congruence); lia). cbn [ticks] in Z. apply fle_R in Z; [lra|exact F0|exact (proj1 B1)]. }
  pose proof (grid _ _ _ _ T In) as G. pose proof (fun k Hk => ticks_up 29 ltac:(lia) p Hd t0 (range_end p) F0 (proj1 B1) B (proj2 B1) (length l) G k Hk) as TU.
  assert (Bd: forall i x, nth_error l i = Some x -> (Rabs (toR (m_t x)) <= bpow radix2 29)%R).
  { intros i x Hx. assert (i < length l)%nat by (apply nth_error_Some; congruence). destruct (TU i ltac:(lia)) as (_ & _ & _ & U & _). rewrite (T _ _ Hx). now apply U. }
  pose proof (Bd _ _ Nm) as Bm. pose proof (Bd _ _ Nl) as Bm'. destruct (step_pos p Hd) as (_ & _ & Bs).
  destruct (span 29 ltac:(lia) p Hd t0 (range_end p) F0 (proj1 B1) B (proj2 B1) l idle lit en m m' 31 T In Sp Nm Nm' ltac:(lia)) as (_ & Fd & _); [|exact Fd].
  apply Rabs_le_inv in Bm, Bm'. change (bpow radix2 29) with 536870912%R in *. change (bpow radix2 31) with 2147483648%R. lra.
Qed.

(** ** Whole texts *)
Lemma announced : forall a b name desig tle c, announces (a ++ sat_head name desig tle ++ b ++ c) name desig.
Proof.
  intros. unfold announces, sat_head. change (q " 'satellite': {'name': '") with ([32] ++ q "'satellite': {'name': '"). exists (a ++ vis_fields_json ++ [32]). eexists. rewrite <- !app_assoc. reflexivity.
Qed.
Lemma texts_split : forall x l o, event_texts (x :: l) = Ok o -> exists a b, event_text x = Ok a /\ event_texts l = Ok b /\ o = a ++ b.
Proof. intros x l o H. cbn [event_texts] in H. step H. step H. apply ok_eq in H. subst o. exists a, a0. repeat split; assumption. Qed.
Theorem vis_json : forall r f e fuel argv p fin, vis_command_line r f argv = Ok (Done p) -> visibility e fuel argv p = Ok fin -> vf_code fin = 0 ->
  Forall clean argv -> vhead_finite (n_lib e) p -> 1 <= v_delta_time p <= 2147483647 -> bnd 29 (range_begin p) -> bnd 29 (range_end p) ->
  Forall event_finite (events (vf_log fin)) ->
  (events (vf_log fin) = [] -> vsun_finite (sun_of (n_lib e) (range_begin p)) -> json_object (vf_out fin)) /\
  (events (vf_log fin) <> [] -> exists name desig, announces (vf_out fin) name desig /\ (clean name -> clean desig -> json_object (vf_out fin))).
Proof.
  intros r f0 e fuel argv p fin HC H C0 CA HF Hd B0 B1 EF. destruct (parsed_texts _ _ _ _ CA HC) as (D0 & D1 & _).
  destruct (whole_text _ _ _ _ _ H) as (argv' & il & file & Pr & [(_ & N & _)|(f & K)]); [congruence|]. destruct (prepared_clean _ _ _ _ Pr CA) as (CA' & CF).
  destruct (run_facts _ _ _ _ _ _ _ _ K) as (t0 & Fi & T & _ & In & Cs). cbv zeta in *.
  destruct Cs as [(_ & _ & _ & Ev & c & CL & Eo)|[(C1 & _)|(_ & idle & lit & en & [Sp _ _ Ne _ _ X] & name & desig & o & c & _ & _ & Tx & CL & Eo)]].
  - split; [|congruence]. intros _ SF. rewrite Eo. apply to_object; [|apply pre_brace]. rewrite vpre_run, vsun_run; try assumption; [|apply clean_lit; reflexivity]. refine (vclose_run _ _ _ _ _ _ _ CA' _ CL). constructor.
  - congruence.
  - pose proof (duration_finite _ _ _ _ _ _ _ _ Fi T In Sp Ne Hd B0 B1) as DF.
    destruct X as (g1 & u1 & s1 & g2 & u2 & s2 & g3 & u3 & s3 & g4 & u4 & s4 & tmax & Ev & (_ & T1) & (_ & T2) & (_ & T3) & (_ & T4) & _). rewrite Ev in *. split; [discriminate|]. intros _. exists name, desig.
    split; [rewrite Eo; apply announced|]. intros Cn Cd. rewrite Eo. apply to_object; [|apply pre_brace]. rewrite vpre_run, vhead_run by assumption.
    inversion EF as [|? ? E1 EF1]; subst. inversion EF1 as [|? ? E2 EF2]; subst. inversion EF2 as [|? ? E3 EF3]; subst. inversion EF3 as [|? ? E4 _]; subst.
    apply date_clean in T1, T2, T3, T4.
    apply texts_split in Tx. destruct Tx as (o1 & r1 & X1 & Tx & ->). apply texts_split in Tx. destruct Tx as (o2 & r2 & X2 & Tx & ->). apply texts_split in Tx. destruct Tx as (o3 & r3 & X3 & Tx & ->).
    apply texts_split in Tx. destruct Tx as (o4 & r4 & X4 & Tx & ->). cbn [event_texts] in Tx. apply ok_eq in Tx. subst r4. rewrite <- !app_assoc. cbn [app].
    assert (CN: forall n : string, forallb is_plain (bytes n) = true -> clean (bytes n)) by (intros n Hn; now apply clean_lit).
    rewrite (event_run _ _ _ _ _ _ _ (CN "start"%string eq_refl) T1 E1 X1). match goal with |- context [strstrb ?a ?b] => change (strstrb a b) with false end. cbv iota.
    rewrite (event_run _ _ _ _ _ _ _ (CN "end"%string eq_refl) T2 E2 X2). match goal with |- context [strstrb ?a ?b] => change (strstrb a b) with false end. cbv iota.
    rewrite (event_run _ _ _ _ _ _ _ (CN "mid"%string eq_refl) T3 E3 X3). match goal with |- context [strstrb ?a ?b] => change (strstrb a b) with false end. cbv iota.
    rewrite (event_run _ _ _ _ _ _ _ (CN "max"%string eq_refl) T4 E4 X4). match goal with |- context [strstrb ?a ?b] => change (strstrb a b) with true end. cbv iota.
    unfold duration_text. rewrite <- !app_assoc. set (d := duration _ _) in *. clearbody d. pieces. refine (vclose_run _ _ _ _ _ _ _ CA' _ CL). constructor.
Qed.

Theorem vis_json_error : forall r f e fuel argv p fin, vis_command_line r f argv = Ok (Done p) -> visibility e fuel argv p = Ok fin -> vf_code fin <> 0 ->
  Forall clean argv -> vhead_finite (n_lib e) p -> list_clean e argv p -> Forall event_finite (events (vf_log fin)) ->
  (events (vf_log fin) = [] -> json_object (vf_out fin)) /\
  (events (vf_log fin) <> [] -> exists name desig, announces (vf_out fin) name desig /\ (clean name -> clean desig -> ~ json (vf_out fin))).
Proof.
  intros r f0 e fuel argv p fin HC H C0 CA HF LC EF. destruct (parsed_texts _ _ _ _ CA HC) as (D0 & D1 & D2).
  destruct (whole_text _ _ _ _ _ H) as (argv' & il & file & Pr & [(Lg & _ & st & msg & t & CL & Eo & CM)|(f & K)]); destruct (prepared_clean _ _ _ _ Pr CA) as (CA' & CF).
  - rewrite Lg. split; [|cbn; congruence]. intros _. rewrite Eo. apply to_object; [|eexists; reflexivity]. rewrite vopen_run. exact (vclose_run _ _ _ _ _ _ _ CA' (CM (conj CA (conj D2 LC))) CL).
  - destruct (run_facts _ _ _ _ _ _ _ _ K) as (t0 & Fi & T & _ & In & Cs). cbv zeta in *.
    assert (AC: clean (bytes "Satellite altitude out of requested range")) by (apply clean_lit; reflexivity).
    destruct Cs as [(C1 & _)|[(_ & _ & [(_ & Ev & Q)|(g & u & s & o & name & desig & Ev & Tx & Q & idle & m & rest & _ & _ & _ & (_ & T1) & _)])|(C1 & _)]]; [congruence| | |congruence]; unfold out_of_range, vis_quit in Q; step Q; step Q;
      apply sprintf_same in E; subst a; assert (Eo: vf_out fin = _ ++ a0) by (apply ok_eq in Q; exact (f_equal snd Q)); rewrite Eo; clear Q.
    + split; [|congruence]. intros _. apply to_object; [|apply pre_brace]. rewrite vpre_run by assumption. exact (vclose_run _ _ _ _ _ _ _ CA' AC E0).
    + rewrite Ev in *. split; [discriminate|]. intros _. exists name, desig. rewrite <- !app_assoc. split; [apply announced|]. intros Cn Cd J. apply accepts_iff in J. unfold accepts in J.
      inversion EF as [|? ? E1 _]; subst. apply date_clean in T1. rewrite vpre_run, vhead_run in J by assumption.
      rewrite (event_run _ _ _ _ _ _ _ (clean_lit (bytes "start") eq_refl) T1 E1 Tx) in J. match type of J with context [strstrb ?a ?b] => change (strstrb a b) with false in J end. cbv iota in J.
      rewrite (vclose_run _ _ _ _ _ _ _ CA' AC E0) in J. discriminate J.
Qed.

(** ** Option errors *)
Lemma vis_error_json : forall (S : Type) argv c msg code out, Forall clean argv -> clean msg -> vis_error (S := S) argv c msg = Ok (Leave code out) -> json_object out /\ code = c.
Proof.
  intros S argv c msg code out C M H. unfold vis_error in H. step H. apply sprintf_same in E. subst a. step H. assert (out = vis_open_json ++ a) by congruence. split; [|congruence]. subst out.
  apply to_object; [|eexists; reflexivity]. rewrite vopen_run. exact (vclose_run _ _ _ _ _ _ _ C M E).
Qed.
Lemma vis_switch_json : forall r argv o val cur p code out, Forall clean argv -> (forall t, cur = Ok t -> clean t) ->
  vis_switch r argv o val cur p = Ok (Leave code out) -> (code = 0 /\ out = vis_usage) \/ (json_object out /\ (code = -1 \/ code = -2)).
Proof.
  intros r argv o val cur p code out C Hc E. unfold vis_switch in E.
  assert (L : forall c msg, clean msg -> c = -1 \/ c = -2 -> vis_error (S := vparams) argv c msg = Ok (Leave code out) -> json_object out /\ (code = -1 \/ code = -2)).
  { intros c msg M Kc H. destruct (vis_error_json _ _ _ _ _ _ C M H) as (J & ->). now split. }
  repeat match type of E with
         | bind cur _ = _ => destruct cur as [ct|]; cbn [bind] in E; [specialize (Hc ct eq_refl)|discriminate]
         | bind ?m _ = _ => destruct m; cbn [bind] in E; [|discriminate]
         | Ok _ = Ok _ => first [discriminate E|assert (code = 0 /\ out = vis_usage) by (split; congruence); left; assumption]
         | (let _ := _ in _) = _ => cbv zeta in E
         | (if ?b then _ else _) = _ => destruct b
         | (let '(_, _) := ?x in _) = _ => destruct x
         end; try discriminate; right.
  all: revert E; apply L; [|tauto]; repeat apply clean_app; try apply print_clean; try exact Hc; apply clean_lit; reflexivity.
Qed.
Theorem vis_exits : forall r fuel argv code out, (2 <= length argv)%nat -> Forall clean argv -> vis_command_line r fuel argv = Ok (Exit code out) ->
  (code = 0 /\ out = vis_usage) \/ (json_object out /\ (code = -1 \/ code = -2)).
Proof.
  intros r fuel argv code out Hl C H. unfold vis_command_line in H. destruct (Nat.ltb_spec (length argv) 2); [lia|].
  assert (G : forall f i q, opt_loop (vis_switch r argv) f argv i q = Ok (Exit code out) -> (code = 0 /\ out = vis_usage) \/ (json_object out /\ (code = -1 \/ code = -2))).
  { induction f as [|f IH]; intros i q E; cbn [opt_loop] in E; (destruct (i <? length argv)%nat; [|discriminate]); [discriminate|].
    destruct (one_arg _ _ i q) as [[i' q1|c o]|] eqn:E1; cbn [bind] in E; try discriminate; [exact (IH _ _ E)|].
    assert (c = code /\ o = out) as (-> & ->) by (split; congruence).
    unfold one_arg in E1. destruct (arg argv i); cbn [bind] in E1; [|discriminate]. destruct (rd a 0) as [c|]; cbn [bind] in E1; [|discriminate].
    destruct (c =? 45); [|discriminate].
    destruct (rd a 1) as [o|]; cbn [bind] in E1; [|discriminate]. destruct (rd a 2) as [c2|]; cbn [bind] in E1; [|discriminate].
    destruct (if c2 =? 0 then _ else _) as (j, pos). destruct (vis_switch _ _ _ _ _ _) as [[sw s'|c' o']|] eqn:Es; cbn [bind] in E1; try discriminate.
    assert (c' = code /\ o' = out) as (-> & ->) by (split; congruence).
    refine (vis_switch_json _ _ _ _ _ _ _ _ C _ Es). intros t Et. unfold arg in Et. destruct (nth_error argv j) as [b|] eqn:Ej; cbn [bind] in Et; [|discriminate].
    refine (text_clean b t _ Et). exact (proj1 (Forall_forall _ _) C b (nth_error_In _ _ Ej)). }
  destruct (opt_loop (vis_switch r argv) fuel argv 1 vis_defaults) as [[q|c o]|] eqn:E; cbn [bind] in H; try discriminate.
  - destruct (v_in_geopos q); [discriminate|]. left. split; congruence.
  - assert (c = code /\ o = out) as (-> & ->) by (split; congruence). exact (G _ _ _ E).
Qed.

(** ** The echo *)
Definition closes (argv : list (list Z)) (il : bool) (out : list Z) : Prop := exists pre st msg n t, vis_close argv il st msg n = Ok t /\ out = pre ++ t.
Lemma always_closes : forall e fuel argv p fin, visibility e fuel argv p = Ok fin -> exists argv' il file, prepared argv argv' il file /\ closes argv' il (vf_out fin).
Proof.
  intros e fuel argv p fin H. destruct (whole_text _ _ _ _ _ H) as (argv' & il & file & Pr & W). exists argv', il, file. split; [exact Pr|]. unfold closes.
  destruct W as [(_ & _ & st & msg & t & CL & Eo & _)|(f & K)]; [eexists; exists st, msg, 0, t; split; [exact CL|exact Eo]|].
  destruct (run_facts _ _ _ _ _ _ _ _ K) as (t0 & _ & _ & _ & _ & Cs). cbv zeta in *.
  destruct Cs as [(_ & _ & _ & _ & c & CL & Eo)|[(_ & _ & [(_ & _ & Q)|(g & u & s & o & name & desig & _ & _ & Q & _)])|(_ & idle & lit & en & _ & name & desig & o & c & _ & _ & _ & CL & Eo)]].
  - rewrite app_assoc in Eo. do 5 eexists. split; [exact CL|exact Eo].
  - unfold out_of_range, vis_quit in Q. step Q. step Q. do 5 eexists. split; [exact E0|]. apply ok_eq in Q. exact (f_equal snd Q).
  - unfold out_of_range, vis_quit in Q. step Q. step Q. do 5 eexists. split; [exact E0|]. apply ok_eq in Q. exact (f_equal snd Q).
  - rewrite !app_assoc in Eo. do 5 eexists. split; [exact CL|exact Eo].
Qed.
Theorem vis_echo : forall e fuel argv p fin, visibility e fuel argv p = Ok fin ->
  (forall a, nth_error argv (file_arg argv) = Some (64 :: a) -> file_arg argv = 1%nat) ->
  exists pre post, vf_out fin = pre ++ q "'run_command': '" ++ vis_command argv ++ q "', 'status': " ++ post.
Proof.
  intros e fuel argv p fin H NL. destruct (always_closes _ _ _ _ _ H) as (argv' & il & file & Pr & pre & st & msg & n & t & CL & ->). exists pre. unfold vis_command.
  destruct Pr as [(-> & -> & _ & _)|(-> & -> & EA)].
  - unfold vis_close in CL. step CL. apply ok_eq in E. subst a. apply ok_eq in CL. subst t. eexists. f_equal. reflexivity.
  - pose proof (NL _ EA) as N1. rewrite N1 in EA, CL. destruct argv as [|x [|y rest]]; try discriminate EA. cbn [nth_error] in EA. assert (y = 64 :: file) as -> by congruence.
    change (set_nth 1 file (x :: (64 :: file) :: rest)) with (x :: file :: rest) in CL. unfold vis_close in CL. step CL. cbn [nth_error] in E. apply ok_eq in E. subst a. apply ok_eq in CL. subst t. eexists. f_equal.
    cbn [skipn map concat]. change (bytes " @" ++ file) with (32 :: 64 :: file). rewrite <- !app_assoc. reflexivity.
Qed.
