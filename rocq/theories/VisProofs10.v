(** The element set sat_visibility works with is the first one that meets the request. *)
From Coq Require Import String Ascii ZArith List Bool Lia.
From Verif Require Import CLib ListLemmas FloatModel TleModel TleSpec TleProofs1 TleProofs5 IoModel SkymapModel SkymapSpec SkymapProofs1 SkymapProofs4 SkymapProofs6 SkymapProofs7 SkymapProofs8 VisCliModel VisModel VisSpec VisFindSpec VisProofs1 VisProofs2 VisProofs3 VisProofs9.
Import ListNotations.
Open Scope Z_scope.

(** ** One element set *)
Lemma vis_desig_launch : forall el y n p1 rest old, launch el y n p1 rest -> vis_desig (e_desig el) old = Ok (firstn 9 (designator y n (p1 :: rest))).
Proof.
  intros el y n p1 rest old (Y & N & P & L & E). pose proof (desig_general y n p1 rest Y N P L) as H. rewrite <- E in H. unfold desig_text in H. unfold vis_desig.
  inv_bind H c0 H0. rewrite H0. cbn [bind]. destruct (Z.eqb_spec c0 32) as [->|_]; [|exact H]. exfalso. rewrite E in H0. unfold desig_field, rd in H0. cbn [map app nth_error] in H0.
  assert (K: 48 + dig 10 y 1 = 32) by congruence. assert (B: 0 <= dig 10 y 1) by (unfold dig; apply Z.mod_pos_bound; lia). lia.
Qed.
Lemma take_ok : forall l n, (n <= length l)%nat -> c_take l n = Ok (firstn n l).
Proof. intros l n H. unfold c_take. replace (n <=? length l)%nat with true by (symmetry; now apply Nat.leb_le). reflexivity. Qed.
Lemma prefix_eq : forall d v, (length d <= 9)%nat -> (length v <= 12)%nat -> ~ In 0 v ->
  exists b, c_memeq (firstn 12 (d ++ repeat 0 12)) (firstn 12 (v ++ repeat 0 12)) (length v) = Ok b /\ (b = true <-> exists more, d = v ++ more).
Proof.
  intros d v Ld Lv Nv. unfold c_memeq.
  rewrite !take_ok by (rewrite firstn_length, app_length, repeat_length; lia). cbn [bind]. eexists. split; [reflexivity|].
  rewrite !firstn_firstn, Nat.min_l by lia. rewrite (firstn_app _ v), Nat.sub_diag, firstn_all. cbn [firstn]. rewrite app_nil_r.
  destruct (list_eq_dec Z.eq_dec _ _) as [E|E].
  - split; [intros _|reflexivity]. rewrite firstn_app in E. destruct (Nat.le_gt_cases (length v) (length d)) as [L|L].
    + replace (length v - length d)%nat with O in E by lia. cbn [firstn] in E. rewrite app_nil_r in E. exists (skipn (length v) d). rewrite <- (firstn_skipn (length v) d) at 1. now rewrite E.
    + exfalso. apply Nv. rewrite <- E. apply in_or_app. right. destruct (length v - length d)%nat as [|k] eqn:K; [lia|]. now left.
  - split; [discriminate|]. intros (more & ->). exfalso. apply E. rewrite <- app_assoc, firstn_app, Nat.sub_diag, firstn_all. cbn [firstn]. apply app_nil_r.
Qed.
Lemma code_no_nul : forall n, 0 <= n < 100000 -> ~ In 0 (encode_norad n).
Proof.
  intros n N I. destruct (plain_code_shows n N) as (k & ds & E & _ & D & _). rewrite E in I. apply in_app_or in I. destruct I as [I|I].
  - apply repeat_spec in I. discriminate I.
  - rewrite Forall_forall in D. apply D in I. unfold digit in I. lia.
Qed.
Lemma code_length : forall n, 0 <= n < 100000 -> length (encode_norad n) = 5%nat.
Proof. intros n N. unfold encode_norad. destruct (Z.ltb_spec n 100000); [reflexivity|lia]. Qed.
(** The request is decided rightly. *)
Lemma requested_right : forall p t1 t2 el c1 x t d r, request p -> recognisable p el -> good_block (Pair t1 t2 el) -> chunk_of t1 c1 -> describes t el ->
  requested p t (c1 ++ 0 :: x) d = Ok r -> (fst r = true <-> asked p el).
Proof.
  intros p t1 t2 el c1 x t d r Rq Rc G C D H. unfold requested in H. step H. step H. unfold recognisable in Rc. unfold asked. destruct (v_single_n p) eqn:S.
  - destruct G as (_ & _ & L1 & _). destruct L1 as (Len & _ & _ & _ & _ & N0 & F & _). rewrite app_length in Len. cbn in Len.
    assert (F': field t1 2 5 = encode_norad (e_number el)) by (rewrite <- F; symmetry; apply field_app; lia).
    assert (A: firstn 5 (adv (c1 ++ 0 :: x) 2) = encode_norad (e_number el)).
    { unfold adv. rewrite <- F'. unfold field. assert (X: exists y, c1 ++ 0 :: x = t1 ++ y) by (destruct C as [->| ->]; [rewrite <- app_assoc|]; eexists; reflexivity).
      destruct X as (y & ->). rewrite skipn_app, firstn_app. rewrite skipn_length. replace (5 - (length t1 - 2))%nat with O by lia. cbn [firstn]. apply app_nil_r. }
    assert (NR: 0 <= e_number el < 100000) by lia.
    assert (Q: strncpy_bytes (adv (c1 ++ 0 :: x) 2) 5 = Ok (encode_norad (e_number el))).
    { rewrite strncpy_no_nul; [now rewrite A| |rewrite A; now apply code_no_nul]. unfold adv. rewrite skipn_length, app_length. destruct C as [->| ->]; [rewrite app_length|]; cbn; lia. }
    rewrite Q in E. assert (a = encode_norad (e_number el)) as -> by congruence. rewrite c_text_nul in E0 by now apply code_no_nul. assert (a0 = encode_norad (e_number el)) as -> by congruence.
    rewrite (strtol_shows _ _ (plain_code_shows _ NR)) in H. cbn [bind] in H. assert (r = (e_number el =? v_norad_n p, d)) as -> by congruence. cbn [fst]. apply Z.eqb_eq.
  - destruct Rq as [Rq|(Si & Lv & Nv)]; [congruence|]. rewrite Si in H. destruct Rc as (y & n & p1 & rest & La).
    assert (Ed: tle_intl_desig t = e_desig el) by (unfold describes in D; tauto). rewrite Ed, (vis_desig_launch _ _ _ _ _ _ La) in H. cbn [bind] in H.
    set (tx := firstn 9 (designator y n (p1 :: rest))) in *. destruct (prefix_eq tx (v_intl_desig p)) as (b & B & I); [unfold tx; rewrite firstn_length; lia|exact Lv|exact Nv|].
    rewrite B in H. cbn [bind] in H. assert (r = (b, tx)) as -> by congruence. cbn [fst]. rewrite I. split.
    + intros (more & M). exists y, n, p1, rest, more. split; [exact La|exact M].
    + intros (y' & n' & p1' & rest' & more & La' & M). exists more. rewrite <- M. unfold tx.
      pose proof (vis_desig_launch _ _ _ _ _ [] La) as V. rewrite (vis_desig_launch _ _ _ _ _ [] La') in V. congruence.
Qed.

(** ** All lines of a file *)
Definition fname (o : option (list Z)) (s : fst_) : Prop := forall t, o = Some t -> good_name t -> exists a, c_text (f_name s) = Ok a /\ trimmed a t.
(** What the search ends with, given the records it goes through. *)
Definition outcome (p : vparams) (rs : list (option (list Z) * elements)) (f : find) : Prop :=
  match f with
  | Found s => exists r1 o el r2, rs = r1 ++ (o, el) :: r2 /\ Forall (fun r => ~ asked p (snd r)) r1 /\ asked p el /\ describes (f_tle s) el /\ fname o s
  | Missing _ => Forall (fun r => ~ asked p (snd r)) rs
  | Quit _ _ => False
  end.
(** A line that is not a second line. *)
Lemma line_other : forall p c chunks s f, hd 0 c <> 50 -> ~ In 0 c -> scan_lines p (c :: chunks) s = Ok f ->
  exists s' x, scan_lines p chunks s' = Ok f /\ f_line1 s' = c ++ 0 :: x /\ f_open s' = f_open s /\
    (hd 0 c = 49 -> f_name s' = f_name s) /\ (hd 0 c <> 49 -> exists x, take_name (c ++ 0 :: x) (f_name s) = Ok (f_name s')).
Proof.
  intros p c chunks s f N Z H. cbn [scan_lines] in H. step H. step H. destruct a0 as (code & t). destruct (store_text _ _ _ E) as (x & ->).
  assert (K: code =? 0 = false). { apply Z.eqb_neq. intros ->. apply parse_codes in E0. destruct E0 as [(K & _)|(k1 & k2 & _ & S2 & _)]; [lia|]. rewrite col0 in S2. contradiction. }
  rewrite K in H. cbn [bind] in H. rewrite c_text_nul in H by exact Z. cbn [bind] in H. step H. destruct (store_text _ _ _ E1) as (y & ->). step H. step H.
  assert (C0: a = hd 0 c). { unfold rd in E2. destruct c as [|a' c]; cbn in E2; injection E2 as <-; reflexivity. } subst a.
  eexists. exists y. split; [exact H|]. split; [reflexivity|]. split; [reflexivity|]. cbn [f_name]. split.
  - intro C. rewrite C in E3. cbn in E3. congruence.
  - intro C. exists x. destruct (Z.eqb_spec (hd 0 c) 49); [contradiction|]. destruct (Z.eqb_spec (hd 0 c) 50); [contradiction|]. exact E3.
Qed.
(** A second line. *)
Lemma line_second : forall p t1 t2 el c1 x1 c2 chunks s f, request p -> recognisable p el -> good_block (Pair t1 t2 el) -> chunk_of t1 c1 -> chunk_of t2 c2 ->
  f_line1 s = c1 ++ 0 :: x1 -> scan_lines p (c2 :: chunks) s = Ok f ->
  (asked p el /\ exists s', f = Found s' /\ describes (f_tle s') el /\ f_name s' = f_name s) \/
  (~ asked p el /\ exists s', scan_lines p chunks s' = Ok f /\ f_open s' = f_open s).
Proof.
  intros p t1 t2 el c1 x1 c2 chunks s f Rq Rc G C1 C2 E1 H. cbn [scan_lines] in H. step H. step H. destruct a0 as (code & t). destruct (store_text _ _ _ E) as (x2 & ->).
  destruct (pair_parses t1 t2 el c1 c2 x1 x2 (f_tle s) G C1 C2) as (t' & Pt & D). rewrite E1, Pt in E0. assert (code = 0 /\ t = t') as (-> & ->) by (split; congruence).
  cbn [Z.eqb] in H. rewrite E1 in H. step H. destruct a as (b & d). pose proof (requested_right _ _ _ _ _ _ _ _ _ Rq Rc G C1 D E2) as R. cbn [fst] in R. destruct b.
  - left. split; [now apply R|]. eexists. split; [symmetry; assert (X: forall (a b : find), Ok a = Ok b -> a = b) by congruence; apply X; exact H|]. cbn [f_tle f_name]. split; [exact D|reflexivity].
  - right. split; [intro K; apply R in K; discriminate K|]. step H. step H. step H. step H. eexists. split; [exact H|]. reflexivity.
Qed.
Lemma scan_blocks : forall p, request p -> forall bs o chunks s f, Forall good_block bs -> Forall (fun r => recognisable p (snd r)) (records o bs) ->
  Forall2 chunk_of (flat_map block_texts bs) chunks -> fname o s -> scan_lines p chunks s = Ok f ->
  outcome p (records o bs) f /\ (forall s', f = Missing s' -> f_open s' = f_open s).
Proof.
  intros p Rq bs. induction bs as [|b bs IH]; intros o chunks s f G Rc C NM R.
  - inversion C; subst. cbn [scan_lines] in R. assert (f = Missing s) as -> by congruence. split; [constructor|]. intros s' K. congruence.
  - inversion G as [|? ? Gb G']; subst. destruct b as [t|t1 t2 el].
    + cbn [flat_map block_texts app] in C. inversion C as [|? c ? chunks' C0 C']; subst. cbn [records] in *. destruct Gb as (Gt & Gn). pose proof (hd_chunk t c C0 Gn) as Hd.
      destruct (line_other _ _ _ _ _ Hd (chunk_no_nul _ _ C0 Gt) R) as (s' & x & R' & _ & Op & _ & Nm). rewrite <- Op. apply (IH (Some t) chunks'); try assumption.
      intros t0 E GN. injection E as <-.
      assert (N1: hd 0 c <> 49). { destruct GN as (_ & _ & N1 & _ & X). destruct t as [|a t]; [inversion X|]. intro K. destruct C0 as [->| ->]; cbn in K; subst a; now apply (N1 t). }
      destruct (Nm N1) as (y & Tn). exact (take_name_own c y _ _ t C0 GN Tn).
    + cbn [flat_map block_texts app] in C. inversion C as [|? c1 ? chunks1 C1 C']; subst. inversion C' as [|? c2 ? chunks2 C2 C'']; subst. cbn [records] in *. pose proof Gb as (G1 & G2 & _).
      inversion Rc as [|? ? Re Rc']; subst. cbn [snd] in Re.
      destruct (line_other _ _ _ _ _ (pair_hd _ _ _ _ Gb C1) (chunk_no_nul _ _ C1 G1) R) as (s' & x & R' & E1 & Op & Nm & _). specialize (Nm (pair_hd1 _ _ _ _ Gb C1)).
      destruct (line_second _ _ _ _ _ _ _ _ _ _ Rq Re Gb C1 C2 E1 R') as [(A & s2 & -> & D & Nm2)|(A & s2 & R2 & Op2)].
      * split; [|intros ? K; discriminate K]. exists [], o, el, (records None bs). do 4 (split; [first [reflexivity|assumption|apply Forall_nil]|]). intros t0 E GN. rewrite Nm2, Nm. now apply NM.
      * destruct (IH None chunks2 s2 f G' Rc' C'') as (O & P); [intros t K; discriminate K|exact R2|]. split; [|intros s3 K; rewrite (P s3 K); congruence].
        destruct f as [s3|s3|code out]; cbn [outcome] in *; [|constructor; [exact A|exact O]|exact O].
        destruct O as (r1 & o' & el' & r2 & E & F & K). rewrite E. exists ((o, el) :: r1), o', el', r2. split; [reflexivity|]. split; [constructor; [exact A|exact F]|exact K].
Qed.

(** ** One file *)
Lemma scan_one : forall p fs argv il path s f bs, request p -> (forall c, fs path = Some c -> good_file c bs) -> Forall (fun r => recognisable p (snd r)) (records None bs) ->
  scan_file p fs argv il path s = Ok f ->
  (exists code out, f = Quit code out /\ code <> 0 /\ code <> 1) \/ (outcome p (records None bs) f /\ forall s', f = Missing s' -> f_open s' = true).
Proof.
  intros p fs argv il path s f bs Rq Hg Rc H. unfold scan_file in H. destruct (fs path) as [contents|].
  - destruct (Hg contents eq_refl) as (FO & G). clear Hg.
    destruct (fgets_either 99 (flat_map block_texts bs) contents (good_texts bs G) FO) as (ts & C & E).
    assert (Y: exists bs', Forall good_block bs' /\ flat_map block_texts bs' = ts /\ records None bs = records None bs').
    { destruct E as [<-|E]; [exists bs; tauto|]. destruct (texts_end bs ts G E) as (bs' & -> & E'). exists bs'. apply Forall_app in G. rewrite records_note_end. tauto. }
    destruct Y as (bs' & G' & E' & Erec). rewrite Erec in *. subst ts. clear Erec E FO G bs.
    destruct (fgets_seq 99 contents) as [|first rest].
    + left. unfold find_quit in H. step H. apply quit_code in E. exists (fst a), (snd a). split; [congruence|]. lia.
    + right. step H. destruct (store_text _ _ _ E) as (x & ->). step H. set (s0 := mk_f _ _ a _ _ true) in *.
      destruct bs' as [|b bs']; [inversion C|]. inversion G' as [|? ? Gb G]; subst. destruct b as [t|t1 t2 el].
      * cbn [flat_map block_texts app] in C. inversion C as [|? ? ? ? C0 C']; subst. cbn [records] in *. apply (scan_blocks p Rq bs' (Some t) rest s0 f G Rc C'); [|exact H].
        intros t0 K GN. injection K as <-. exact (take_name_own first x _ _ t C0 GN E0).
      * cbn [flat_map block_texts app] in C. inversion C as [|? ? ? ? C1 C']; subst. inversion C' as [|? c2 ? chunks2 C2 C'']; subst. cbn [records] in *. inversion Rc as [|? ? Re Rc']; subst. cbn [snd] in Re.
        destruct (line_second p t1 t2 el first x c2 chunks2 s0 f Rq Re Gb C1 C2 eq_refl H) as [(A & s2 & -> & D & Nm2)|(A & s2 & R2 & Op2)].
        -- split; [|intros ? K; discriminate K]. exists [], None, el, (records None bs'). do 4 (split; [first [reflexivity|assumption|apply Forall_nil]|]). intros t0 K. discriminate K.
        -- destruct (scan_blocks p Rq bs' None chunks2 s2 f G Rc' C'') as (O & P); [intros t K; discriminate K|exact R2|]. split; [|intros s3 K; rewrite (P s3 K); exact Op2].
           destruct f as [s3|s3|code out]; cbn [outcome] in *; [|constructor; [exact A|exact O]|exact O].
           destruct O as (r1 & o' & el' & r2 & E' & F & K). rewrite E'. exists ((None, el) :: r1), o', el', r2. split; [reflexivity|]. split; [constructor; [exact A|exact F]|exact K].
  - left. unfold find_quit in H. step H. apply quit_code in E. exists (fst a), (snd a). split; [congruence|]. lia.
Qed.
Lemma outcome_app : forall p r0 rs f, Forall (fun r => ~ asked p (snd r)) r0 -> outcome p rs f -> outcome p (r0 ++ rs) f.
Proof.
  intros p r0 rs f F O. destruct f as [s|s|c o]; cbn [outcome] in *; [|apply Forall_app; tauto|exact O].
  destruct O as (r1 & o' & el & r2 & -> & F1 & K). exists (r0 ++ r1), o', el, r2. split; [apply app_assoc|]. split; [apply Forall_app; tauto|exact K].
Qed.
Lemma outcome_more : forall p rs rest s, outcome p rs (Found s) -> outcome p (rs ++ rest) (Found s).
Proof. intros p rs rest s (r1 & o & el & r2 & -> & K). exists r1, o, el, (r2 ++ rest). split; [now rewrite <- app_assoc|exact K]. Qed.

(** ** The files of a list *)
Lemma scan_all : forall p e argv bl, request p -> forall rs chunks path0 s r, Forall good_row rs -> Forall2 chunk_of rs chunks -> Forall (fun c => c <> []) chunks ->
  let paths := flat_map (row_paths (v_tle_path p)) rs in
  element_files e bl paths -> Forall (fun r => recognisable p (snd r)) (file_records bl paths) -> scan_rows p (n_fs e) argv chunks path0 s = Ok r ->
  (exists code out, fst r = Quit code out /\ code <> 0 /\ code <> 1) \/ outcome p (file_records bl paths) (fst r).
Proof.
  intros p e argv bl Rq rs. induction rs as [|row rs IH]; intros chunks path0 s r G C NE paths EF Rc R; inversion C as [|? c ? chunks' C0 C']; subst.
  - cbn [scan_rows] in R. assert (r = (Missing s, path0)) as -> by congruence. right. constructor.
  - inversion G as [|? ? Gr G']; subst. inversion NE as [|? ? NEc NE']; subst. cbn [scan_rows] in R. step R. pose proof (row_named row c a Gr C0 E NEc) as RN. unfold paths in *. clear paths. cbn [flat_map] in *.
    destruct a as [name|].
    + destruct RN as (-> & N0 & N35). step R. rename a into path.
      assert (EP: path = v_tle_path p ++ 47 :: row) by (unfold c_sprintf in E0; destruct (S (length (v_tle_path p ++ 47%Z :: row)) <=? 200)%nat; [congruence|discriminate E0]).
      assert (RP: row_paths (v_tle_path p) row = [path]).
      { rewrite EP. destruct row as [|a row]; [contradiction|]. unfold row_paths. destruct (Z.eq_dec a 35) as [->|NA]; [exfalso; now apply (N35 row)|].
        destruct a as [|a|a]; try reflexivity. do 6 (destruct a as [a|a|]; try reflexivity). exfalso. now apply NA. }
      rewrite RP in *. cbn [app] in *. unfold file_records in *. cbn [flat_map] in *. apply Forall_app in Rc. destruct Rc as (Rc1 & Rc2). step R. rename a into f.
      destruct (scan_one p (n_fs e) argv true path s f (bl path) Rq) as [(code & out & -> & Q)|(O & _)]; try assumption.
      { intros c' K. apply EF; [now left|exact K]. }
      * left. exists code, out. assert (r = (Quit code out, path)) as -> by congruence. split; [reflexivity|exact Q].
      * destruct f as [s'|s'|code out]; [| |destruct O].
        -- right. assert (r = (Found s', path)) as -> by congruence. now apply outcome_more.
        -- destruct (IH chunks' path s' r G' C' NE') as [K|K]; try assumption; [intros q0 c' I; apply EF; now right|left; exact K|right]. now apply outcome_app.
    + assert (RP: row_paths (v_tle_path p) row = []). { destruct row as [|a row]; [reflexivity|]. unfold row_paths in *. destruct a as [|a|a]; try discriminate RN. do 6 (destruct a as [a|a|]; try discriminate RN). reflexivity. }
      rewrite RP in *. cbn [app] in *. exact (IH chunks' path0 s r G' C' NE' EF Rc R).
Qed.

(** ** The whole run *)
Theorem right_satellite : forall e fuel argv p bl paths fin, visibility e fuel argv p = Ok fin -> request p -> run_paths e argv p paths -> element_files e bl paths ->
  Forall (fun r => recognisable p (snd r)) (file_records bl paths) ->
  (vf_log fin = [] /\ vf_code fin <> 0 /\ (vf_code fin = 1 -> Forall (fun r => ~ asked p (snd r)) (file_records bl paths))) \/
  exists r1 o el r2 tle t0, file_records bl paths = r1 ++ (o, el) :: r2 /\ Forall (fun r => ~ asked p (snd r)) r1 /\ asked p el /\
    describes tle el /\ searched (n_lib e) p tle t0 (samples (vf_log fin)) /\
    (vf_code fin = 0 -> events (vf_log fin) <> [] -> exists pre name desig post, vf_out fin = pre ++ sat_head name desig tle ++ post /\ forall t, o = Some t -> good_name t -> trimmed name t).
Proof.
  intros e fuel argv p bl paths fin H Rq RP EF Rc. unfold visibility in H. cbv zeta in H. destruct (nth_error argv (file_arg argv)) as [arg|] eqn:Ha; [|discriminate H].
  destruct (RP arg Ha) as (PL & PS). clear RP.
  set (il := match arg with 64 :: _ => true | _ => false end) in *. set (file := if il then tl arg else arg) in *. set (argv' := if il then set_nth _ file argv else argv) in *.
  assert (NS: negb (v_single_n p) && negb (v_single_i p) = false) by (destruct Rq as [-> |(-> & _)]; [reflexivity|destruct (v_single_n p); reflexivity]).
  assert (G: forall (f : find) (path : list Z), (exists code out, f = Quit code out /\ code <> 0 /\ code <> 1) \/ outcome p (file_records bl paths) f ->
    match f with Quit code out => Ok (mk_vfinal code out [])
      | Missing s => if f_open s then r <- vis_quit argv' il 1 1 (bytes "Satellite not found in " ++ path) 0 vis_open_json ;; Ok (mk_vfinal (fst r) (snd r) []) else UB NullDeref
      | Found s => vis_found e fuel argv' il p file s end = Ok fin ->
    (vf_log fin = [] /\ vf_code fin <> 0 /\ (vf_code fin = 1 -> Forall (fun r => ~ asked p (snd r)) (file_records bl paths))) \/
    exists r1 o el r2 tle t0, file_records bl paths = r1 ++ (o, el) :: r2 /\ Forall (fun r => ~ asked p (snd r)) r1 /\ asked p el /\
      describes tle el /\ searched (n_lib e) p tle t0 (samples (vf_log fin)) /\
      (vf_code fin = 0 -> events (vf_log fin) <> [] -> exists pre name desig post, vf_out fin = pre ++ sat_head name desig tle ++ post /\ forall t, o = Some t -> good_name t -> trimmed name t)).
  { intros f path [(code & out & -> & N0 & N1)|O] K.
    - left. assert (fin = mk_vfinal code out []) as -> by congruence. cbn [vf_log vf_code]. repeat split; try assumption. intro; contradiction.
    - destruct f as [s|s|code out]; [| |destruct O].
      + right. destruct O as (r1 & o & el & r2 & E & F & A & D & Nm). exists r1, o, el, r2, (f_tle s).
        destruct (run_facts _ _ _ _ _ _ _ _ K) as (t0 & Fi & T & Fa & In & Cs). exists t0. repeat (split; [first [exact E|exact F|exact A|exact D]|]). split; [split; [exact (begins_of _ _ _ _ Fi)|exact T|exact Fa|exact In]|].
        intros C0 Ne. destruct Cs as [(_ & _ & _ & Ev & _)|[(C1 & _)|(_ & idle & lit & en & _ & name & desig & o' & c & Tn & _ & _ & _ & Eo)]]; [contradiction|congruence|].
        eexists. exists name, desig. eexists. split; [exact Eo|]. intros t Et Gt. destruct (Nm t Et Gt) as (a & Ca & Tr). congruence.
      + left. destruct (f_open s); [|discriminate K]. step K. apply quit_code in E. assert (fin = mk_vfinal (fst a) (snd a) []) as -> by congruence. cbn [vf_log vf_code]. split; [reflexivity|]. split; [lia|]. intros _. exact O. }
  step H. destruct a as [(lp & [contents|])|].
  - destruct il eqn:Il; [|discriminate E]. rewrite NS in H. step H. destruct a as (f & path). step E. apply (G f path); [|exact H]. clear G H.
    assert (Ar: arg = 64 :: file). { clear - Il. unfold file. unfold il in Il. destruct arg as [|a arg]; [discriminate Il|]. destruct a as [|a|a]; try discriminate Il. do 7 (destruct a as [a|a|]; try discriminate Il). reflexivity. }
    destruct (PL file Ar) as (contents' & rs & Hfs & LN & Gr & Ep).
    assert (lp = v_tle_path p ++ 47 :: file /\ contents = contents') as (-> & ->).
    { unfold c_sprintf in E1. destruct (S (length (v_tle_path p ++ 47%Z :: file)) <=? 200)%nat; [|discriminate E1]. assert (a = v_tle_path p ++ 47%Z :: file) as -> by congruence. rewrite Hfs in E. split; congruence. }
    assert (SH: Forall (short 63) rs) by (eapply Forall_impl; [|exact Gr]; intros r (A & _ & B & _); split; [exact A|lia]).
    destruct (fgets_either 63 rs contents' SH LN) as (ts & C & Et).
    assert (GT: Forall good_row ts) by (destruct Et as [<-|Et]; [exact Gr|]; rewrite Et in Gr; apply Forall_app in Gr; tauto).
    assert (EQ: paths = flat_map (row_paths (v_tle_path p)) ts) by (rewrite Ep; destruct Et as [<-|Et]; [reflexivity|]; rewrite Et, flat_map_app; cbn; now rewrite app_nil_r).
    subst paths. rewrite EQ in *. exact (scan_all p e argv' bl Rq ts _ _ _ _ GT C (fgets_go_nonempty 63 contents' 63 [] ltac:(lia)) EF Rc E0).
  - left. step H. apply quit_code in E0. assert (fin = mk_vfinal (fst a) (snd a) []) as -> by congruence. cbn [vf_log vf_code]. split; [reflexivity|]. split; [lia|]. intro; lia.
  - destruct il eqn:Il; [step E; discriminate E|]. rewrite NS in H. step H. destruct a as (f & path). apply (G f path); [|exact H]. clear G H. step E0. step E0. assert (a0 = f /\ a = path) as (-> & ->) by (split; congruence).
    assert (Ar: forall name, arg <> 64 :: name) by (intros name ->; discriminate Il). specialize (PS Ar). unfold file in *.
    assert (path = if existsb (Z.eqb 47) arg then arg else v_tle_path p ++ 47 :: arg).
    { unfold c_sprintf in E1. match type of E1 with (if ?b then _ else _) = _ => destruct b end; [congruence|discriminate E1]. }
    rewrite <- H in PS. subst paths. unfold file_records in *. cbn [flat_map] in *. rewrite app_nil_r in *.
    destruct (scan_one p (n_fs e) argv' false path _ f (bl path) Rq ltac:(intros c K; apply EF; [now left|exact K]) Rc E2) as [K|(K & _)]; [left|right]; exact K.
Qed.
