(** What a run reports. *)
From Coq Require Import String Ascii ZArith List Bool Lia Reals Lra.
From Flocq Require Import Core IEEE754.BinarySingleNaN.
From Verif Require Import CLib ListLemmas FloatModel FloatLemmas CalendarModel CalendarProofs2 TleModel IoModel SkymapModel SkymapSpec SkymapProofs6 CliModel CliProofs2 VisCliModel VisModel VisSpec VisProofs1 VisProofs2 VisProofs3 VisProofs4 VisProofs5 VisProofs6.
Import ListNotations.
Open Scope R_scope.

Lemma grid : forall s t0 last l, timed s t0 l -> Forall (fun m => fle (m_t m) last = true) l -> forall i, (i < length l)%nat -> fle (ticks s t0 i) last = true.
Proof.
  intros s t0 last l T H i Hi. destruct (nth_error l i) as [m|] eqn:Em; [|apply nth_error_None in Em; lia]. rewrite <- (T i m Em). rewrite Forall_forall in H. apply H. exact (nth_error_In _ _ Em).
Qed.

Section Stamps.
Context (E : Z) (HE : (22 <= E <= 30)%Z) (p : vparams) (Hd : (1 <= v_delta_time p <= 2147483647)%Z).
Context (t0 last : b64) (F0 : fin t0) (Fl : fin last) (B0 : Rabs (toR t0) <= bpow radix2 E) (Bl : Rabs (toR last) <= bpow radix2 E).
Let s := vstep p.
Lemma step_small : bnd (E + 1) s.
Proof.
  destruct (step_pos p Hd) as (Fs & _ & Bs). fold s in Fs, Bs. split; [exact Fs|]. apply (Rle_trans _ (bpow radix2 15)); [change (bpow radix2 15) with 32768; rewrite Rabs_pos_eq by lra; lra|apply bpow_le; lia].
Qed.
Lemma stamps : forall l, timed s t0 l -> Forall (fun m => fle (m_t m) last = true) l -> forall i, (i < length l)%nat ->
  Rabs (toR (fsub (fsub (ticks s t0 (S i)) JD_OFF) s) + 2400000.5 - toR (ticks s t0 i)) <= bpow radix2 (E - 50) /\
  Rabs (toR (fsub (fsub (ticks s t0 (S i)) s) JD_OFF) + 2400000.5 - toR (ticks s t0 i)) <= bpow radix2 (E - 50).
Proof.
  intros l T H i Hi. destruct (step_pos p Hd) as (Fs & _ & Bs). fold s in Fs, Bs. pose proof (grid _ _ _ _ T H) as K.
  pose proof (fun k Hk => ticks_up E ltac:(lia) p Hd t0 last F0 Fl B0 Bl (length l) K k Hk) as TU. fold s in TU.
  destruct (TU i ltac:(lia)) as (Fi & _ & _ & Bi & _). specialize (Bi Hi). destruct (TU (S i) ltac:(lia)) as (Fi1 & _ & _ & _ & Bi1).
  destruct (tick_on E (ticks s t0 i) s ltac:(lia) Fi Fs Bi ltac:(lra)) as (_ & D & _). change (fadd (ticks s t0 i) s) with (ticks s t0 (S i)) in D.
  set (u := bpow radix2 (E - 53)) in *. assert (U: forall k, (0 <= k)%Z -> bpow radix2 (E - 53 + k) = IZR (2 ^ k) * u). { intros k Hk. rewrite bpow_plus. rewrite <- (IZR_Zpower radix2 k Hk). unfold u. change (radix_val radix2) with 2%Z. ring. }
  replace (E - 50)%Z with (E - 53 + 3)%Z by lia. rewrite U by lia. change (IZR (2 ^ 3)) with 8. assert (Pu: 0 <= u) by apply bpow_ge_0.
  split.
  - destruct (less_jd (E + 1) (ticks s t0 (S i)) ltac:(lia) (conj Fi1 Bi1)) as (Bb & Db).
    destruct (sub_err (E + 1 + 1) _ s ltac:(lia) Bb (bnd_le (E + 1) (E + 1 + 1) s ltac:(lia) step_small)) as (_ & De).
    replace (E + 1 - 53)%Z with (E - 53 + 1)%Z in Db by lia. replace (E + 1 + 1 - 53)%Z with (E - 53 + 2)%Z in De by lia. rewrite U in Db, De by lia. change (IZR (2 ^ 1)) with 2 in Db. change (IZR (2 ^ 2)) with 4 in De.
    apply Rabs_le_inv in D, Db, De. apply Rabs_le. lra.
  - destruct (sub_err (E + 1) (ticks s t0 (S i)) s ltac:(lia) (conj Fi1 Bi1) step_small) as (By & Dy). destruct (less_jd (E + 1 + 1) _ ltac:(lia) By) as (_ & Dz).
    replace (E + 1 - 53)%Z with (E - 53 + 1)%Z in Dy by lia. replace (E + 1 + 1 - 53)%Z with (E - 53 + 2)%Z in Dz by lia. rewrite U in Dy, Dz by lia. change (IZR (2 ^ 1)) with 2 in Dy. change (IZR (2 ^ 2)) with 4 in Dz.
    apply Rabs_le_inv in D, Dy, Dz. apply Rabs_le. lra.
Qed.
End Stamps.

(** The MJD of an event and the time of a sample denote the same moment, up to rounding, when the range lies within 2^E days. *)
Lemma on_time_start : forall e fuel p t0 l last i m, first_sample e fuel p t0 -> last = range_end p -> timed (vstep p) t0 l -> Forall (fun m => fle (m_t m) last = true) l -> nth_error l i = Some m ->
  on_time p (fsub (begin_clock (vstep p) t0 i) (vstep p)) m.
Proof.
  intros e fuel p t0 l last i m Fi -> T H Hm E HE Hd B0 B1. destruct (first_at E e fuel p t0 ltac:(lia) B0 B1 Fi) as (F0 & _ & C). assert (Hi: (i < length l)%nat) by (apply nth_error_Some; congruence).
  assert (B: Rabs (toR t0) <= bpow radix2 E).
  { destruct C as [C|C]; [exact C|]. exfalso. assert (K: fle (ticks (vstep p) t0 0) (range_end p) = true) by (apply (grid _ _ _ _ T H); lia). cbn [ticks] in K. apply fle_R in K; [lra|exact F0|exact (proj1 B1)]. }
  rewrite (T _ _ Hm). exact (proj1 (stamps E HE p Hd t0 (range_end p) F0 (proj1 B1) B (proj2 B1) l T H i Hi)).
Qed.
Lemma on_time_end : forall e fuel p t0 l last en d, first_sample e fuel p t0 -> last = range_end p -> timed (vstep p) t0 l -> Forall (fun m => fle (m_t m) last = true) l -> l <> [] ->
  on_time p (end_mjd (vstep p) t0 (length l) en) (List.last l d).
Proof.
  intros e fuel p t0 l last en d Fi -> T H Ne E HE Hd B0 B1. destruct (first_at E e fuel p t0 ltac:(lia) B0 B1 Fi) as (F0 & _ & C).
  destruct (exists_last Ne) as (l' & m & ->). rewrite last_last. set (l := l' ++ [m]) in *. assert (Hm: nth_error l (length l') = Some m) by (unfold l; rewrite nth_error_app2, Nat.sub_diag by lia; reflexivity).
  assert (Ln: length l = S (length l')) by (unfold l; rewrite app_length; cbn; lia).
  assert (B: Rabs (toR t0) <= bpow radix2 E).
  { destruct C as [C|C]; [exact C|]. exfalso. assert (K: fle (ticks (vstep p) t0 0) (range_end p) = true) by (apply (grid _ _ _ _ T H); lia). cbn [ticks] in K. apply fle_R in K; [lra|exact F0|exact (proj1 B1)]. }
  rewrite (T _ _ Hm), Ln. pose proof (stamps E HE p Hd t0 (range_end p) F0 (proj1 B1) B (proj2 B1) l T H (length l') ltac:(lia)) as (X & Y). destruct en; cbn [end_mjd]; assumption.
Qed.

(** ** The start *)
Theorem starts : forall e fuel argv il p file f fin, vis_found e fuel argv il p file f = Ok fin ->
  exists t0, first_sample e fuel p t0 /\
  let l := samples (vf_log fin) in
  timed (vstep p) t0 l /\ Forall (faithful (n_lib e) p (f_tle f)) l /\ Forall (fun m => fle (m_t m) (range_end p) = true) l /\
  ((Forall (fun m => visible m = false) l /\ events (vf_log fin) = [] /\ (vf_code fin = 0%Z -> fle (ticks (vstep p) t0 (length l)) (range_end p) = false)) \/
   exists idle m rest g u s more, l = idle ++ m :: rest /\ Forall (fun m => visible m = false) idle /\ visible m = true /\
     events (vf_log fin) = (bytes "start", g, u, s) :: more /\ sa_sep s = m_sep m /\ date_of (sa_mjd s) = Ok (sa_date s) /\ on_time p (sa_mjd s) m).
Proof.
  intros e fuel argv il p file f fin H. destruct (run_facts _ _ _ _ _ _ _ _ H) as (t0 & Fi & T & Fa & In & C). exists t0. split; [exact Fi|]. cbv zeta in *. split; [exact T|]. split; [exact Fa|]. split; [exact In|].
  destruct C as [(C & N & El & Ev & _)|[(C & _ & [(N & Ev & _)|(g & u & s & o & nm & dg & Ev & _ & _ & idle & m & rest & El & N & V & (S1 & S2) & Se)])|(C & idle & lit & en & [Sp N V Ne _ _ X] & _)]].
  - left. split; [exact N|]. split; [exact Ev|]. intros _. exact El.
  - left. split; [exact N|]. split; [exact Ev|]. intro K. congruence.
  - right. exists idle, m, rest, g, u, s, []. split; [exact El|]. split; [exact N|]. split; [exact (Forall_inv V)|]. split; [exact Ev|]. split; [exact Se|]. rewrite S1 in *. split; [exact S2|].
    eapply on_time_start; [exact Fi|reflexivity|exact T|exact In|]. rewrite El, nth_error_app2, Nat.sub_diag by lia. reflexivity.
  - right. destruct X as (g1 & u1 & s1 & g2 & u2 & s2 & g3 & u3 & s3 & g4 & u4 & s4 & tmax & Ev & (S1 & S2) & _ & _ & _ & _ & _ & Se & _). destruct lit as [|m rest]; [congruence|].
    assert (Nm: nth_error (samples (vf_log fin)) (length idle) = Some m) by (rewrite Sp, nth_error_app2, Nat.sub_diag by lia; reflexivity).
    exists idle, m, (rest ++ last_ones en). do 4 eexists. split; [exact Sp|]. split; [exact N|]. split; [exact (Forall_inv V)|]. split; [exact Ev|]. split; [exact (Se m Nm)|]. rewrite S1 in *. split; [exact S2|].
    eapply on_time_start; [exact Fi|reflexivity|exact T|exact In|exact Nm].
Qed.

(** ** The highest position *)
Theorem tops : forall e fuel argv il p file f fin, vis_found e fuel argv il p file f = Ok fin -> vf_code fin = 0%Z ->
  let l := samples (vf_log fin) in
  Exists (fun m => visible m = true) l -> Forall (fun m => visible m = true -> flt (m_sep m) (of_int 181) = true) l ->
  exists m g u s, highest l m /\ In (bytes "max", g, u, s) (events (vf_log fin)) /\ date_of (fsub (m_t m) JD_OFF) = Ok (sa_date s) /\
    ((forall n n', l_propagate (n_lib e) n = l_propagate (n_lib e) n') -> sa_sep s = m_sep m).
Proof.
  intros e fuel argv il p file f fin H C0 l Ex Sm. destruct (run_facts _ _ _ _ _ _ _ _ H) as (t0 & Fi & T & Fa & In & C). cbv zeta in *.
  apply Exists_exists in Ex. destruct Ex as (x & Hx & Vx). rewrite Forall_forall in Sm.
  destruct C as [(_ & N & _)|[(C & _)|(_ & idle & lit & en & [Sp N V Ne _ _ X] & _)]].
  - rewrite Forall_forall in N. specialize (N x Hx). congruence.
  - rewrite C in C0. discriminate.
  - destruct X as (g1 & u1 & s1 & g2 & u2 & s2 & g3 & u3 & s3 & g4 & u4 & s4 & tmax & Ev & _ & _ & _ & (_ & D4) & Top & (n & Z4) & _).
    destruct Top as [(m & Hm & Tm & _)|(_ & Nt)]; [|specialize (Nt x Hx Vx); rewrite (Sm x Hx Vx) in Nt; discriminate].
    exists m, g4, u4, s4. split; [exact Hm|]. split; [rewrite Ev; cbn; tauto|]. rewrite Tm. split; [exact D4|]. intro Pu. rewrite Z4.
    rewrite Forall_forall in Fa. destruct (Fa m (proj1 Hm)) as (n' & -> & _). unfold zenith_distance, position. rewrite Tm. rewrite (Pu n n'). reflexivity.
Qed.

(** ** The duration *)
Theorem lasts : forall e fuel argv il p file f fin, vis_found e fuel argv il p file f = Ok fin -> vf_code fin = 0%Z ->
  let l := samples (vf_log fin) in
  Exists (fun m => visible m = true) l ->
  exists idle m lit m' en d pre post, l = idle ++ lit ++ last_ones en /\ hd_error lit = Some m /\ last_error lit = Some m' /\
    Forall (fun m => visible m = false) idle /\ Forall (fun m => visible m = true) lit /\ ends_so en /\
    vf_out fin = pre ++ q "'sunlit_duration_minutes': " ++ print_f 0 2 d ++ q ", " ++ post /\
    forall E e, (22 <= E <= 30)%Z -> (1 <= v_delta_time p <= 2147483647)%Z -> bnd E (range_begin p) -> bnd E (range_end p) ->
      (-17 <= e <= 31)%Z -> toR (m_t m') - toR (m_t m) + toR (vstep p) <= bpow radix2 e ->
      is_finite d = true /\ toR (m_t m) <= toR (m_t m') /\
      Rabs (toR d - 1440 * (toR (m_t m') - toR (m_t m) + extra_steps en * toR (vstep p))) <= 1440 * (bpow radix2 (E - 48) + bpow radix2 (e - 23)).
Proof.
  intros e fuel argv il p file f fin H C0 l Ex. destruct (run_facts _ _ _ _ _ _ _ _ H) as (t0 & Fi & T & Fa & In & C). cbv zeta in *.
  apply Exists_exists in Ex. destruct Ex as (x & Hx & Vx).
  destruct C as [(_ & N & _)|[(C & _)|(_ & idle & lit & en & [Sp N V Ne En _ X] & name & dg & o & c & _ & _ & _ & _ & Out)]].
  - rewrite Forall_forall in N. specialize (N x Hx). congruence.
  - rewrite C in C0. discriminate.
  - destruct lit as [|m rest] eqn:El; [congruence|]. rewrite <- El in *. destruct (exists_last Ne) as (lit' & m' & Em').
    exists idle, m, lit, m', en, (duration (begin_clock (vstep p) t0 (length idle)) (end_clock (vstep p) t0 (length l) en)).
    exists (preamble (n_lib e) file p ++ sat_head name dg (f_tle f) ++ o ++ q "}, "), c.
    split; [exact Sp|]. split; [rewrite El; reflexivity|]. split; [unfold last_error; rewrite Em', rev_app_distr; reflexivity|]. split; [exact N|]. split; [exact V|]. split; [exact En|].
    split. { fold l in Out. rewrite Out. unfold duration_text. change (q "}, 'sunlit_duration_minutes': ") with (q "}, " ++ q "'sunlit_duration_minutes': "). rewrite <- !app_assoc. reflexivity. }
    intros E e' HE Hd B0 B1 He Hb. destruct (first_at E e fuel p t0 ltac:(lia) B0 B1 Fi) as (F0 & _ & K). fold l in Sp, T, In.
    assert (Nm: nth_error l (length idle) = Some m) by (rewrite Sp, nth_error_app2, Nat.sub_diag by lia; rewrite El; reflexivity).
    assert (Nm': nth_error lit (length lit - 1) = Some m'). { rewrite Em', app_length. cbn [length]. replace (length lit' + 1 - 1)%nat with (length lit') by lia. rewrite nth_error_app2, Nat.sub_diag by lia. reflexivity. }
    assert (B: Rabs (toR t0) <= bpow radix2 E).
    { destruct K as [K|K]; [exact K|]. exfalso. assert (Z: fle (ticks (vstep p) t0 0) (range_end p) = true) by (apply (grid _ _ _ _ T In); assert (length idle < length l)%nat by (apply nth_error_Some; congruence); lia). cbn [ticks] in Z. apply fle_R in Z; [lra|exact F0|exact (proj1 B1)]. }
    destruct (span E HE p Hd t0 (range_end p) F0 (proj1 B1) B (proj2 B1) l idle lit en m m' e' T In Sp Nm Nm' He Hb) as (Le & Fd & Dd). split; [exact Fd|]. split; [exact Le|exact Dd].
Qed.

(** ** Dates and MJDs of the reported events *)
Theorem dates : forall e fuel argv il p file f fin, vis_found e fuel argv il p file f = Ok fin ->
  forall nm g u s, In (nm, g, u, s) (events (vf_log fin)) -> nm = bytes "start" \/ nm = bytes "end" -> date_of (sa_mjd s) = Ok (sa_date s).
Proof.
  intros e fuel argv il p file f fin H nm g u s I Nm. destruct (run_facts _ _ _ _ _ _ _ _ H) as (t0 & Fi & T & Fa & In & C). cbv zeta in *.
  destruct C as [(_ & _ & _ & Ev & _)|[(_ & _ & [(_ & Ev & _)|(g1 & u1 & s1 & o & name & dg & Ev & _ & _ & idle & m & rest & _ & _ & _ & (S1 & S2) & _)])|(_ & idle & lit & en & [_ _ _ _ _ _ X] & _)]].
  - rewrite Ev in I. destruct I.
  - rewrite Ev in I. destruct I.
  - rewrite Ev in I. destruct I as [I|[]]. assert (s = s1) by congruence. subst s1. now rewrite S1.
  - destruct X as (g1 & u1 & s1 & g2 & u2 & s2 & g3 & u3 & s3 & g4 & u4 & s4 & tmax & Ev & (S1 & S2) & (S3 & S4) & _). rewrite Ev in I. cbn [List.In] in I.
    destruct I as [I|[I|[I|[I|[]]]]].
    + assert (s = s1) by congruence. subst s1. now rewrite S1.
    + assert (s = s2) by congruence. subst s2. now rewrite S3.
    + exfalso. assert (nm = bytes "mid") by congruence. subst nm. destruct Nm as [Nm|Nm]; vm_compute in Nm; discriminate Nm.
    + exfalso. assert (nm = bytes "max") by congruence. subst nm. destruct Nm as [Nm|Nm]; vm_compute in Nm; discriminate Nm.
Qed.
