(** A text holds one thing only. *)
From Coq Require Import ZArith List Bool Lia Reals Lra.
From Verif Require Import CLib JsonSpec JsonAcceptor JsonProofs JsonDataSpec JsonDataProofs JsonAgreeSpec.
Import ListNotations.
Open Scope Z_scope.

(** ** Where a value ends *)
Lemma snoc_end {A} (P : A -> Prop) l c : P c -> exists a d, l ++ [c] = a ++ [d] /\ P d. Proof. intros H. exists l, c. tauto. Qed.
Lemma all_end {A} (P : A -> Prop) l : l <> [] -> Forall P l -> exists a d, l = a ++ [d] /\ P d.
Proof. intros N F. destruct (exists_last N) as (a & d & ->). exists a, d. split; [reflexivity|]. apply Forall_app in F. destruct F as (_ & F). now inversion F. Qed.
Lemma before {A} (P : A -> Prop) x l : (exists a d, l = a ++ [d] /\ P d) -> exists a d, x ++ l = a ++ [d] /\ P d.
Proof. intros (a & d & -> & H). exists (x ++ a), d. rewrite app_assoc. tauto. Qed.
Definition solid (c : Z) : Prop := ~ white c.
Lemma dig_solid c : dig c -> solid c. Proof. unfold dig, solid, white. lia. Qed.
Lemma digs_end ds : digits ds -> exists a d, ds = a ++ [d] /\ solid d.
Proof. intros (N & F). destruct (all_end dig ds N F) as (a & d & E & H). exists a, d. split; [exact E|now apply dig_solid]. Qed.
Lemma int_end i : jint i -> exists a d, i = a ++ [d] /\ solid d.
Proof.
  intros [->|(d & ds & -> & Hd & F)]; [exists [], 48; split; [reflexivity|unfold solid, white; lia]|].
  apply digs_end. split; [discriminate|]. constructor; [unfold dig; lia|exact F].
Qed.
Lemma value_end v : value v -> exists a d, v = a ++ [d] /\ solid d.
Proof.
  assert (S : forall c, c = 93 \/ c = 125 \/ c = 34 \/ c = 101 \/ c = 108 -> solid c) by (intros c H; unfold solid, white; lia).
  intros H. destruct H as [| | |l (s & i & f & e & -> & _ & I & F & E)|l (b & _ & ->)|w _|l _|w _|l _].
  - exists [116; 114; 117], 101. split; [reflexivity|apply S; tauto].
  - exists [102; 97; 108; 115], 101. split; [reflexivity|apply S; tauto].
  - exists [110; 117; 108], 108. split; [reflexivity|apply S; tauto].
  - apply before. destruct E as [->|(x & g & ds & -> & _ & _ & D)].
    + rewrite app_nil_r. destruct F as [->|(ds & -> & D)]; [rewrite app_nil_r; now apply int_end|]. apply before. apply (before solid [46]). now apply digs_end.
    + apply before. apply before. apply (before solid (x :: g)). now apply digs_end.
  - apply (snoc_end solid (34 :: b)). apply S; tauto.
  - apply (snoc_end solid (91 :: w)). apply S; tauto.
  - apply (snoc_end solid (91 :: l)). apply S; tauto.
  - apply (snoc_end solid (123 :: w)). apply S; tauto.
  - apply (snoc_end solid (123 :: l)). apply S; tauto.
Qed.
Definition stop (r : list Z) : Prop := match r with [] => True | c :: _ => delim c end.
Lemma after_top w c m : run (ME, []) w = Some (m, c) -> ws w.
Proof.
  induction w as [|x w IH]; intros H; [constructor|]. cbn [run] in H. replace (step (ME, []) x) with (if is_ws x then Some (ME, @nil frame) else None) in H by (cbn; unfold after_value; now destruct (is_ws x)). destruct (is_ws x) eqn:E; [|discriminate H]. constructor; [now apply ws_iff|]. now apply IH.
Qed.
Lemma not_longer v c w : value v -> delim c -> value (v ++ c :: w) -> False.
Proof.
  intros V D V'. destruct (proj1 complete_run v V []) as (m & R & K). destruct (proj1 complete_run _ V' []) as (m' & R' & _). rewrite run_app, R, run_after in R' by assumption.
  apply after_top in R'. destruct (value_end _ V') as (a & d & E & S).
  assert (N : c :: w <> []) by discriminate. destruct (exists_last N) as (w' & z & Ez). rewrite Ez, app_assoc in E. apply app_inj_tail in E. destruct E as (_ & <-). rewrite Ez in R'. apply Forall_app in R'. destruct R' as (_ & R'). apply Forall_inv in R'. exact (S R').
Qed.
Lemma value_prefix v v' r r' : value v -> value v' -> stop r -> stop r' -> v ++ r = v' ++ r' -> v = v' /\ r = r'.
Proof.
  intros V V' S S' E. apply app_eq_app in E. destruct E as (w & [(Ev & Er)|(Ev & Er)]); (destruct w as [|c w]; [rewrite app_nil_r in Ev; cbn [app] in Er; subst; tauto|exfalso]).
  - subst v r'. exact (not_longer v' c w V' S' V).
  - subst v' r. exact (not_longer v c w V S V').
Qed.

(** ** Cutting at the same places *)
Definition starts_solid (l : list Z) : Prop := match l with [] => False | c :: _ => solid c end.
Lemma ws_split a a' x y : ws a -> ws a' -> starts_solid x -> starts_solid y -> a ++ x = a' ++ y -> a = a' /\ x = y.
Proof.
  intros W W' X Y. revert a' W'. induction W as [|c a C W IH]; intros a' W' E.
  - destruct W' as [|c' a' C' W']; [tauto|]. cbn [app] in E. subst x. destruct (X C').
  - destruct W' as [|c' a' C' W']; cbn [app] in E; [subst y; destruct (Y C)|]. injection E as -> E. destruct (IH a' W' E) as (-> & ->). tauto.
Qed.
Lemma key_split k k' x y : clean k -> clean k' -> k ++ 34 :: x = k' ++ 34 :: y -> k = k' /\ x = y.
Proof.
  intros C C'. revert k' C'. induction C as [|c k P C IH]; intros k' C' E.
  - destruct C' as [|c' k' P' C']; cbn [app] in E; [injection E as ->; tauto|]. injection E as <- _. destruct P' as (_ & P' & _). congruence.
  - destruct C' as [|c' k' P' C']; cbn [app] in E; [injection E as -> _; destruct P as (_ & P & _); congruence|]. injection E as -> E. destruct (IH k' C' E) as (-> & ->). tauto.
Qed.
Lemma value_solid v r : value v -> starts_solid (v ++ r).
Proof. intros V. destruct (value_first v V) as (c & l & -> & W & _). cbn. intros H. apply ws_iff in H. congruence. Qed.
Lemma stop_ws b r : ws b -> stop r -> stop (b ++ r). Proof. intros W S. destruct W as [|c b C W]; [exact S|]. left. exact C. Qed.
Lemma stop_comma l : stop (44 :: l). Proof. right. now left. Qed.
Lemma no_comma b b' l : ws b -> ws b' -> b = b' ++ 44 :: l -> False.
Proof. intros W _ ->. apply Forall_app in W. destruct W as (_ & W). inversion W as [|? ? C _]; subst. unfold white in C. lia. Qed.
Lemma comma_solid l : starts_solid (44 :: l). Proof. cbn. unfold solid, white. lia. Qed.
Lemma colon_solid l : starts_solid (58 :: l). Proof. cbn. unfold solid, white. lia. Qed.
Lemma quote_solid l : starts_solid (34 :: l). Proof. cbn. unfold solid, white. lia. Qed.
(** The first value after white space and what follows. *)
Lemma cut_value a v r a' v' r' : ws a -> ws a' -> value v -> value v' -> stop r -> stop r' -> a ++ v ++ r = a' ++ v' ++ r' -> v = v' /\ r = r'.
Proof.
  intros A A' V V' S S' E. apply ws_split in E; [|assumption|assumption|now apply value_solid|now apply value_solid]. destruct E as (_ & E). now apply value_prefix in E.
Qed.
(** A member: white space, key, white space, colon, white space, value and what follows. *)
Lemma cut_member a k b c v r a' k' b' c' v' r' : ws a -> clean k -> ws b -> ws c -> value v -> stop r -> ws a' -> clean k' -> ws b' -> ws c' -> value v' -> stop r' ->
  a ++ (34 :: k ++ [34]) ++ b ++ 58 :: c ++ v ++ r = a' ++ (34 :: k' ++ [34]) ++ b' ++ 58 :: c' ++ v' ++ r' -> k = k' /\ v = v' /\ r = r'.
Proof.
  intros A K B C V S A' K' B' C' V' S' E. apply ws_split in E; [|assumption|assumption|apply quote_solid|apply quote_solid]. destruct E as (_ & E).
  cbn [app] in E. injection E as E. rewrite <- !app_assoc in E. cbn [app] in E. apply key_split in E; [|assumption|assumption]. destruct E as (-> & E). split; [reflexivity|].
  apply ws_split in E; [|assumption|assumption|apply colon_solid|apply colon_solid]. destruct E as (_ & E). injection E as E. now apply cut_value in E.
Qed.

(** ** Agreement *)
Lemma number_first l x : number_is l x -> forall c r, l = c :: r -> c = 45 \/ dig c.
Proof.
  intros (n & i & f & -> & I & _) c r E. destruct n; [cbn [app] in E; injection E as <- _; now left|]. right. cbn [app] in E.
  destruct I as [->|(d & ds & -> & Hd & _)]; cbn [app] in E; injection E as <- _; unfold dig; lia.
Qed.
Theorem shows_agree : forall l t, shows l t -> forall t', shows l t' -> agree t t'.
Proof.
  apply (shows_i (fun l t _ => forall t', shows l t' -> agree t t') (fun l ts _ => forall ts', shows_elements l ts' -> agree_all ts ts') (fun l ms _ => forall ms', shows_members l ms' -> agree_members ms ms')).
  - intros l v x tol N E t' H. inversion H as [? v' y tol' N' E'|s C|r ts R|r ms R|? V]; subst; try (exfalso; destruct (number_first _ _ N _ _ eq_refl) as [K|K]; [discriminate K|unfold dig in K; lia]); [|constructor].
    rewrite (number_unique _ _ _ N' N) in E'. constructor. replace (x - y)%R with ((v - y) - (v - x))%R by ring. eapply Rle_trans; [apply Rabs_triang|]. rewrite Rabs_Ropp. lra.
  - intros s C t' H. inversion H as [l v x tol N E El|s' C' Es|r ts R|r ms R|? V]; subst; [exfalso; destruct (number_first _ _ N _ _ eq_refl) as [K|K]; [discriminate K|unfold dig in K; lia]| |constructor].
    apply app_inj_tail in Es. destruct Es as (-> & _). constructor.
  - intros l ts S IH t' H. inversion H as [? v x tol N E El|s' C' Es|r ts' R Er|r ms R|? V]; subst; [exfalso; destruct (number_first _ _ N _ _ eq_refl) as [K|K]; [discriminate K|unfold dig in K; lia]| |constructor].
    apply app_inj_tail in Er. destruct Er as (-> & _). constructor. now apply IH.
  - intros l ms S IH t' H. inversion H as [? v x tol N E El|s' C' Es|r ts' R|r ms' R Er|? V]; subst; [exfalso; destruct (number_first _ _ N _ _ eq_refl) as [K|K]; [discriminate K|unfold dig in K; lia]| |constructor].
    apply app_inj_tail in Er. destruct Er as (-> & _). constructor. now apply IH.
  - intros. constructor.
  - intros a v b t A S IH B ts' H. pose proof (shows_value _ _ S) as V. inversion H as [a' v' b' t' A' S' B' E|a' v' b' t' l' ts'' A' S' B' L' E]; subst; pose proof (shows_value _ _ S') as V'.
    + apply cut_value in E; try assumption; [|destruct B'; [exact I|now left]|destruct B; [exact I|now left]]. destruct E as (<- & _). constructor; [now apply IH|constructor].
    + exfalso. apply cut_value in E; try assumption; [|apply stop_ws; [assumption|apply stop_comma]|destruct B; [exact I|now left]]. destruct E as (_ & E). exact (no_comma b b' l' B B' (eq_sym E)).
  - intros a v b t l ts A S IH B L IHl ts' H. pose proof (shows_value _ _ S) as V. inversion H as [a' v' b' t' A' S' B' E|a' v' b' t' l' ts'' A' S' B' L' E]; subst; pose proof (shows_value _ _ S') as V'.
    + exfalso. apply cut_value in E; try assumption; [|destruct B'; [exact I|now left]|apply stop_ws; [assumption|apply stop_comma]]. destruct E as (_ & E). exact (no_comma b' b l B' B E).
    + apply cut_value in E; try assumption; try (apply stop_ws; [assumption|apply stop_comma]). destruct E as (<- & E). apply ws_split in E; [|assumption|assumption|apply comma_solid|apply comma_solid]. destruct E as (_ & E). injection E as <-.
      constructor; [now apply IH|now apply IHl].
  - intros a k b c v d t A K B C S IH D ms' H. pose proof (shows_value _ _ S) as V. inversion H as [a' k' b' c' v' d' t' A' K' B' C' S' D' E|a' k' b' c' v' d' t' l' ms'' A' K' B' C' S' D' L' E]; subst; pose proof (shows_value _ _ S') as V'.
    + apply cut_member in E; try assumption; [|destruct D'; [exact I|now left]|destruct D; [exact I|now left]]. destruct E as (-> & <- & _). constructor; [now apply IH|constructor].
    + exfalso. apply cut_member in E; try assumption; [|apply stop_ws; [assumption|apply stop_comma]|destruct D; [exact I|now left]]. destruct E as (_ & _ & E). exact (no_comma d d' l' D D' (eq_sym E)).
  - intros a k b c v d t l ms A K B C S IH D L IHl ms' H. pose proof (shows_value _ _ S) as V. inversion H as [a' k' b' c' v' d' t' A' K' B' C' S' D' E|a' k' b' c' v' d' t' l' ms'' A' K' B' C' S' D' L' E]; subst; pose proof (shows_value _ _ S') as V'.
    + exfalso. apply cut_member in E; try assumption; [|destruct D'; [exact I|now left]|apply stop_ws; [assumption|apply stop_comma]]. destruct E as (_ & _ & E). exact (no_comma d' d l D' D E).
    + apply cut_member in E; try assumption; try (apply stop_ws; [assumption|apply stop_comma]). destruct E as (-> & <- & E). apply ws_split in E; [|assumption|assumption|apply comma_solid|apply comma_solid]. destruct E as (_ & E). injection E as <-.
      constructor; [now apply IH|now apply IHl].
Qed.
