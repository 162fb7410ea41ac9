From Coq Require Import ZArith List Bool Lia.
From Verif Require Import CLib DynModel DynSpec.
Import ListNotations.
Open Scope Z_scope.

Definition lib_of (s : dyn) : option (option nat) := if first_time s then None else Some (handle s).
(** One of the two tables agrees with the library in memory. *)
Definition table_ok (o : os) (s : dyn) (off : Z) (f : Z -> option fptr) (d : Z -> bool) : Prop := forall i, 0 <= i < 5 ->
  (d i = true -> first_time s = false /\ f i = match handle s with Some k => get_proc o k (i + off) | None => None end)
  /\ (d i = false -> f i = None \/ forall k, loads o k = true).
Definition fresh (o : os) (s : dyn) : Prop := (first_time s = false -> handle s = None -> exists k, loads o k = false).
Definition good (o : os) (s : dyn) : Prop := table_ok o s 1 (ifunc s) (idone s) /\ table_ok o s 6 (cfunc s) (cdone s) /\ fresh o s.

Lemma load_good o s : good o s -> good o (load_lib o s).
Proof.
  intros (T1 & T2 & F). unfold load_lib. destruct (first_time s) eqn:E; [|exact (conj T1 (conj T2 F))].
  split; [|split].
  - intros i Hi. destruct (T1 i Hi) as [A B]. split; [intros D; destruct (A D); congruence|exact B].
  - intros i Hi. destruct (T2 i Hi) as [A B]. split; [intros D; destruct (A D); congruence|exact B].
  - intros _. cbn. destruct (loads o (tries s)) eqn:L; [discriminate|]. intros _. exists (tries s). exact L.
Qed.
Lemma load_tried o s : first_time (load_lib o s) = false. Proof. unfold load_lib. destruct (first_time s) eqn:E; [reflexivity|exact E]. Qed.
Lemma range n : 0 <= n < 5 -> (0 <=? n) && (n <? 5) = true. Proof. intros H. apply andb_true_intro. split; [apply Z.leb_le|apply Z.ltb_lt]; lia. Qed.
Lemma upd_same {T} (f : Z -> T) i v : upd f i v i = v. Proof. unfold upd. now rewrite Z.eqb_refl. Qed.
Lemma upd_other {T} (f : Z -> T) i v j : j <> i -> upd f i v j = f j. Proof. intros H. unfold upd. apply Z.eqb_neq in H. now rewrite H. Qed.

(** Looking a function up in a table keeps it right, and finds the function of the library in memory. *)
Lemma lookup_ok o s off f d n : first_time s = false -> fresh o s -> table_ok o s off f d -> 0 <= n < 5 ->
  let f' := if d n then f else match handle s with Some k => upd f n (get_proc o k (n + off)) | None => f end in
  let d' := if d n then d else upd d n true in
  table_ok o s off f' d' /\ f' n = match handle s with Some k => get_proc o k (n + off) | None => None end.
Proof.
  intros E F T Hn f' d'. destruct (T n Hn) as [A B].
  assert (FN : f' n = match handle s with Some k => get_proc o k (n + off) | None => None end).
  { unfold f'. destruct (d n) eqn:D; [now apply A|]. destruct (handle s) as [k|] eqn:H; [apply upd_same|].
    destruct (B eq_refl) as [X|X]; [exact X|]. destruct (F E H) as [k K]. rewrite X in K. discriminate K. }
  split; [|exact FN]. intros i Hi. destruct (Z.eq_dec i n) as [->|Ne].
  - split; [intros _; split; [exact E|exact FN]|]. unfold d'. destruct (d n) eqn:D; [congruence|rewrite upd_same; discriminate].
  - assert (X : f' i = f i) by (unfold f'; destruct (d n); [reflexivity|destruct (handle s); [now apply upd_other|reflexivity]]).
    assert (Y : d' i = d i) by (unfold d'; destruct (d n); [reflexivity|now apply upd_other]). rewrite X, Y. apply (T i Hi).
Qed.
Lemma through o s off n : handle s <> None \/ True -> (match (match handle s with Some k => get_proc o k (n + off) | None => None end) with Some f => g <- call_through s f ;; Ok (Some g) | None => Ok None end)
  = Ok (match handle s with Some k => get_proc o k (n + off) | None => None end).
Proof. intros _. unfold call_through, get_proc. destruct (handle s) as [k|]; [|reflexivity]. destruct (exports o k (n + off)); [|reflexivity]. cbn. rewrite Nat.eqb_refl. reflexivity. Qed.

Lemma init_step o s n : good o s -> 0 <= n < 5 -> exists s', SXPX_init o s n = Ok (outcome o (handle (load_lib o s)) (Init n), s') /\ good o s' /\ first_time s' = false /\ handle s' = handle (load_lib o s) /\ tries s' = tries (load_lib o s) /\ cfunc s' = cfunc s /\ cdone s' = cdone s.
Proof.
  intros G Hn. assert (K1 : cfunc (load_lib o s) = cfunc s) by (unfold load_lib; destruct (first_time s); reflexivity). assert (K2 : cdone (load_lib o s) = cdone s) by (unfold load_lib; destruct (first_time s); reflexivity).
  unfold SXPX_init. apply load_good in G. assert (E := load_tried o s). rewrite range by exact Hn. set (t := load_lib o s) in *. destruct G as (T1 & T2 & F).
  destruct (lookup_ok o t 1 (ifunc t) (idone t) n E F T1 Hn) as [T N]. cbv zeta in T, N.
  destruct (idone t n) eqn:D; cbn [handle ifunc first_time idone cfunc cdone tries] in *; rewrite N.
  - rewrite (through o t 1 n) by tauto; cbn [bind]. exists t. split; [|split; [exact (conj T1 (conj T2 F))|repeat split; assumption]]. f_equal. f_equal. unfold outcome, ordinal, get_proc. destruct (handle t) as [k|]; [|reflexivity]. destruct (exports o k (n + 1)); reflexivity.
  - match goal with |- context [call_through ?s2 _] => exists s2 end. split; [|split; [split; [exact T|split; [exact T2|exact F]]|repeat split; assumption]]. change (call_through _) with (call_through t). rewrite (through o t 1 n) by tauto. cbn [bind]. f_equal. f_equal. unfold outcome, ordinal, get_proc. destruct (handle t) as [k|]; [|reflexivity]. destruct (exports o k (n + 1)); reflexivity.
Qed.
Lemma call_step o s n : good o s -> 0 <= n < 5 -> exists s', SXPX o s n = Ok (outcome o (handle (load_lib o s)) (Call n), s') /\ good o s' /\ first_time s' = false /\ handle s' = handle (load_lib o s) /\ tries s' = tries (load_lib o s).
Proof.
  intros G Hn. unfold SXPX. apply load_good in G. assert (E := load_tried o s). rewrite range by exact Hn. set (t := load_lib o s) in *. destruct G as (T1 & T2 & F).
  destruct (lookup_ok o t 6 (cfunc t) (cdone t) n E F T2 Hn) as [T N]. cbv zeta in T, N.
  destruct (cdone t n) eqn:D; cbn [handle ifunc first_time idone cfunc cdone tries] in *; rewrite N.
  - rewrite (through o t 6 n) by tauto; cbn [bind]. exists t. split; [|split; [exact (conj T1 (conj T2 F))|repeat split; assumption]]. f_equal. f_equal. unfold outcome, ordinal, get_proc. destruct (handle t) as [k|]; [|reflexivity]. destruct (exports o k (n + 6)); reflexivity.
  - match goal with |- context [call_through ?s2 _] => exists s2 end. split; [|split; [split; [exact T1|split; [exact T|exact F]]|repeat split; assumption]]. change (call_through _) with (call_through t). rewrite (through o t 6 n) by tauto. cbn [bind]. f_equal. f_equal. unfold outcome, ordinal, get_proc. destruct (handle t) as [k|]; [|reflexivity]. destruct (exports o k (n + 6)); reflexivity.
Qed.

(** The part of a run before the last unloading: the table of SXPX is still blank. *)
Definition blank (s : dyn) : Prop := forall i, cdone s i = false /\ cfunc s i = None.
Lemma load_lib_lib o s : (if first_time s then if loads o (tries s) then Some (tries s) else None else handle s) = handle (load_lib o s).
Proof. unfold load_lib. destruct (first_time s); reflexivity. Qed.
Lemma load_lib_tries o s : tries (load_lib o s) = if first_time s then S (tries s) else tries s.
Proof. unfold load_lib. destruct (first_time s); reflexivity. Qed.
Lemma unload_good o s : good o s -> blank s -> (forall k, loads o k = true) -> good o (SXPX_unload s) /\ blank (SXPX_unload s).
Proof.
  intros (T1 & T2 & F) B L. split; [split; [|split]|exact B].
  - intros i Hi. cbn. rewrite range by exact Hi. split; [discriminate|intros _; right; exact L].
  - intros i Hi. cbn. destruct (B i) as [B1 B2]. rewrite B1. split; [discriminate|intros _; left; exact B2].
  - intros X. discriminate X.
Qed.
Lemma version_step o s : lib_version o s = (outcome o (handle (load_lib o s)) Version, load_lib o s).
Proof. unfold lib_version, outcome, get_proc, ordinal. destruct (handle (load_lib o s)) as [k|]; [|reflexivity]. destruct (exports o k 20); reflexivity. Qed.
Lemma start_good o : good o dyn0 /\ blank dyn0.
Proof. split; [split; [|split]|intros i; split; reflexivity]; [intros i Hi; split; [discriminate|left; reflexivity]|intros i Hi; split; [discriminate|left; reflexivity]|intros X; discriminate X]. Qed.

Lemma ideal_step o s a ops : a <> Unload -> ideal_run o (tries s) (lib_of s) (a :: ops) = outcome o (handle (load_lib o s)) a :: ideal_run o (tries (load_lib o s)) (Some (handle (load_lib o s))) ops.
Proof. intros H. unfold lib_of, load_lib. destruct (first_time s) eqn:E; destruct a; try congruence; reflexivity. Qed.

(** A run whose propagator calls all come after the last unloading. *)
Lemma run_after o ops : Forall numbered ops -> Forall no_unload ops -> forall s, good o s -> run o s ops = Ok (ideal_run o (tries s) (lib_of s) ops).
Proof.
  induction ops as [|a ops IH]; intros N U s G; [reflexivity|]. inversion N as [|? ? N1 N2]; subst. inversion U as [|? ? U1 U2]; subst. rewrite ideal_step by exact U1.
  cbn [run]. destruct a as [|n|n|]; [congruence| | |]; cbn [step].
  - destruct (init_step o s n G N1) as (s' & E & G' & F' & H' & T' & _). rewrite E. cbn [bind]. destruct (outcome o (handle (load_lib o s)) (Init n)) as [v c]. rewrite (IH N2 U2 s' G'). cbn [bind]. unfold lib_of. rewrite F', H', T'. reflexivity.
  - destruct (call_step o s n G N1) as (s' & E & G' & F' & H' & T'). rewrite E. cbn [bind]. destruct (outcome o (handle (load_lib o s)) (Call n)) as [v c]. rewrite (IH N2 U2 s' G'). cbn [bind]. unfold lib_of. rewrite F', H', T'. reflexivity.
  - rewrite version_step. cbn [bind]. destruct (outcome o (handle (load_lib o s)) Version) as [v c]. rewrite (IH N2 U2 _ (load_good o s G)). cbn [bind]. unfold lib_of. rewrite load_tried. reflexivity.
Qed.
Lemma run_mixed o a b : (forall k, loads o k = true) -> Forall numbered a -> Forall no_call a -> Forall numbered b -> Forall no_unload b ->
  forall s, good o s -> blank s -> run o s (a ++ b) = Ok (ideal_run o (tries s) (lib_of s) (a ++ b)).
Proof.
  intros L N C NB UB. induction a as [|x a IH]; intros s G B; [now apply run_after|]. inversion N as [|? ? N1 N2]; subst. inversion C as [|? ? C1 C2]; subst.
  specialize (IH N2 C2). rewrite <- app_comm_cons. cbn [run]. destruct x as [|n|n|]; cbn [step]; [| |contradiction|].
  - cbn [bind]. destruct (unload_good o s G B L) as [G' B']. rewrite (IH _ G' B'). cbn [bind ideal_run]. reflexivity.
  - destruct (init_step o s n G N1) as (s' & E & G' & F' & H' & T' & CF & CD). rewrite E. cbn [bind]. rewrite ideal_step by discriminate. destruct (outcome o (handle (load_lib o s)) (Init n)) as [v c].
    rewrite (IH s' G'). 2: { intros i. rewrite CF, CD. apply B. } cbn [bind]. unfold lib_of. rewrite F', H', T'. reflexivity.
  - rewrite version_step. cbn [bind]. rewrite ideal_step by discriminate. destruct (outcome o (handle (load_lib o s)) Version) as [v c].
    rewrite (IH _ (load_good o s G)). 2: { intros i. unfold load_lib. destruct (first_time s); apply B. } cbn [bind]. unfold lib_of. rewrite load_tried. reflexivity.
Qed.

Lemma dyn_no_unload o ops : Forall numbered ops -> Forall no_unload ops -> run o dyn0 ops = Ok (ideal_run o 0 None ops).
Proof. intros N U. apply (run_after o ops N U dyn0). apply start_good. Qed.
Lemma dyn_unload o a b : (forall k, loads o k = true) -> Forall numbered (a ++ b) -> Forall no_call a -> Forall no_unload b -> run o dyn0 (a ++ b) = Ok (ideal_run o 0 None (a ++ b)).
Proof. intros L N C U. apply Forall_app in N. destruct N as [N1 N2]. destruct (start_good o) as [G B]. exact (run_mixed o a b L N1 C N2 U dyn0 G B). Qed.

(** After an unloading, SXPX jumps through the pointer of the library that was unloaded. *)
Lemma dyn_stale_call o n : 0 <= n < 5 -> loads o 0 = true -> exports o 0 (n + 6) = true -> run o dyn0 [Call n; Unload; Call n] = UB OutOfBounds.
Proof.
  intros Hn L E. unfold run, step, SXPX, SXPX_unload, unload_lib, load_lib, call_through, get_proc. rewrite (range n Hn). cbn [first_time dyn0 tries handle ifunc idone cfunc cdone]. rewrite L, upd_same, E. cbn. rewrite upd_same.
  cbn. rewrite upd_same. destruct (loads o 1); reflexivity.
Qed.
(** So does SXPX_init when the library cannot be loaded again. *)
Lemma dyn_stale_init o n : 0 <= n < 5 -> loads o 0 = true -> loads o 1 = false -> exports o 0 (n + 1) = true -> run o dyn0 [Init n; Unload; Init n] = UB OutOfBounds.
Proof.
  intros Hn L L1 E. unfold run, step, SXPX_init, SXPX_unload, unload_lib, load_lib, call_through, get_proc. rewrite (range n Hn). cbn [first_time dyn0 tries handle ifunc idone cfunc cdone]. rewrite L, upd_same, E. cbn. rewrite L1, (range n Hn). cbn.
  rewrite upd_same. reflexivity.
Qed.
(** A propagator number outside the tables. *)
Lemma dyn_out_of_range o s n : ~ 0 <= n < 5 -> SXPX_init o s n = UB OutOfBounds /\ SXPX o s n = UB OutOfBounds.
Proof. intros H. assert (X : (0 <=? n) && (n <? 5) = false) by (apply andb_false_iff; destruct (Z.leb_spec 0 n); [right; apply Z.ltb_ge; lia|left; reflexivity]). unfold SXPX_init, SXPX. rewrite X. split; reflexivity. Qed.

Lemma dyn_refuted : exists o ops, (forall k, loads o k = true) /\ (forall k i, exports o k i = true) /\ Forall numbered ops /\ run o dyn0 ops <> Ok (ideal_run o 0 None ops).
Proof.
  exists (mk_os (fun _ => true) (fun _ _ => true) (fun _ _ => 0)), [Call 1; Unload; Call 1]. split; [reflexivity|]. split; [reflexivity|]. split; [|vm_compute; discriminate].
  repeat constructor; discriminate.
Qed.
