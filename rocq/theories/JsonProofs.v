(** The acceptor accepts exactly the grammar. *)
From Coq Require Import ZArith List Bool Lia.
From Verif Require Import JsonSpec JsonAcceptor.
Import ListNotations.
Open Scope Z_scope.

(** ** Character classes *)
Ltac tests := repeat match goal with
  | H : context [?a =? ?b] |- _ => destruct (Z.eqb_spec a b)
  | H : context [?a <=? ?b] |- _ => destruct (Z.leb_spec a b)
  | H : context [?a <? ?b] |- _ => destruct (Z.ltb_spec a b)
  | |- context [?a =? ?b] => destruct (Z.eqb_spec a b)
  | |- context [?a <=? ?b] => destruct (Z.leb_spec a b)
  | |- context [?a <? ?b] => destruct (Z.ltb_spec a b)
  end; cbn [andb orb negb] in *.
Lemma ws_iff : forall c, is_ws c = true <-> white c.
Proof. intro c. unfold is_ws, white. tests; split; intro HK; try discriminate; try reflexivity; lia. Qed.
Lemma dig_iff : forall c, is_dig c = true <-> dig c.
Proof. intro c. unfold is_dig, dig. tests; split; intro HK; try discriminate; try reflexivity; lia. Qed.
Lemma hex_iff : forall c, is_hex c = true <-> hexa c.
Proof. intro c. unfold is_hex, is_dig, hexa. tests; split; intro HK; try discriminate; try reflexivity; lia. Qed.
Lemma plain_iff : forall c, is_plain c = true <-> plain c.
Proof. intro c. unfold is_plain, plain. tests; split; intro HK; try discriminate; try reflexivity; lia. Qed.
Lemma esc_iff : forall c, is_escapable c = true <-> escapable c.
Proof. intro c. unfold is_escapable, escapable. tests; split; intro HK; try discriminate; try reflexivity; lia. Qed.

Lemma run_app : forall a x b, run x (a ++ b) = match run x a with Some y => run y b | None => None end.
Proof. induction a as [|c a IH]; intros x b; [reflexivity|]. cbn [run app]. destruct (step x c); [apply IH|reflexivity]. Qed.

(** ** Completeness *)
Definition idle (m : mode) : Prop := m = MV \/ m = MA \/ m = MO \/ m = MK \/ m = MC \/ m = ME.
Lemma run_ws : forall w m s, ws w -> idle m -> run (m, s) w = Some (m, s).
Proof.
  induction w as [|c w IH]; intros m s H I; [reflexivity|]. inversion H as [|? ? Hc Hw]; subst. apply ws_iff in Hc. cbn [run].
  assert (E: step (m, s) c = Some (m, s)).
  { destruct I as [->|[->|[->|[->|[->| ->]]]]]; cbn; unfold after_value; rewrite Hc; reflexivity. }
  rewrite E. now apply IH.
Qed.
Lemma run_chars : forall b, chars b -> forall k s, run (MS k, s) b = Some (MS k, s).
Proof.
  induction 1 as [|c l P H IH|c l P H IH|a b c d l Ha Hb Hc Hd H IH]; intros k s; [reflexivity| | |].
  - cbn [run step]. destruct (Z.eqb_spec c 34); [destruct P; lia|]. destruct (Z.eqb_spec c 92); [destruct P; lia|].
    apply plain_iff in P. rewrite P. apply IH.
  - cbn [run step]. change (92 =? 34) with false. change (92 =? 92) with true. cbn iota. cbn [run step]. apply esc_iff in P. rewrite P. apply IH.
  - apply hex_iff in Ha, Hb, Hc, Hd. cbn [run step]. change (92 =? 34) with false. change (92 =? 92) with true. cbn iota.
    cbn [run step]. change (is_escapable 117) with false. cbn iota. change (117 =? 117) with true. cbn iota. cbn [run step]. rewrite Ha. cbn [run step]. rewrite Hb. cbn [run step].
    rewrite Hc. cbn [run step]. rewrite Hd. apply IH.
Qed.
Lemma run_string : forall l, jstring l -> forall s, run (MV, s) l = Some (ME, s).
Proof.
  intros l (b & H & ->) s. cbn [run step]. change (is_ws 34) with false. cbn iota. unfold start_value. change (34 =? 34) with true. cbn iota.
  rewrite run_app, (run_chars b H). reflexivity.
Qed.
Lemma run_key : forall l, jstring l -> forall m s, m = MO \/ m = MK -> run (m, s) l = Some (MC, s).
Proof.
  intros l (b & H & ->) m s I.
  assert (E: step (m, s) 34 = Some (MS true, s)) by (destruct I as [-> | ->]; reflexivity).
  cbn [run]. rewrite E, run_app, (run_chars b H). reflexivity.
Qed.

Lemma dig_not : forall c, dig c -> (c =? 46) = false /\ (c =? 101) = false /\ (c =? 69) = false /\ (c =? 45) = false /\ (c =? 43) = false.
Proof. intros c H. unfold dig in H. repeat split; apply Z.eqb_neq; lia. Qed.
Lemma run_digits : forall l m s, Forall dig l -> m = NI \/ m = NF \/ m = NE -> run (m, s) l = Some (m, s).
Proof.
  induction l as [|c l IH]; intros m s H I; [reflexivity|]. inversion H as [|? ? Hc Hl]; subst. apply dig_iff in Hc. cbn [run].
  assert (E: step (m, s) c = Some (m, s)) by (destruct I as [->|[->| ->]]; cbn; rewrite Hc; reflexivity).
  rewrite E. now apply IH.
Qed.
Lemma run_digits1 : forall l m m' s, digits l -> (m = NP /\ m' = NF) \/ (m = NX /\ m' = NE) \/ (m = NS /\ m' = NE) -> run (m, s) l = Some (m', s).
Proof.
  intros l m m' s [N H] I. destruct l as [|c l]; [congruence|]. inversion H as [|? ? Hc Hl]; subst. apply dig_iff in Hc. cbn [run].
  assert (E: step (m, s) c = Some (m', s)) by (destruct I as [[-> ->]|[[-> ->]|[-> ->]]]; cbn; rewrite Hc; reflexivity).
  rewrite E. apply run_digits; [exact Hl|]. destruct I as [[-> ->]|[[-> ->]|[-> ->]]]; tauto.
Qed.
Lemma run_number : forall l, jnumber l -> forall s, exists m, run (MV, s) l = Some (m, s) /\ complete m = true.
Proof.
  intros l (g & i & f & e & -> & Hg & Hi & Hf & He) s.
  assert (I: exists m, run (MV, s) (g ++ i) = Some (m, s) /\ (m = N0 \/ m = NI)).
  { destruct Hi as [->|(d & ds & -> & Hd & Hds)].
    - exists N0. destruct Hg as [-> | ->]; (split; [reflexivity|tauto]).
    - exists NI. split; [|tauto].
      assert (D: forall m, m = MV \/ m = NM -> step (m, s) d = Some (NI, s)).
      { intros m [-> | ->]; cbn; unfold start_value, is_ws, is_dig; tests; try reflexivity; try lia. }
      destruct Hg as [-> | ->]; cbn [app run]; [rewrite D by tauto|change (step (MV, s) 45) with (Some (NM, s)); cbn iota; cbn [run]; rewrite D by tauto];
      now apply run_digits; [|tauto]. }
  destruct I as (m & Hm & Km). rewrite app_assoc, run_app, Hm. rewrite run_app.
  assert (F: exists m', run (m, s) f = Some (m', s) /\ (m' = N0 \/ m' = NI \/ m' = NF)).
  { destruct Hf as [->|(ds & -> & Hds)]; [exists m; split; [reflexivity|tauto]|]. exists NF. split; [|tauto].
    cbn [run]. replace (step (m, s) 46) with (Some (NP, s)) by (destruct Km as [-> | ->]; reflexivity).
    now apply (run_digits1 ds NP NF); [|tauto]. }
  destruct F as (m' & -> & Km').
  destruct He as [->|(x & g' & ds & -> & Hx & Hg' & Hds)].
  - exists m'. split; [reflexivity|]. destruct Km' as [->|[->| ->]]; reflexivity.
  - exists NE. split; [|reflexivity]. cbn [run].
    replace (step (m', s) x) with (Some (NX, s)) by (destruct Km' as [->|[->| ->]]; destruct Hx as [-> | ->]; reflexivity).
    destruct Hg' as [->|[->| ->]]; cbn [app run].
    + now apply (run_digits1 ds NX NE); [|tauto].
    + change (step (NX, s) 43) with (Some (NS, s)). cbn iota. now apply (run_digits1 ds NS NE); [|tauto].
    + change (step (NX, s) 45) with (Some (NS, s)). cbn iota. now apply (run_digits1 ds NS NE); [|tauto].
Qed.

Definition delim (c : Z) : Prop := white c \/ c = 44 \/ c = 93 \/ c = 125.
Lemma after_complete : forall m s c, complete m = true -> delim c -> step (m, s) c = step (ME, s) c.
Proof.
  intros m s c K D.
  assert (E: is_dig c = false /\ (c =? 46) = false /\ (c =? 101) = false /\ (c =? 69) = false).
  { unfold delim, white in D. unfold is_dig. tests; try lia; tauto. }
  destruct E as (E1 & E2 & E3 & E4).
  destruct m; try discriminate K; cbn; rewrite ?E1, ?E2, ?E3, ?E4; reflexivity.
Qed.
Lemma run_after : forall m s c l, complete m = true -> delim c -> run (m, s) (c :: l) = run (ME, s) (c :: l).
Proof. intros m s c l K D. cbn [run]. now rewrite after_complete. Qed.
Lemma run_after_ws : forall m s w c l, complete m = true -> ws w -> delim c -> run (m, s) (w ++ c :: l) = run (ME, s) (c :: l).
Proof.
  intros m s w c l K W D. destruct w as [|d w]; [now apply run_after|]. inversion W as [|? ? Hd Hw]; subst.
  cbn [app]. rewrite run_after; [|exact K|left; exact Hd]. change (d :: w ++ c :: l) with ((d :: w) ++ c :: l).
  rewrite run_app, (run_ws (d :: w) ME s W) by (unfold idle; tauto). reflexivity.
Qed.

(** First character of a value. *)
Definition vfirst (v : list Z) : Prop := exists c l, v = c :: l /\ is_ws c = false /\ (c =? 93) = false.
Lemma value_first : forall v, value v -> vfirst v.
Proof.
  intros v H. destruct H as [| | |l (s & i & f & e & -> & Hs & Hi & _)|l (b & _ & ->)|w _|l _|w _|l _];
    try (eexists; eexists; split; [reflexivity|split; reflexivity]).
  destruct Hs as [-> | ->]; [|eexists; eexists; split; [reflexivity|split; reflexivity]].
  destruct Hi as [->|(d & ds & -> & Hd & _)]; [eexists; eexists; split; [reflexivity|split; reflexivity]|].
  exists d, (ds ++ f ++ e). split; [reflexivity|]. unfold is_ws. tests; split; try reflexivity; lia.
Qed.
Lemma array_start : forall v s l, vfirst v -> run (MA, s) (v ++ l) = run (MV, s) (v ++ l).
Proof. intros v s l (c & t & -> & W & N). cbn [app run step]. now rewrite W, N. Qed.

Lemma complete_run :
  (forall v, value v -> forall s, exists m, run (MV, s) v = Some (m, s) /\ complete m = true) /\
  (forall e, elements e -> forall m s, m = MV \/ m = MA -> run (m, FArr :: s) (e ++ [93]) = Some (ME, s)) /\
  (forall o, members o -> forall m s, m = MK \/ m = MO -> run (m, FObj :: s) (o ++ [125]) = Some (ME, s)).
Proof.
  apply json_mutual.
  - intro s. exists ME. split; reflexivity.
  - intro s. exists ME. split; reflexivity.
  - intro s. exists ME. split; reflexivity.
  - intros l H s. now apply run_number.
  - intros l H s. exists ME. split; [now apply run_string|reflexivity].
  - intros w H s. exists ME. split; [|reflexivity]. cbn [run]. change (step (MV, s) 91) with (Some (MA, FArr :: s)). cbn iota.
    rewrite run_app, run_ws; [reflexivity|exact H|unfold idle; tauto].
  - intros l H IH s. exists ME. split; [|reflexivity]. cbn [run]. change (step (MV, s) 91) with (Some (MA, FArr :: s)). cbn iota. apply IH. tauto.
  - intros w H s. exists ME. split; [|reflexivity]. cbn [run]. change (step (MV, s) 123) with (Some (MO, FObj :: s)). cbn iota.
    rewrite run_app, run_ws; [reflexivity|exact H|unfold idle; tauto].
  - intros l H IH s. exists ME. split; [|reflexivity]. cbn [run]. change (step (MV, s) 123) with (Some (MO, FObj :: s)). cbn iota. apply IH. tauto.
  - intros a v b Ha Hv IH Hb m s Hm. rewrite <- !app_assoc, run_app, run_ws by (try assumption; unfold idle; tauto).
    replace (run (m, FArr :: s) (v ++ b ++ [93])) with (run (MV, FArr :: s) (v ++ b ++ [93]))
      by (destruct Hm as [-> | ->]; [reflexivity|symmetry; apply array_start; now apply value_first]).
    rewrite run_app. destruct (IH (FArr :: s)) as (m' & -> & K). rewrite run_after_ws; [reflexivity|exact K|exact Hb|unfold delim; tauto].
  - intros a v b l Ha Hv IH Hb Hl IHl m s Hm. repeat rewrite <- ?app_assoc, <- ?app_comm_cons. rewrite run_app, run_ws by (try assumption; unfold idle; tauto).
    replace (run (m, FArr :: s) (v ++ b ++ 44 :: l ++ [93])) with (run (MV, FArr :: s) (v ++ b ++ 44 :: l ++ [93]))
      by (destruct Hm as [-> | ->]; [reflexivity|symmetry; apply array_start; now apply value_first]).
    rewrite run_app. destruct (IH (FArr :: s)) as (m' & -> & K). rewrite run_after_ws; [|exact K|exact Hb|unfold delim; tauto].
    cbn [run]. change (step (ME, FArr :: s) 44) with (Some (MV, FArr :: s)). cbn iota. apply IHl. tauto.
  - intros a k b c v d Ha Hk Hb Hc Hv IH Hd m s Hm. repeat rewrite <- ?app_assoc, <- ?app_comm_cons.
    rewrite run_app, run_ws by (try assumption; unfold idle; tauto). rewrite run_app, (run_key k Hk) by tauto.
    rewrite run_app, run_ws by (try assumption; unfold idle; tauto). cbn [run]. change (step (MC, FObj :: s) 58) with (Some (MV, FObj :: s)). cbn iota.
    rewrite run_app, run_ws by (try assumption; unfold idle; tauto). rewrite run_app. destruct (IH (FObj :: s)) as (m' & -> & K).
    rewrite run_after_ws; [reflexivity|exact K|exact Hd|unfold delim; tauto].
  - intros a k b c v d l Ha Hk Hb Hc Hv IH Hd Hl IHl m s Hm. repeat rewrite <- ?app_assoc, <- ?app_comm_cons.
    rewrite run_app, run_ws by (try assumption; unfold idle; tauto). rewrite run_app, (run_key k Hk) by tauto.
    rewrite run_app, run_ws by (try assumption; unfold idle; tauto). cbn [run]. change (step (MC, FObj :: s) 58) with (Some (MV, FObj :: s)). cbn iota.
    rewrite run_app, run_ws by (try assumption; unfold idle; tauto). rewrite run_app. destruct (IH (FObj :: s)) as (m' & -> & K).
    rewrite run_after_ws; [|exact K|exact Hd|unfold delim; tauto].
    cbn [run]. change (step (ME, FObj :: s) 44) with (Some (MK, FObj :: s)). cbn iota. apply IHl. tauto.
Qed.

Lemma json_accepts : forall l, json l -> accepts l = true.
Proof.
  intros l (a & v & b & Ha & Hv & Hb & ->). unfold accepts. rewrite run_app, run_ws by (try assumption; unfold idle; tauto).
  rewrite run_app. destruct (proj1 complete_run v Hv []) as (m & -> & K). destruct b as [|c b]; [exact K|].
  inversion Hb; subst. rewrite run_after; [|exact K|left; assumption]. rewrite run_ws by (try assumption; unfold idle; tauto). reflexivity.
Qed.

(** ** Soundness *)
Definition A (m : mode) (s : list frame) (l : list Z) : Prop := accepted (run (m, s) l) = true.

Lemma A_step : forall m s c l, A m s (c :: l) -> exists m' s', step (m, s) c = Some (m', s') /\ A m' s' l.
Proof.
  intros m s c l H. unfold A in H. cbn [run] in H. destruct (step (m, s) c) as [[m' s']|]; [|discriminate H].
  exists m', s'. split; [reflexivity|exact H].
Qed.
Lemma A_nil : forall m s, A m s [] -> s = [] /\ complete m = true.
Proof. intros m s H. unfold A in H. cbn in H. destruct s; [tauto|discriminate]. Qed.

Lemma string_rest : forall n l k s, (length l <= n)%nat -> A (MS k) s l ->
  exists b r, chars b /\ l = b ++ 34 :: r /\ A (if k then MC else ME) s r.
Proof.
  induction n as [|n IH]; intros l k s L H.
  { destruct l; [|cbn in L; lia]. apply A_nil in H. destruct H; discriminate. }
  destruct l as [|c l]; [apply A_nil in H; destruct H; discriminate|]. cbn in L.
  apply A_step in H. destruct H as (m & s' & E & H). cbn in E.
  destruct (Z.eqb_spec c 34) as [->|N1].
  { injection E as <- <-. exists [], l. split; [constructor|]. split; [reflexivity|]. exact H. }
  destruct (Z.eqb_spec c 92) as [->|N2].
  - injection E as <- <-. destruct l as [|d l]; [apply A_nil in H; destruct H; discriminate|]. cbn in L.
    apply A_step in H. destruct H as (m & s' & E & H). cbn in E. destruct (is_escapable d) eqn:D.
    + injection E as <- <-. apply esc_iff in D. destruct (IH l k s ltac:(lia) H) as (b & r & Hb & -> & Hr).
      exists (92 :: d :: b), r. split; [now constructor|]. split; [reflexivity|exact Hr].
    + destruct (Z.eqb_spec d 117) as [->|]; [|discriminate E]. injection E as <- <-.
      destruct l as [|x1 l]; [apply A_nil in H; destruct H; discriminate|]. apply A_step in H. destruct H as (m & s' & E & H). cbn in E.
      destruct (is_hex x1) eqn:X1; [|discriminate E]. injection E as <- <-.
      destruct l as [|x2 l]; [apply A_nil in H; destruct H; discriminate|]. apply A_step in H. destruct H as (m & s' & E & H). cbn in E.
      destruct (is_hex x2) eqn:X2; [|discriminate E]. injection E as <- <-.
      destruct l as [|x3 l]; [apply A_nil in H; destruct H; discriminate|]. apply A_step in H. destruct H as (m & s' & E & H). cbn in E.
      destruct (is_hex x3) eqn:X3; [|discriminate E]. injection E as <- <-.
      destruct l as [|x4 l]; [apply A_nil in H; destruct H; discriminate|]. apply A_step in H. destruct H as (m & s' & E & H). cbn in E.
      destruct (is_hex x4) eqn:X4; [|discriminate E]. injection E as <- <-. cbn in L.
      apply hex_iff in X1, X2, X3, X4. destruct (IH l k s ltac:(lia) H) as (b & r & Hb & -> & Hr).
      exists (92 :: 117 :: x1 :: x2 :: x3 :: x4 :: b), r. split; [now constructor|]. split; [reflexivity|exact Hr].
  - destruct (is_plain c) eqn:P; [|discriminate E]. injection E as <- <-. apply plain_iff in P.
    destruct (IH l k s ltac:(lia) H) as (b & r & Hb & -> & Hr).
    exists (c :: b), r. split; [now constructor|]. split; [reflexivity|exact Hr].
Qed.

(** Numbers: what may follow in each state. *)
Lemma A_complete_cases : forall m s c l, complete m = true -> A m s (c :: l) -> after_value s c = step (m, s) c -> A ME s (c :: l).
Proof. intros m s c l K H E. unfold A in *. cbn [run] in *. cbn [step]. now rewrite E. Qed.

Lemma digits_rest : forall l m s, m = NE -> A m s l -> exists ds r, Forall dig ds /\ l = ds ++ r /\ A ME s r.
Proof.
  induction l as [|c l IH]; intros m s -> H.
  - exists [], []. apply A_nil in H. destruct H as [-> _]. split; [constructor|]. split; [reflexivity|]. reflexivity.
  - destruct (is_dig c) eqn:D.
    + apply A_step in H. destruct H as (m & s' & E & H). cbn in E. rewrite D in E. injection E as <- <-. apply dig_iff in D.
      destruct (IH NE s eq_refl H) as (ds & r & Hd & -> & Hr). exists (c :: ds), r. split; [now constructor|]. split; [reflexivity|exact Hr].
    + exists [], (c :: l). split; [constructor|]. split; [reflexivity|]. apply (A_complete_cases NE); [reflexivity|exact H|]. cbn. now rewrite D.
Qed.
Lemma exp_rest : forall l s, A NX s l -> exists g ds r, (g = [] \/ g = [43] \/ g = [45]) /\ digits ds /\ l = g ++ ds ++ r /\ A ME s r.
Proof.
  intros l s H. destruct l as [|c l]; [apply A_nil in H; destruct H; discriminate|].
  apply A_step in H. destruct H as (m & s' & E & H). cbn in E. destruct (is_dig c) eqn:D.
  - injection E as <- <-. apply dig_iff in D. destruct (digits_rest l NE s eq_refl H) as (ds & r & Hd & -> & Hr).
    exists [], (c :: ds), r. split; [tauto|]. split; [split; [discriminate|now constructor]|]. split; [reflexivity|exact Hr].
  - destruct ((c =? 43) || (c =? 45)) eqn:G; [|discriminate E]. injection E as <- <-.
    destruct l as [|d l]; [apply A_nil in H; destruct H; discriminate|]. apply A_step in H. destruct H as (m & s' & E & H). cbn in E.
    destruct (is_dig d) eqn:D2; [|discriminate E]. injection E as <- <-. apply dig_iff in D2.
    destruct (digits_rest l NE s eq_refl H) as (ds & r & Hd & -> & Hr). exists [c], (d :: ds), r.
    split; [apply orb_prop in G; destruct G as [G|G]; apply Z.eqb_eq in G; subst; tauto|].
    split; [split; [discriminate|now constructor]|]. split; [reflexivity|exact Hr].
Qed.
Lemma exp_after : forall m s l, m = N0 \/ m = NF \/ m = NI -> A m s l ->
  match l with c :: _ => (m = NI \/ m = NF -> is_dig c = false) /\ (m = N0 \/ m = NI -> c <> 46) | [] => True end ->
  exists e r, jexp e /\ l = e ++ r /\ A ME s r.
Proof.
  intros m s l Hm H N. destruct l as [|c l].
  { exists [], []. apply A_nil in H. destruct H as [-> _]. split; [left; reflexivity|]. split; reflexivity. }
  destruct N as [N1 N2].
  assert (N46: m = N0 \/ m = NI -> (c =? 46) = false) by (intro; apply Z.eqb_neq; now apply N2).
  destruct ((c =? 101) || (c =? 69)) eqn:X.
  - assert (E: step (m, s) c = Some (NX, s)).
    { destruct Hm as [->|[->| ->]]; cbn; rewrite ?N46, ?N1, ?X by tauto; reflexivity. }
    apply A_step in H. destruct H as (m' & s' & E' & H). rewrite E in E'. injection E' as <- <-.
    destruct (exp_rest l s H) as (g & ds & r & Hg & Hd & -> & Hr). exists (c :: g ++ ds), r.
    split; [right; exists c, g, ds; repeat split; try tauto; try apply Hd; apply orb_prop in X; destruct X as [X|X]; apply Z.eqb_eq in X; tauto|].
    split; [now rewrite <- app_comm_cons, <- app_assoc|exact Hr].
  - exists [], (c :: l). split; [left; reflexivity|]. split; [reflexivity|].
    assert (E: step (m, s) c = after_value s c) by (destruct Hm as [->|[->| ->]]; cbn; rewrite ?N46, ?N1, ?X by tauto; reflexivity).
    apply (A_complete_cases m); [destruct Hm as [->|[->| ->]]; reflexivity|exact H|now symmetry].
Qed.
Lemma frac_digits : forall l s, A NF s l -> exists ds e r, Forall dig ds /\ jexp e /\ l = ds ++ e ++ r /\ A ME s r.
Proof.
  induction l as [|c l IH]; intros s H.
  - exists [], [], []. apply A_nil in H. destruct H as [-> _]. split; [constructor|]. split; [left; reflexivity|]. split; reflexivity.
  - destruct (is_dig c) eqn:D.
    + apply A_step in H. destruct H as (m & s' & E & H). cbn in E. rewrite D in E. injection E as <- <-. apply dig_iff in D.
      destruct (IH s H) as (ds & e & r & Hd & He & -> & Hr). exists (c :: ds), e, r. split; [now constructor|]. split; [exact He|]. split; [reflexivity|exact Hr].
    + destruct (exp_after NF s (c :: l)) as (e & r & He & Hl & Hr); [tauto|exact H|split; [tauto|intros [K|K]; discriminate K]|].
      exists [], e, r. split; [constructor|]. split; [exact He|]. split; [exact Hl|exact Hr].
Qed.
Lemma frac_after : forall m s l, m = N0 \/ m = NI -> A m s l -> match l with c :: _ => m = NI -> is_dig c = false | [] => True end ->
  exists f e r, jfrac f /\ jexp e /\ l = f ++ e ++ r /\ A ME s r.
Proof.
  intros m s l Hm H N. destruct l as [|c l].
  { exists [], [], []. apply A_nil in H. destruct H as [-> _]. split; [left; reflexivity|]. split; [left; reflexivity|]. split; reflexivity. }
  destruct (Z.eqb_spec c 46) as [->|N46].
  - apply A_step in H. destruct H as (m' & s' & E & H).
    assert (E': step (m, s) 46 = Some (NP, s)) by (destruct Hm as [-> | ->]; reflexivity). rewrite E' in E. injection E as <- <-.
    destruct l as [|d l]; [apply A_nil in H; destruct H; discriminate|]. apply A_step in H. destruct H as (m' & s' & E & H). cbn in E.
    destruct (is_dig d) eqn:D; [|discriminate E]. injection E as <- <-. apply dig_iff in D.
    destruct (frac_digits l s H) as (ds & e & r & Hd & He & -> & Hr). exists (46 :: d :: ds), e, r.
    split; [right; exists (d :: ds); split; [reflexivity|split; [discriminate|now constructor]]|]. split; [exact He|]. split; [reflexivity|exact Hr].
  - destruct (exp_after m s (c :: l)) as (e & r & He & Hl & Hr); [tauto|exact H|split; [intros [K|K]; [now apply N|destruct Hm; congruence]|intro; exact N46]|].
    exists [], e, r. split; [left; reflexivity|]. split; [exact He|]. split; [exact Hl|exact Hr].
Qed.
Lemma int_digits : forall l s, A NI s l -> exists ds f e r, Forall dig ds /\ jfrac f /\ jexp e /\ l = ds ++ f ++ e ++ r /\ A ME s r.
Proof.
  induction l as [|c l IH]; intros s H.
  - exists [], [], [], []. apply A_nil in H. destruct H as [-> _]. split; [constructor|]. split; [left; reflexivity|]. split; [left; reflexivity|]. split; reflexivity.
  - destruct (is_dig c) eqn:D.
    + apply A_step in H. destruct H as (m & s' & E & H). cbn in E. rewrite D in E. injection E as <- <-. apply dig_iff in D.
      destruct (IH s H) as (ds & f & e & r & Hd & Hf & He & -> & Hr). exists (c :: ds), f, e, r. split; [now constructor|]. split; [exact Hf|]. split; [exact He|]. split; [reflexivity|exact Hr].
    + destruct (frac_after NI s (c :: l)) as (f & e & r & Hf & He & Hl & Hr); [tauto|exact H|tauto|].
      exists [], f, e, r. split; [constructor|]. split; [exact Hf|]. split; [exact He|]. split; [exact Hl|exact Hr].
Qed.
Lemma number_rest : forall c l s, (c = 45 /\ A NM s l) \/ (c = 48 /\ A N0 s l) \/ (49 <= c <= 57 /\ A NI s l) ->
  exists v r, jnumber v /\ c :: l = v ++ r /\ A ME s r.
Proof.
  assert (Z0: forall l s, A N0 s l -> exists f e r, jfrac f /\ jexp e /\ l = f ++ e ++ r /\ A ME s r).
  { intros l s H. apply (frac_after N0 s l); [tauto|exact H|]. destruct l; [exact I|discriminate]. }
  intros c l s [[-> H]|[[-> H]|[Hc H]]].
  - destruct l as [|d l]; [apply A_nil in H; destruct H; discriminate|]. apply A_step in H. destruct H as (m' & s' & E & H). cbn in E.
    destruct (Z.eqb_spec d 48) as [->|N48].
    + injection E as <- <-. destruct (Z0 l s H) as (f & e & r & Hf & He & -> & Hr). exists ([45] ++ [48] ++ f ++ e), r.
      split; [exists [45], [48], f, e; repeat split; try tauto; left; reflexivity|]. split; [cbn; now rewrite <- app_assoc|exact Hr].
    + destruct (is_dig d) eqn:D; [|discriminate E]. injection E as <- <-. apply dig_iff in D. unfold dig in D.
      destruct (int_digits l s H) as (ds & f & e & r & Hd & Hf & He & -> & Hr). exists ([45] ++ (d :: ds) ++ f ++ e), r.
      split; [exists [45], (d :: ds), f, e; repeat split; try tauto; right; exists d, ds; repeat split; try assumption; lia|]. split; [cbn; now rewrite <- !app_assoc|exact Hr].
  - destruct (Z0 l s H) as (f & e & r & Hf & He & -> & Hr). exists ([] ++ [48] ++ f ++ e), r.
    split; [exists [], [48], f, e; repeat split; try tauto; left; reflexivity|]. split; [cbn; now rewrite <- app_assoc|exact Hr].
  - destruct (int_digits l s H) as (ds & f & e & r & Hd & Hf & He & -> & Hr). exists ([] ++ (c :: ds) ++ f ++ e), r.
    split; [exists [], (c :: ds), f, e; repeat split; try tauto; right; exists c, ds; repeat split; try assumption; lia|]. split; [cbn; now rewrite <- !app_assoc|exact Hr].
Qed.

Lemma literal_rest : forall t l s, t <> [] -> A (ML t) s l -> exists r, l = t ++ r /\ A ME s r.
Proof.
  induction t as [|d t IH]; intros l s N H; [congruence|]. destruct l as [|c l]; [apply A_nil in H; destruct H; discriminate|].
  apply A_step in H. destruct H as (m & s' & E & H). cbn in E. destruct (Z.eqb_spec c d) as [->|]; [|discriminate E]. injection E as <- <-.
  destruct t as [|d' t]; [exists l; split; [reflexivity|exact H]|].
  destruct (IH l s ltac:(discriminate) H) as (r & -> & Hr). exists r. split; [reflexivity|exact Hr].
Qed.

(** After a value. *)
Lemma after_rest : forall l s, A ME s l -> exists w r, ws w /\ l = w ++ r /\
  match s with
  | [] => r = []
  | FArr :: s' => (exists t, r = 93 :: t /\ A ME s' t) \/ (exists t, r = 44 :: t /\ A MV s t)
  | FObj :: s' => (exists t, r = 125 :: t /\ A ME s' t) \/ (exists t, r = 44 :: t /\ A MK s t)
  end.
Proof.
  induction l as [|c l IH]; intros s H.
  - apply A_nil in H. destruct H as [-> _]. exists [], []. split; [constructor|]. split; reflexivity.
  - apply A_step in H. destruct H as (m & s' & E & H). cbn in E. unfold after_value in E. destruct (is_ws c) eqn:W.
    + injection E as <- <-. apply ws_iff in W. destruct (IH s H) as (w & r & Hw & -> & Hr). exists (c :: w), r. split; [now constructor|]. split; [reflexivity|exact Hr].
    + exists [], (c :: l). split; [constructor|]. split; [reflexivity|].
      destruct s as [|[|] s0]; [discriminate E| |].
      * destruct (Z.eqb_spec c 44) as [->|]; [injection E as <- <-; right; exists l; split; [reflexivity|exact H]|].
        destruct (Z.eqb_spec c 125) as [->|]; [injection E as <- <-; left; exists l; split; [reflexivity|exact H]|discriminate E].
      * destruct (Z.eqb_spec c 44) as [->|]; [injection E as <- <-; right; exists l; split; [reflexivity|exact H]|].
        destruct (Z.eqb_spec c 93) as [->|]; [injection E as <- <-; left; exists l; split; [reflexivity|exact H]|discriminate E].
Qed.
Lemma colon_rest : forall l s, A MC s l -> exists w r, ws w /\ l = w ++ 58 :: r /\ A MV s r.
Proof.
  induction l as [|c l IH]; intros s H; [apply A_nil in H; destruct H; discriminate|].
  apply A_step in H. destruct H as (m & s' & E & H). cbn in E. destruct (is_ws c) eqn:W.
  - injection E as <- <-. apply ws_iff in W. destruct (IH s H) as (w & r & Hw & -> & Hr). exists (c :: w), r. split; [now constructor|]. split; [reflexivity|exact Hr].
  - destruct (Z.eqb_spec c 58) as [->|]; [|discriminate E]. injection E as <- <-. exists [], l. split; [constructor|]. split; [reflexivity|exact H].
Qed.
(** Key, from MK or MO (the latter may also close the object). *)
Lemma key_rest : forall l m s, m = MK \/ m = MO -> A m s l ->
  (exists w k r, ws w /\ jstring k /\ l = w ++ k ++ r /\ A MC s r) \/
  (m = MO /\ exists w r s', ws w /\ s = FObj :: s' /\ l = w ++ 125 :: r /\ A ME s' r).
Proof.
  induction l as [|c l IH]; intros m s Hm H; [apply A_nil in H; destruct H as [_ H]; destruct Hm as [-> | ->]; discriminate|].
  apply A_step in H. destruct H as (m' & s' & E & H). destruct (is_ws c) eqn:W.
  - assert (E': step (m, s) c = Some (m, s)) by (destruct Hm as [-> | ->]; cbn; rewrite W; reflexivity). rewrite E' in E. injection E as <- <-. apply ws_iff in W.
    destruct (IH m s Hm H) as [(w & k & r & Hw & Hk & -> & Hr)|(-> & w & r & s' & Hw & -> & -> & Hr)].
    + left. exists (c :: w), k, r. split; [now constructor|]. split; [exact Hk|]. split; [reflexivity|exact Hr].
    + right. split; [reflexivity|]. exists (c :: w), r, s'. split; [now constructor|]. split; [reflexivity|]. split; [reflexivity|exact Hr].
  - assert (K: A (MS true) s l -> c = 34 -> exists w k r, ws w /\ jstring k /\ c :: l = w ++ k ++ r /\ A MC s r).
    { intros HK ->. destruct (string_rest (length l) l true s (le_n _) HK) as (b & r & Hb & -> & Hr).
      exists [], (34 :: b ++ [34]), r. split; [constructor|]. split; [exists b; tauto|]. split; [cbn; now rewrite <- app_assoc|exact Hr]. }
    destruct Hm as [-> | ->]; cbn in E; rewrite W in E.
    + destruct (Z.eqb_spec c 34) as [->|]; [|discriminate E]. injection E as <- <-. left. now apply K.
    + destruct (Z.eqb_spec c 125) as [->|].
      * destruct s as [|[|] s0]; try discriminate E. injection E as <- <-. right. split; [reflexivity|]. exists [], l, s0. split; [constructor|]. split; [reflexivity|]. split; [reflexivity|exact H].
      * destruct (Z.eqb_spec c 34) as [->|]; [|discriminate E]. injection E as <- <-. left. now apply K.
Qed.
(** Start of a value, from MV or MA. *)
Lemma value_start : forall l m s, m = MV \/ m = MA -> A m s l ->
  (exists w c r m' s', ws w /\ l = w ++ c :: r /\ start_value s c = Some (m', s') /\ A m' s' r) \/
  (m = MA /\ exists w r s', ws w /\ s = FArr :: s' /\ l = w ++ 93 :: r /\ A ME s' r).
Proof.
  induction l as [|c l IH]; intros m s Hm H; [apply A_nil in H; destruct H as [_ H]; destruct Hm as [-> | ->]; discriminate|].
  apply A_step in H. destruct H as (m' & s' & E & H). destruct (is_ws c) eqn:W.
  - assert (E': step (m, s) c = Some (m, s)) by (destruct Hm as [-> | ->]; cbn; rewrite W; reflexivity). rewrite E' in E. injection E as <- <-. apply ws_iff in W.
    destruct (IH m s Hm H) as [(w & d & r & m' & s' & Hw & -> & Hk & Hr)|(-> & w & r & s' & Hw & -> & -> & Hr)].
    + left. exists (c :: w), d, r, m', s'. split; [now constructor|]. split; [reflexivity|]. split; [exact Hk|exact Hr].
    + right. split; [reflexivity|]. exists (c :: w), r, s'. split; [now constructor|]. split; [reflexivity|]. split; [reflexivity|exact Hr].
  - destruct Hm as [-> | ->]; cbn in E; rewrite W in E.
    + left. exists [], c, l, m', s'. split; [constructor|]. split; [reflexivity|]. split; [exact E|exact H].
    + destruct (Z.eqb_spec c 93) as [->|].
      * destruct s as [|[|] s0]; try discriminate E. injection E as <- <-. right. split; [reflexivity|]. exists [], l, s0. split; [constructor|]. split; [reflexivity|]. split; [reflexivity|exact H].
      * left. exists [], c, l, m', s'. split; [constructor|]. split; [reflexivity|]. split; [exact E|exact H].
Qed.

Definition sound (n : nat) : Prop :=
  (forall l s c m' s', (length l < n)%nat -> start_value s c = Some (m', s') -> A m' s' l ->
     exists v r, value v /\ c :: l = v ++ r /\ A ME s r) /\
  (forall l s, (length l < n)%nat -> A MV (FArr :: s) l -> exists e r, elements e /\ l = e ++ 93 :: r /\ A ME s r) /\
  (forall l s, (length l < n)%nat -> A MK (FObj :: s) l -> exists o r, members o /\ l = o ++ 125 :: r /\ A ME s r).

Lemma sound_all : forall n, sound n.
Proof.
  induction n as [|n (IHv & IHe & IHo)]; [repeat split; intros; lia|].
  assert (V: forall l s c m' s', (length l < S n)%nat -> start_value s c = Some (m', s') -> A m' s' l -> exists v r, value v /\ c :: l = v ++ r /\ A ME s r).
  { intros l s c m' s' L E H. unfold start_value in E.
    destruct (Z.eqb_spec c 34) as [->|N34].
    { injection E as <- <-. destruct (string_rest (length l) l false s (le_n _) H) as (b & r & Hb & -> & Hr).
      exists (34 :: b ++ [34]), r. split; [apply v_str; exists b; tauto|]. split; [cbn; now rewrite <- app_assoc|exact Hr]. }
    destruct (Z.eqb_spec c 91) as [->|N91].
    { injection E as <- <-. 
      destruct (value_start l MA (FArr :: s) ltac:(tauto) H) as [(w & c & r & m' & s' & Hw & -> & Hc & Hr)|(_ & w & r & s' & Hw & Es & -> & Hr)].
      - rewrite app_length in L. cbn in L. destruct (IHv r (FArr :: s) c m' s' ltac:(lia) Hc Hr) as (v & r' & Hv & Ev & Hr').
        destruct (after_rest r' (FArr :: s) Hr') as (w' & t & Hw' & -> & [(t' & -> & Ht)|(t' & -> & Ht)]).
        + exists (91 :: (w ++ v ++ w') ++ [93]), t'. split; [apply v_arr; now constructor|]. split; [|exact Ht]. rewrite Ev. repeat (cbn [app]; rewrite <- ?app_assoc). reflexivity.
        + assert (Lr: length (c :: r) = length (v ++ w' ++ 44 :: t')) by now rewrite Ev. rewrite !app_length in Lr. cbn in Lr.
          pose proof (value_first v Hv) as (c0 & v0 & -> & _). cbn in Lr.
          destruct (IHe t' s ltac:(lia) Ht) as (e & r'' & He & -> & Hr'').
          exists (91 :: (w ++ (c0 :: v0) ++ w' ++ 44 :: e) ++ [93]), r''. split; [apply v_arr; now constructor|]. split; [|exact Hr''].
          rewrite Ev. repeat (cbn [app]; rewrite <- ?app_assoc). reflexivity.
      - injection Es as <-. exists (91 :: w ++ [93]), r. split; [now apply v_arr0|]. split; [cbn; now rewrite <- app_assoc|exact Hr]. }
    destruct (Z.eqb_spec c 123) as [->|N123].
    { injection E as <- <-.
      destruct (key_rest l MO (FObj :: s) ltac:(tauto) H) as [(w & k & r & Hw & Hk & -> & Hr)|(_ & w & r & s' & Hw & Es & -> & Hr)].
      - destruct (colon_rest r (FObj :: s) Hr) as (w1 & r1 & Hw1 & -> & Hr1).
        destruct (value_start r1 MV (FObj :: s) ltac:(tauto) Hr1) as [(w2 & c & r2 & m' & s' & Hw2 & -> & Hc & Hr2)|(D & _)]; [|discriminate D].
        repeat (rewrite app_length in L; cbn in L). destruct (IHv r2 (FObj :: s) c m' s' ltac:(lia) Hc Hr2) as (v & r' & Hv & Ev & Hr').
        destruct (after_rest r' (FObj :: s) Hr') as (w' & t & Hw' & -> & [(t' & -> & Ht)|(t' & -> & Ht)]).
        + exists (123 :: (w ++ k ++ w1 ++ 58 :: w2 ++ v ++ w') ++ [125]), t'. split; [apply v_obj; now constructor|]. split; [|exact Ht].
          rewrite Ev. repeat (cbn [app]; rewrite <- ?app_assoc). reflexivity.
        + assert (Lr: length (c :: r2) = length (v ++ w' ++ 44 :: t')) by now rewrite Ev. rewrite !app_length in Lr. cbn in Lr.
          pose proof (value_first v Hv) as (c0 & v0 & -> & _). cbn in Lr.
          destruct (IHo t' s ltac:(lia) Ht) as (o & r'' & Ho & -> & Hr'').
          exists (123 :: (w ++ k ++ w1 ++ 58 :: w2 ++ (c0 :: v0) ++ w' ++ 44 :: o) ++ [125]), r''. split; [apply v_obj; now constructor|]. split; [|exact Hr''].
          rewrite Ev. repeat (cbn [app]; rewrite <- ?app_assoc). reflexivity.
      - injection Es as <-. exists (123 :: w ++ [125]), r. split; [now apply v_obj0|]. split; [cbn; now rewrite <- app_assoc|exact Hr]. }
    destruct (Z.eqb_spec c 45) as [->|N45].
    { injection E as <- <-. destruct (number_rest 45 l s) as (v & r & Hv & Ev & Hr); [tauto|]. exists v, r. split; [now apply v_num|]. split; assumption. }
    destruct (Z.eqb_spec c 48) as [->|N48].
    { injection E as <- <-. destruct (number_rest 48 l s) as (v & r & Hv & Ev & Hr); [tauto|]. exists v, r. split; [now apply v_num|]. split; assumption. }
    destruct (is_dig c) eqn:D.
    { injection E as <- <-. apply dig_iff in D. unfold dig in D. destruct (number_rest c l s) as (v & r & Hv & Ev & Hr); [right; right; split; [lia|exact H]|]. exists v, r. split; [now apply v_num|]. split; assumption. }
    destruct (Z.eqb_spec c 116) as [->|].
    { injection E as <- <-. destruct (literal_rest [114; 117; 101] l s ltac:(discriminate) H) as (r & -> & Hr). exists jtrue, r. split; [constructor|]. split; [reflexivity|exact Hr]. }
    destruct (Z.eqb_spec c 102) as [->|].
    { injection E as <- <-. destruct (literal_rest [97; 108; 115; 101] l s ltac:(discriminate) H) as (r & -> & Hr). exists jfalse, r. split; [constructor|]. split; [reflexivity|exact Hr]. }
    destruct (Z.eqb_spec c 110) as [->|]; [|discriminate E].
    { injection E as <- <-. destruct (literal_rest [117; 108; 108] l s ltac:(discriminate) H) as (r & -> & Hr). exists jnull, r. split; [constructor|]. split; [reflexivity|exact Hr]. } }
  split; [exact V|]. split.
  - intros l s L H.
    destruct (value_start l MV (FArr :: s) ltac:(tauto) H) as [(w & c & r & m' & s' & Hw & -> & Hc & Hr)|(D & _)]; [|discriminate D].
    rewrite app_length in L. cbn in L. destruct (V r (FArr :: s) c m' s' ltac:(lia) Hc Hr) as (v & r' & Hv & Ev & Hr').
    destruct (after_rest r' (FArr :: s) Hr') as (w' & t & Hw' & -> & [(t' & -> & Ht)|(t' & -> & Ht)]).
    + exists (w ++ v ++ w'), t'. split; [now constructor|]. split; [|exact Ht]. rewrite Ev, <- !app_assoc. reflexivity.
    + assert (Lr: length (c :: r) = length (v ++ w' ++ 44 :: t')) by now rewrite Ev. rewrite !app_length in Lr. cbn in Lr.
      pose proof (value_first v Hv) as (c0 & v0 & -> & _). cbn in Lr.
      destruct (IHe t' s ltac:(lia) Ht) as (e & r'' & He & -> & Hr'').
      exists (w ++ (c0 :: v0) ++ w' ++ 44 :: e), r''. split; [now constructor|]. split; [|exact Hr''].
      rewrite Ev. repeat (cbn [app]; rewrite <- ?app_assoc). reflexivity.
  - intros l s L H.
    destruct (key_rest l MK (FObj :: s) ltac:(tauto) H) as [(w & k & r & Hw & Hk & -> & Hr)|(D & _)]; [|discriminate D].
    destruct (colon_rest r (FObj :: s) Hr) as (w1 & r1 & Hw1 & -> & Hr1).
    destruct (value_start r1 MV (FObj :: s) ltac:(tauto) Hr1) as [(w2 & c & r2 & m' & s' & Hw2 & -> & Hc & Hr2)|(D & _)]; [|discriminate D].
    repeat (rewrite app_length in L; cbn in L). destruct (V r2 (FObj :: s) c m' s' ltac:(lia) Hc Hr2) as (v & r' & Hv & Ev & Hr').
    destruct (after_rest r' (FObj :: s) Hr') as (w' & t & Hw' & -> & [(t' & -> & Ht)|(t' & -> & Ht)]).
    + exists (w ++ k ++ w1 ++ 58 :: w2 ++ v ++ w'), t'. split; [now constructor|]. split; [|exact Ht]. rewrite Ev. repeat (cbn [app]; rewrite <- ?app_assoc). reflexivity.
    + assert (Lr: length (c :: r2) = length (v ++ w' ++ 44 :: t')) by now rewrite Ev. rewrite !app_length in Lr. cbn in Lr.
      pose proof (value_first v Hv) as (c0 & v0 & -> & _). cbn in Lr.
      destruct (IHo t' s ltac:(lia) Ht) as (o & r'' & Ho & -> & Hr'').
      exists (w ++ k ++ w1 ++ 58 :: w2 ++ (c0 :: v0) ++ w' ++ 44 :: o), r''. split; [now constructor|]. split; [|exact Hr''].
      rewrite Ev. repeat (cbn [app]; rewrite <- ?app_assoc). reflexivity.
Qed.

Lemma accepts_json : forall l, accepts l = true -> json l.
Proof.
  intros l H. change (A MV [] l) in H.
  destruct (value_start l MV [] ltac:(tauto) H) as [(w & c & r & m' & s' & Hw & -> & Hc & Hr)|(D & _)]; [|discriminate D].
  destruct (proj1 (sound_all (S (length r))) r [] c m' s' ltac:(lia) Hc Hr) as (v & r' & Hv & Ev & Hr').
  destruct (after_rest r' [] Hr') as (w' & t & Hw' & -> & ->). rewrite app_nil_r in Ev.
  exists w, v, w'. split; [exact Hw|]. split; [exact Hv|]. split; [exact Hw'|]. now rewrite Ev.
Qed.

Theorem accepts_iff : forall l, accepts l = true <-> json l.
Proof. intro l. split; [apply accepts_json|apply json_accepts]. Qed.

(** A document that starts with a brace is an object. *)
Lemma json_brace : forall l, json (123 :: l) -> json_object (123 :: l).
Proof.
  intros l (a & v & b & Ha & Hv & Hb & E).
  assert (a = []) as ->. { destruct a as [|c a]; [reflexivity|]. injection E as <- _. inversion Ha as [|? ? W]; subst. unfold white in W. lia. }
  cbn [app] in E. destruct Hv as [| | |n (s & i & f & e & -> & Hs & Hi & _)|n (c & _ & ->)|w _|n _|w Hw|n Hn]; try discriminate E.
  - exfalso. destruct Hs as [-> | ->]; [|discriminate E]. destruct Hi as [->|(d & ds & -> & Hd & _)]; [discriminate E|]. injection E as E _. lia.
  - exists [], w, b. split; [constructor|]. split; [tauto|]. split; [exact Hb|exact E].
  - exists [], n, b. split; [constructor|]. split; [tauto|]. split; [exact Hb|exact E].
Qed.
