(** The integer calendar formulas are the Gregorian calendar. *)
From Coq Require Import ZArith List Bool Lia.
From Verif Require Import CLib FloatModel CalendarModel CalendarSpec.
Import ListNotations.
Open Scope Z_scope.
Ltac Zify.zify_post_hook ::= Z.div_mod_to_equations.

(** Day formula with floor divisions, valid for every year. *)
Definition day_formula (t : date) : Z :=
  let '(y, m, d) := t in
  let '(y, m) := if m <=? 2 then (y - 1, m + 12) else (y, m) in
  2 - y / 100 + y / 100 / 4 + 1461 * y / 4 + 306001 * (m + 1) / 10000 + d - 679006.

(** Inverse, floor divisions. *)
Definition date_formula (n : Z) : date :=
  let l := n + 2400001 + 68569 in
  let n := (4 * l) / 146097 in
  let l := l - (146097 * n + 3) / 4 in
  let i := (4000 * (l + 1)) / 1461001 in
  let l := l - ((1461 * i) / 4 - 31) in
  let k := (80 * l) / 2447 in
  let id := l - (2447 * k) / 80 in
  let l := k / 11 in
  (100 * (n - 49) + i + l, k + 2 - 12 * l, id).

(** Finite checks over an interval. *)
Fixpoint upto (n : positive) (P : Z -> bool) (start : Z) : bool :=
  match n with
  | xH => P start
  | xO n' => upto n' P start && upto n' P (start + Zpos n')
  | xI n' => P start && upto n' P (start + 1) && upto n' P (start + 1 + Zpos n')
  end.
Lemma upto_ok : forall n P s, upto n P s = true -> forall k, s <= k < s + Zpos n -> P k = true.
Proof.
  induction n as [n IH|n IH|]; intros P s H k Hk; cbn [upto] in H.
  - apply andb_true_iff in H. destruct H as [H H2]. apply andb_true_iff in H. destruct H as [H0 H1].
    destruct (Z.eq_dec k s) as [->|]; [assumption|].
    destruct (Z_lt_le_dec k (s + 1 + Zpos n)); [apply (IH _ _ H1)|apply (IH _ _ H2)]; lia.
  - apply andb_true_iff in H. destruct H as [H1 H2].
    destruct (Z_lt_le_dec k (s + Zpos n)); [apply (IH _ _ H1)|apply (IH _ _ H2)]; lia.
  - assert (k = s) by lia. subst. assumption.
Qed.

Lemma months : forall m, 1 <= m <= 12 ->
  m = 1 \/ m = 2 \/ m = 3 \/ m = 4 \/ m = 5 \/ m = 6 \/ m = 7 \/ m = 8 \/ m = 9 \/ m = 10 \/ m = 11 \/ m = 12.
Proof. intros; lia. Qed.

Lemma leap_spec : forall y, if leap y then y mod 4 = 0 /\ (y mod 100 <> 0 \/ y mod 400 = 0)
  else y mod 4 <> 0 \/ (y mod 100 = 0 /\ y mod 400 <> 0).
Proof.
  intro y. unfold leap. destruct (y mod 4 =? 0) eqn:A; destruct (y mod 100 =? 0) eqn:B; destruct (y mod 400 =? 0) eqn:C; cbn;
    rewrite ?Z.eqb_eq, ?Z.eqb_neq in *; tauto.
Qed.

(** The century, the year of the century and the day of the year (from 1 March) are recovered. *)
Lemma century_core : forall c E, 0 <= E <= 36524 -> (E = 36524 -> (c + 1) mod 4 = 0) ->
  4 * (36524 * c + c / 4 + 1789689 + E) / 146097 = c + 49.
Proof.
  intros c E B B'.
  symmetry. apply Z.div_unique with (r := 4 * (36524 * c + c / 4 + 1789689 + E) - 146097 * (c + 49)); lia.
Qed.
Lemma year_core : forall yy doy, 0 <= yy < 100 -> 0 <= doy <= 365 -> (doy = 365 -> yy mod 4 = 3) ->
  4000 * (1461 * yy / 4 + doy + 1) / 1461001 = yy.
Proof.
  intros yy doy Hy Hd Hl.
  symmetry. apply Z.div_unique with (r := 4000 * (1461 * yy / 4 + doy + 1) - 1461001 * yy); lia.
Qed.

(** [date_formula] by century, year and day of the year. *)
Lemma date_parts : forall c yy doy, 0 <= yy < 100 -> 0 <= doy <= 365 ->
  (doy = 365 -> yy mod 4 = 3 /\ (yy = 99 -> (c + 1) mod 4 = 0)) ->
  date_formula (36524 * c + c / 4 + 1461 * yy / 4 + doy - 678881) =
  let k := 80 * (doy + 31) / 2447 in
  (100 * c + yy + k / 11, k + 2 - 12 * (k / 11), doy + 31 - 2447 * k / 80).
Proof.
  intros c yy doy Hy Hd Hl. unfold date_formula.
  set (E := 1461 * yy / 4 + doy).
  replace (36524 * c + c / 4 + 1461 * yy / 4 + doy - 678881 + 2400001 + 68569) with (36524 * c + c / 4 + 1789689 + E) by (unfold E; lia).
  rewrite century_core by (unfold E; lia).
  replace (36524 * c + c / 4 + 1789689 + E - (146097 * (c + 49) + 3) / 4) with E by lia.
  assert (Y: 4000 * (E + 1) / 1461001 = yy) by (apply year_core; lia).
  rewrite Y.
  replace (E - (1461 * yy / 4 - 31)) with (doy + 31) by (unfold E; lia).
  cbv zeta. f_equal. f_equal. lia.
Qed.

Lemma day_parts : forall y m d, 1 <= m <= 12 ->
  let '(y', m') := if m <=? 2 then (y - 1, m + 12) else (y, m) in
  day_formula (y, m, d) = 36524 * (y' / 100) + (y' / 100) / 4 + 1461 * (y' mod 100) / 4 + (306001 * (m' + 1) / 10000 - 123 + d) - 678881.
Proof.
  intros y m d Hm. unfold day_formula. destruct (m <=? 2).
  - set (y' := y - 1). replace (1461 * y' / 4) with (36525 * (y' / 100) + 1461 * (y' mod 100) / 4); lia.
  - replace (1461 * y / 4) with (36525 * (y / 100) + 1461 * (y mod 100) / 4); lia.
Qed.

Lemma date_of_day : forall t, valid_date t -> date_formula (day_formula t) = t.
Proof.
  intros [[y m] d] [Hm Hd]. pose proof (day_parts y m d Hm) as P. pose proof (leap_spec y) as LS.
  apply months in Hm.
  repeat (destruct Hm as [Hm|Hm]); subst m; unfold month_length in Hd; cbn [Z.leb Z.compare Pos.compare Pos.compare_cont] in P; rewrite P;
  match goal with |- context [?a * (?b + 1) / 10000] => let v := eval vm_compute in (a * (b + 1) / 10000) in change (a * (b + 1) / 10000) with v end;
  (rewrite date_parts; [| lia | try destruct (leap y); lia | try destruct (leap y); lia]); cbv zeta.
  all: match goal with |- context [80 * ?x / 2447] => 
     let k := fresh "k" in set (k := 80 * x / 2447) end.
  all: match goal with k := 80 * ?x / 2447 |- (_, ?a, _) = (_, ?m, _) => 
     assert (Hk: k = (if m <=? 2 then m + 10 else m - 2)) by (cbn [Z.leb Z.compare Pos.compare Pos.compare_cont]; unfold k; try destruct (leap y); lia);
     rewrite Hk; clear k Hk end.
  all: cbn [Z.leb Z.compare Pos.compare Pos.compare_cont].
  all: apply f_equal2; [apply f_equal2|]; try reflexivity; try lia.
Qed.

Lemma tomorrow_valid : forall t, valid_date t -> valid_date (tomorrow t).
Proof.
  intros [[y m] d] [Hm Hd]. unfold tomorrow, valid_date.
  destruct (Z.ltb_spec d (month_length y m)); [split; lia|].
  destruct (Z.ltb_spec m 12).
  - split; [lia|]. apply months in Hm. unfold month_length.
    repeat (destruct Hm as [Hm|Hm]); subst m; cbn [Z.add Pos.add Pos.succ]; try destruct (leap y); lia.
  - split; [lia|]. unfold month_length. lia.
Qed.

Lemma day_tomorrow : forall t, valid_date t -> day_formula (tomorrow t) = day_formula t + 1.
Proof.
  intros [[y m] d] [Hm Hd]. unfold tomorrow. pose proof (leap_spec y) as LS.
  destruct (Z.ltb_spec d (month_length y m)) as [L|L].
  - unfold day_formula. destruct (m <=? 2); lia.
  - assert (D: d = month_length y m) by lia. subst d. clear Hd L.
    apply months in Hm.
    repeat (destruct Hm as [Hm|Hm]); subst m; unfold day_formula, month_length;
      cbn [Z.add Pos.add Pos.succ Z.leb Z.ltb Z.compare Pos.compare Pos.compare_cont];
      try destruct (leap y); lia.
Qed.

Definition yesterday (t : date) : date :=
  let '(y, m, d) := t in
  if 1 <? d then (y, m, d - 1)
  else if 1 <? m then (y, m - 1, month_length y (m - 1)) else (y - 1, 12, 31).

Lemma yesterday_valid : forall t, valid_date t -> valid_date (yesterday t) /\ tomorrow (yesterday t) = t.
Proof.
  intros [[y m] d] [Hm Hd]. unfold yesterday.
  destruct (Z.ltb_spec 1 d) as [L|L].
  - split; [unfold valid_date; lia|]. unfold tomorrow.
    replace (d - 1 <? month_length y m) with true by (symmetry; apply Z.ltb_lt; lia). f_equal. lia.
  - assert (D: d = 1) by lia. subst d. destruct (Z.ltb_spec 1 m) as [L'|L'].
    + assert (P: 1 <= month_length y (m - 1)).
      { apply months in Hm. unfold month_length. repeat (destruct Hm as [Hm|Hm]); subst m; cbn [Z.sub Z.add Z.opp Z.pos_sub Pos.pred_double]; try destruct (leap y); lia. }
      split; [unfold valid_date; lia|]. unfold tomorrow. rewrite Z.ltb_irrefl.
      replace (m - 1 <? 12) with true by (symmetry; apply Z.ltb_lt; lia). f_equal. f_equal. lia.
    + assert (M: m = 1) by lia. subst m. split; [unfold valid_date, month_length; lia|].
      unfold tomorrow, month_length. cbn [Z.ltb Z.compare Pos.compare Pos.compare_cont]. f_equal. f_equal. lia.
Qed.

(** Every day number is the number of a valid date. *)
Lemma day_surjective : forall n, exists t, valid_date t /\ day_formula t = n.
Proof.
  intro n. destruct (Z.le_ge_cases 0 n) as [H|H].
  - revert n H. apply natlike_ind.
    + exists (1858, 11, 17). split; [unfold valid_date, month_length; lia|reflexivity].
    + intros n _ (t & V & E). exists (tomorrow t). split; [now apply tomorrow_valid|]. rewrite day_tomorrow by assumption. lia.
  - replace n with (- (- n)) by lia. assert (P: 0 <= - n) by lia. generalize dependent (- n). clear n H. apply natlike_ind.
    + exists (1858, 11, 17). split; [unfold valid_date, month_length; lia|reflexivity].
    + intros n _ (t & V & E). exists (yesterday t). destruct (yesterday_valid t V) as [V' T].
      split; [assumption|]. rewrite <- T, day_tomorrow in E by assumption. lia.
Qed.

Lemma date_valid_inv : forall n, valid_date (date_formula n) /\ day_formula (date_formula n) = n /\
  tomorrow (date_formula n) = date_formula (n + 1).
Proof.
  intro n. destruct (day_surjective n) as (t & V & E). subst n. rewrite date_of_day by assumption.
  split; [assumption|]. split; [reflexivity|]. rewrite <- day_tomorrow by assumption.
  symmetry. apply date_of_day. now apply tomorrow_valid.
Qed.

Lemma day_zero_ok : day_formula (1858, 11, 17) = 0. Proof. reflexivity. Qed.

(** The relation is the formula. *)
Lemma day_number_formula : forall n t, day_number n t -> valid_date t /\ n = day_formula t.
Proof.
  induction 1 as [|n t H [V E]|n t V H [_ E]].
  - split; [cbn; lia|reflexivity].
  - split; [now apply tomorrow_valid|]. rewrite day_tomorrow by assumption. lia.
  - split; [assumption|]. rewrite day_tomorrow in E by assumption. lia.
Qed.

Lemma day_number_date : forall n, day_number n (date_formula n).
Proof.
  assert (P: forall k : nat, day_number (Z.of_nat k) (date_formula (Z.of_nat k))).
  { induction k as [|k IH].
    - replace (date_formula (Z.of_nat 0)) with (1858, 11, 17) by reflexivity. apply day_zero.
    - rewrite Nat2Z.inj_succ. unfold Z.succ. destruct (date_valid_inv (Z.of_nat k)) as (_ & _ & <-). now apply day_after. }
  assert (Q: forall k : nat, day_number (- Z.of_nat k) (date_formula (- Z.of_nat k))).
  { induction k as [|k IH].
    - replace (date_formula (- Z.of_nat 0)) with (1858, 11, 17) by reflexivity. apply day_zero.
    - replace (- Z.of_nat (S k)) with (- Z.of_nat k - 1) by lia.
      destruct (date_valid_inv (- Z.of_nat k - 1)) as (V & _ & T).
      replace (- Z.of_nat k - 1 + 1) with (- Z.of_nat k) in T by lia.
      apply day_before; [exact V|]. now rewrite T. }
  intro n. destruct (Z_le_dec 0 n).
  - specialize (P (Z.to_nat n)). now rewrite Z2Nat.id in P.
  - specialize (Q (Z.to_nat (- n))). rewrite Z2Nat.id in Q by lia. now replace (- - n) with n in Q by lia.
Qed.

Lemma day_number_iff : forall n t, day_number n t <-> valid_date t /\ n = day_formula t.
Proof.
  intros n t. split; [apply day_number_formula|]. intros [V ->].
  rewrite <- (date_of_day t V) at 2. apply day_number_date.
Qed.

Lemma day_number_fun : forall n t t', day_number n t -> day_number n t' -> t = t'.
Proof.
  intros n t t' H H'. apply day_number_iff in H, H'. destruct H as [V ->], H' as [V' E].
  rewrite <- (date_of_day t V), <- (date_of_day t' V'). now rewrite E.
Qed.

(** The C formulas, for the arguments that occur. *)
Lemma gregorian_date : forall n, -2400001 - 68569 <= n -> gregorian (n + 2400001) = date_formula n.
Proof.
  intros n Hn. unfold gregorian, date_formula.
  set (l := n + 2400001 + 68569). assert (Hl: 0 <= l) by (unfold l; lia).
  rewrite (Z.quot_div_nonneg (4 * l) 146097) by lia.
  set (N := 4 * l / 146097). assert (HN: 0 <= N) by (unfold N; lia).
  rewrite (Z.quot_div_nonneg (146097 * N + 3) 4) by lia.
  set (l1 := l - (146097 * N + 3) / 4).
  assert (Hl1: 0 <= l1) by (unfold l1, N; lia).
  rewrite (Z.quot_div_nonneg (4000 * (l1 + 1)) 1461001) by lia.
  set (i := 4000 * (l1 + 1) / 1461001). assert (Hi: 0 <= i) by (unfold i; lia).
  rewrite (Z.quot_div_nonneg (1461 * i) 4) by lia.
  set (l2 := l1 - (1461 * i / 4 - 31)). assert (Hl2: 0 <= l2) by (unfold l2, i; lia).
  rewrite (Z.quot_div_nonneg (80 * l2) 2447) by lia.
  set (k := 80 * l2 / 2447). assert (Hk: 0 <= k) by (unfold k; lia).
  rewrite (Z.quot_div_nonneg (2447 * k) 80), (Z.quot_div_nonneg k 11) by lia.
  reflexivity.
Qed.

Lemma gregorian_day_number : forall n, -2400001 - 68569 <= n -> day_number n (gregorian (n + 2400001)).
Proof. intros n Hn. rewrite gregorian_date by assumption. apply day_number_date. Qed.
