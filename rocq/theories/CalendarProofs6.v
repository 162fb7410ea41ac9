(** Printing, and the calendar properties put together. *)
From Coq Require Import ZArith List Bool Lia Reals Lra.
From Flocq Require Import Core IEEE754.BinarySingleNaN.
From Verif Require Import CLib FloatModel FloatLemmas CalendarModel CalendarSpec CalendarProofs1 CalendarProofs2 CalendarProofs3 CalendarProofs4 CalendarProofs5.
Import ListNotations.
Open Scope R_scope.
Ltac Zify.zify_post_hook ::= Z.div_mod_to_equations.

Definition eql (a b : list Z) : bool := if list_eq_dec Z.eq_dec a b then true else false.
Lemma eql_ok : forall a b, eql a b = true -> a = b.
Proof. intros a b. unfold eql. now destruct (list_eq_dec Z.eq_dec a b). Qed.

Lemma years_checked : upto 9000 (fun y => eql (print_int 4 1 y) (four y)) 1000%Z = true.
Proof. vm_compute. reflexivity. Qed.
Lemma year_length_checked : upto 1000 (fun y => Nat.eqb (length (print_int 4 1 y)) 4) 0%Z = true.
Proof. vm_compute. reflexivity. Qed.
Lemma pairs_checked : upto 100 (fun n => eql (print_int 2 2 n) (two n)) 0%Z = true.
Proof. vm_compute. reflexivity. Qed.

Lemma print_year : forall y, (1000 <= y <= 9999)%Z -> print_int 4 1 y = four y.
Proof. intros y H. apply eql_ok. apply (upto_ok _ _ _ years_checked). lia. Qed.
Lemma print_pair : forall n, (0 <= n <= 99)%Z -> print_int 2 2 n = two n.
Proof. intros n H. apply eql_ok. apply (upto_ok _ _ _ pairs_checked). lia. Qed.
Lemma print_year_length : forall y, (0 <= y <= 9999)%Z -> length (print_int 4 1 y) = 4%nat.
Proof.
  intros y H. destruct (Z.lt_ge_cases y 1000).
  - apply Nat.eqb_eq. apply (upto_ok _ _ _ year_length_checked). lia.
  - rewrite print_year by lia. reflexivity.
Qed.

Lemma day_max : forall y m d, valid_date (y, m, d) -> (1 <= d <= 31)%Z.
Proof.
  intros y m d [Hm Hd]. unfold month_length in Hd.
  assert (M: (m = 1 \/ m = 2 \/ m = 3 \/ m = 4 \/ m = 5 \/ m = 6 \/ m = 7 \/ m = 8 \/ m = 9 \/ m = 10 \/ m = 11 \/ m = 12)%Z) by lia.
  repeat (destruct M as [-> |M]; [try destruct (leap y); lia|]). subst; lia.
Qed.

Lemma print_date_parts : forall y m d h mm s, valid_date (y, m, d) -> valid_time h mm s ->
  print_date y m d h mm s = print_int 4 1 y ++ skipn 4 (iso (y, m, d) h mm s).
Proof.
  intros y m d h mm s V (Hh & Hmm & Hs). pose proof (day_max _ _ _ V). destruct V as [Hm _].
  unfold print_date. rewrite !print_pair by lia. reflexivity.
Qed.

Lemma date_formula_bounds : forall n, (-678941 <= n <= 2973483)%Z -> (0 <= fst (fst (date_formula n)) <= 9999)%Z.
Proof.
  intros n H. destruct (date_valid_inv n) as (V & E & _). destruct (date_formula n) as [[y m] d]. cbn [fst].
  destruct V as [Hm Hd].
  assert (Hd': (1 <= d <= 31)%Z) by (apply (day_max y m d); split; assumption).
  assert (M: (m = 1 \/ m = 2 \/ m = 3 \/ m = 4 \/ m = 5 \/ m = 6 \/ m = 7 \/ m = 8 \/ m = 9 \/ m = 10 \/ m = 11 \/ m = 12)%Z) by lia.
  clear Hm Hd. unfold day_formula in E.
  repeat (destruct M as [-> |M]; [cbn [Z.leb Z.compare Pos.compare Pos.compare_cont] in E; lia|]). subst m. cbn [Z.leb Z.compare Pos.compare Pos.compare_cont] in E. lia.
Qed.

Lemma date_formula_1000 : forall n, (-313698 <= n)%Z -> (1000 <= fst (fst (date_formula n)))%Z.
Proof.
  intros n H. destruct (date_valid_inv n) as (V & E & _). destruct (date_formula n) as [[y m] d]. cbn [fst].
  destruct V as [Hm Hd].
  assert (Hd': (1 <= d <= 31)%Z) by (apply (day_max y m d); split; assumption).
  assert (M: (m = 1 \/ m = 2 \/ m = 3 \/ m = 4 \/ m = 5 \/ m = 6 \/ m = 7 \/ m = 8 \/ m = 9 \/ m = 10 \/ m = 11 \/ m = 12)%Z) by lia.
  clear Hm Hd. unfold day_formula in E.
  repeat (destruct M as [-> |M]; [cbn [Z.leb Z.compare Pos.compare Pos.compare_cont] in E; lia|]). subst m. cbn [Z.leb Z.compare Pos.compare Pos.compare_cont] in E. lia.
Qed.

Lemma mjd2date_core : forall mjd, fin mjd -> -678940 <= toR mjd <= 2973483.999991 ->
  exists n f y m d h mi s,
    mjd2date mjd = Ok (Some (print_date y m d h mi s)) /\ length (print_date y m d h mi s) = 19%nat /\
    date_formula n = (y, m, d) /\ valid_date (y, m, d) /\ (0 <= y <= 9999)%Z /\ valid_time h mi s /\
    fin f /\ 0 <= toR f < 1 /\ Rabs (IZR n + toR f - rounded mjd) <= / 1000000000 /\
    (1 <= rounded mjd -> IZR n + toR f = rounded mjd) /\
    IZR (second_of_day h mi s) <= 86400 * toR f + 6.5 / 1000000000000 /\
    86400 * toR f < IZR (second_of_day h mi s) + 1 + 6.5 / 1000000000000.
Proof.
  intros mjd F B. destruct (split_ok mjd F ltac:(lra)) as (n & f & E & Ff & Bf & A & X).
  destruct (clock_close f Ff Bf) as (h & mi & s & C & _ & U & L).
  pose proof (clock_range f h mi s Ff Bf C) as R.
  assert (BA: Rabs (toR mjd) <= 4000000) by (apply Rabs_le; lra).
  destruct (rounded_R mjd F BA) as [_ BM]. apply Rabs_le_inv in BM. pose proof A as A'. apply Rabs_le_inv in A'.
  assert (Hn: (-678941 <= n <= 2973483)%Z).
  { split; [|assert (n < 2973484)%Z; [|lia]].
    - assert (-678942 < n)%Z; [|lia]. apply lt_IZR. lra.
    - apply lt_IZR. lra. }
  destruct (date_valid_inv n) as (V & _). pose proof (date_formula_bounds n Hn) as Y.
  destruct (date_formula n) as [[y m] d] eqn:D. cbn [fst] in Y.
  assert (T: valid_time h mi s) by exact R.
  assert (Len: length (print_date y m d h mi s) = 19%nat).
  { rewrite print_date_parts by assumption. rewrite app_length, print_year_length by lia. reflexivity. }
  exists n, f, y, m, d, h, mi, s.
  split; [|repeat split; try assumption; try tauto; try (now apply V)].
  unfold mjd2date. rewrite E. cbn [bind]. rewrite gregorian_date by lia. rewrite D, C. cbn [bind]. rewrite Len. reflexivity.
Qed.

(** C15: the date-time printed is the whole second nearest to the instant (a tie may go either way). *)
Lemma mjd2date_nearest : forall mjd : b64, is_finite mjd = true -> -313697 <= B2R mjd <= 2973483.9999 ->
  exists n t h mi s, mjd2date mjd = Ok (Some (iso t h mi s)) /\ day_number n t /\ valid_time h mi s /\
    Rabs (86400 * B2R mjd - (86400 * IZR n + IZR (second_of_day h mi s))) <= 0.5 + / 5000.
Proof.
  intros mjd F B. destruct (mjd2date_core mjd F ltac:(fold (toR mjd); lra)) as
    (n & f & y & m & d & h & mi & s & E & _ & D & V & Y & T & Ff & Bf & A & _ & U & L).
  exists n, (y, m, d), h, mi, s.
  assert (BA: Rabs (toR mjd) <= 4000000) by (apply Rabs_le; fold (toR mjd) in B; lra).
  destruct (rounded_R mjd F BA) as [_ BM]. apply Rabs_le_inv in BM. apply Rabs_le_inv in A.
  split; [|split; [|split; [exact T|]]].
  - rewrite E, print_date_parts by assumption.
    assert (Y1: (1000 <= y)%Z).
    { pose proof (date_formula_1000 n) as Q. rewrite D in Q. apply Q.
      assert (-313699 < n)%Z; [|lia]. apply lt_IZR. fold (toR mjd) in B. lra. }
    rewrite print_year by lia. reflexivity.
  - rewrite <- D. apply day_number_date.
  - fold (toR mjd). apply Rabs_le. lra.
Qed.

(** C15, exact form: from MJD 256 on the fields are the floor of the instant advanced by half a second in double
    arithmetic, or one second less when that instant is a whole second. *)
Lemma mjd2date_floor : forall mjd : b64, is_finite mjd = true -> 257 <= B2R mjd <= 2973483.9999 ->
  exists n t h mi s, mjd2date mjd = Ok (Some (iso t h mi s)) /\ day_number n t /\ valid_time h mi s /\
    IZR n <= B2R (fadd mjd HALF_S_IN_DAYS) < IZR n + 1 /\
    IZR (second_of_day h mi s) <= 86400 * (B2R (fadd mjd HALF_S_IN_DAYS) - IZR n) <= IZR (second_of_day h mi s) + 1.
Proof.
  intros mjd F B. destruct (mjd2date_core mjd F ltac:(fold (toR mjd); lra)) as
    (n & f & y & m & d & h & mi & s & E & _ & D & V & Y & T & Ff & Bf & A & X & U & L).
  exists n, (y, m, d), h, mi, s.
  assert (BA: Rabs (toR mjd) <= 4000000) by (apply Rabs_le; fold (toR mjd) in B; lra).
  destruct (rounded_R mjd F BA) as [_ BM]. apply Rabs_le_inv in BM. fold (toR mjd) in B.
  specialize (X ltac:(lra)). fold (toR (fadd mjd HALF_S_IN_DAYS)). fold (rounded mjd).
  split; [|split; [|split; [exact T|split; [lra|]]]].
  - rewrite E, print_date_parts by assumption.
    assert (Y1: (1000 <= y)%Z).
    { pose proof (date_formula_1000 n) as Q. rewrite D in Q. apply Q.
      assert (-1 < n)%Z; [|lia]. apply lt_IZR. lra. }
    rewrite print_year by lia. reflexivity.
  - rewrite <- D. apply day_number_date.
  - rewrite <- X.
    destruct (b64_fx_le (fadd mjd HALF_S_IN_DAYS) 8 (-44)) as [a Ha]; [|lia|lia|].
    { fold (rounded mjd). rewrite Rabs_pos_eq by lra. change (bpow radix2 8) with 256. lra. }
    fold (rounded mjd) in Ha. unfold fx in Ha. rewrite <- X in Ha.
    change (bpow radix2 (-44)) with (/ 17592186044416) in Ha.
    set (S := second_of_day h mi s) in *.
    (* 86400 f is a multiple of 2^-37 *)
    assert (Q: 137438953472 * (86400 * (IZR n + toR f - IZR n)) = IZR (675 * (a - 17592186044416 * n))).
    { rewrite mult_IZR, minus_IZR, mult_IZR. lra. }
    set (w := (675 * (a - 17592186044416 * n))%Z) in *. clearbody w.
    assert (W1: (137438953472 * S - 1 < w)%Z).
    { apply lt_IZR. rewrite minus_IZR, mult_IZR. lra. }
    assert (W2: (w < 137438953472 * (S + 1) + 1)%Z).
    { apply lt_IZR. rewrite plus_IZR, mult_IZR, plus_IZR. lra. }
    assert (W1': IZR (137438953472 * S) <= IZR w) by (apply IZR_le; lia).
    assert (W2': IZR w <= IZR (137438953472 * (S + 1))) by (apply IZR_le; lia).
    rewrite mult_IZR in W1', W2'. rewrite plus_IZR in W2'. lra.
Qed.

(** C16 *)
Lemma date_roundtrip : forall n t h mi s rest, day_number n t -> (1000 <= fst (fst t) <= 9999)%Z -> valid_time h mi s ->
  exists mjd, date2mjd_nf (iso t h mi s ++ rest) = (0%Z, mjd) /\ mjd2date mjd = Ok (Some (iso t h mi s)).
Proof.
  intros n t h mi s rest HN Hy HT.
  destruct (date2mjd_ok n t h mi s rest HN ltac:(lia) HT) as (k & mjd & E1 & F & Hk & Hm).
  exists mjd. split; [exact E1|].
  pose proof HN as HN'. apply day_number_iff in HN'. destruct HN' as [HV En].
  assert (Nb: (-313698 <= n <= 2973483)%Z).
  { destruct t as [[y m] d]. cbn [fst] in Hy. destruct HV as [Hm' Hd'].
    assert (Hd'': (1 <= d <= 31)%Z) by (apply (day_max y m d); split; assumption).
    assert (Hd3: (d <= month_length y m)%Z) by lia.
    assert (M: (m = 1 \/ m = 2 \/ m = 3 \/ m = 4 \/ m = 5 \/ m = 6 \/ m = 7 \/ m = 8 \/ m = 9 \/ m = 10 \/ m = 11 \/ m = 12)%Z) by lia.
    clear Hm' Hd'. unfold day_formula in En. clear - En Hy Hd'' M.
    repeat (destruct M as [-> |M]; [cbn [Z.leb Z.compare Pos.compare Pos.compare_cont] in En; lia|]). subst m. cbn [Z.leb Z.compare Pos.compare Pos.compare_cont] in En. lia. }
  assert (Nb': -313698 <= IZR n <= 2973483) by (split; [apply (IZR_le (-313698))|apply (IZR_le _ 2973483)]; lia).
  apply Rabs_le_inv in Hm. change (IZR (2 ^ 24)) with 16777216 in Hm. fold (toR mjd) in Hm.
  set (S := second_of_day h mi s) in *.
  assert (SB: (0 <= S <= 86399)%Z) by (unfold S, second_of_day; destruct HT as (H1 & H2 & H3); lia).
  assert (K: 0.864 * IZR k - 0.432 <= IZR S <= 0.864 * IZR k + 0.432).
  { assert (K1: (125 * S <= 108 * k + 54)%Z) by lia. assert (K2: (108 * k - 54 <= 125 * S)%Z) by lia.
    apply IZR_le in K1, K2. rewrite plus_IZR, !mult_IZR in K1. rewrite minus_IZR, !mult_IZR in K2. lra. }
  assert (Kb: -1 <= IZR k <= 100001).
  { assert (0 <= IZR S <= 86399) by (split; [apply (IZR_le 0)|apply (IZR_le _ 86399)]; lia). lra. }
  assert (Ku: IZR k <= 99999).
  { apply IZR_le. clear - Hk SB. lia. }
  destruct (mjd2date_core mjd F ltac:(lra)) as
    (n' & f & y & m & d & h' & mi' & s' & E & _ & D & V & Y & T & Ff & Bf & A & _ & U & L).
  assert (BA: Rabs (toR mjd) <= 4000000) by (apply Rabs_le; lra).
  destruct (rounded_R mjd F BA) as [_ BM]. apply Rabs_le_inv in BM. apply Rabs_le_inv in A.
  set (S' := second_of_day h' mi' s') in *.
  assert (SB': (0 <= S' <= 86399)%Z) by (unfold S', second_of_day; destruct T as (H1 & H2 & H3); lia).
  assert (Q: (86400 * n + S = 86400 * n' + S')%Z).
  { assert (Q1: (86400 * n + S < 86400 * n' + S' + 1)%Z) by (apply lt_IZR; rewrite !plus_IZR, !mult_IZR; lra).
    assert (Q2: (86400 * n' + S' < 86400 * n + S + 1)%Z) by (apply lt_IZR; rewrite !plus_IZR, !mult_IZR; lra).
    lia. }
  assert (Qn: n' = n) by lia. assert (QS: S' = S) by lia. subst n'.
  assert (t = (y, m, d)).
  { apply (day_number_fun n); [exact HN|]. rewrite <- D. apply day_number_date. }
  subst t. cbn [fst] in Hy.
  unfold S, S', second_of_day in QS. destruct T as (H1 & H2 & H3). destruct HT as (H4 & H5 & H6).
  assert (h' = h) by lia. assert (mi' = mi) by lia. assert (s' = s) by lia. subst h' mi' s'.
  rewrite E, print_date_parts; [|assumption|repeat split; lia]. rewrite print_year by lia. reflexivity.
Qed.

(** C17: years 0 to 9999 fit. *)
Lemma mjd2date_fits : forall mjd : b64, is_finite mjd = true -> -678940 <= B2R mjd <= 2973483.9999 ->
  exists text, mjd2date mjd = Ok (Some text) /\ length text = 19%nat.
Proof.
  intros mjd F B. destruct (mjd2date_core mjd F ltac:(fold (toR mjd) in B; lra)) as (n & f & y & m & d & h & mi & s & E & Len & _).
  eauto.
Qed.

(** Arguments out of the accepted range give the null pointer, and nothing else does. *)
Lemma mjd2date_null : forall mjd : b64, mjd2date mjd = Ok None <->
  flt (fadd JD_OFF mjd) DJMIN = true \/ flt DJMAX (fadd JD_OFF mjd) = true.
Proof.
  intro mjd. unfold mjd2date, mjd_split. rewrite <- orb_true_iff.
  destruct (flt (fadd JD_OFF mjd) DJMIN || flt DJMAX (fadd JD_OFF mjd)); [cbn [bind]; tauto|].
  split; [|discriminate]. intro H. exfalso.
  destruct (if fle mjd JD_OFF then _ else _) as [d1 d2].
  cbv zeta in H.
  match type of H with context [to_long ?x] => destruct (to_long x) as [j|]; [|discriminate H] end.
  cbn [bind] in H. destruct (gregorian _) as [[y m] d].
  match type of H with context [clock ?x] => destruct (clock x) as [[[h mi] s]|]; [|discriminate H] end.
  cbn [bind] in H. destruct (_ <? 20)%nat; discriminate H.
Qed.

Lemma day_number_total : forall t, valid_date t -> exists n, day_number n t /\ forall n', day_number n' t -> n' = n.
Proof.
  intros t V. exists (day_formula t). split; [now apply day_number_iff|].
  intros n' H. apply day_number_iff in H. tauto.
Qed.
