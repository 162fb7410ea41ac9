(** Texts put together from members and elements. *)
From Coq Require Import String Ascii ZArith List Bool Lia Reals Lra.
From Flocq Require Import Core IEEE754.BinarySingleNaN.
From Verif Require Import CLib FloatModel FloatLemmas IoModel JsonSpec JsonAcceptor JsonProofs JsonText DatefSpec JsonDataSpec CalendarProofs9.
Import ListNotations.
Open Scope Z_scope.

Definition shown (l : list Z) (t : tree) : Prop := exists a v b, ws a /\ ws b /\ l = a ++ v ++ b /\ shows v t.
Lemma ws_app a b : ws a -> ws b -> ws (a ++ b).
Proof. intros A B. apply Forall_app. tauto. Qed.
Lemma ws_blank a : ws a -> ws (32 :: a). Proof. intros A. constructor; [now left|exact A]. Qed.
Lemma shown_blank l t : shown l t -> shown (32 :: l) t.
Proof. intros (a & v & b & A & B & -> & S). exists (32 :: a), v, b. split; [now apply ws_blank|]. split; [exact B|]. split; [reflexivity|exact S]. Qed.
Lemma shown_is l t : shows l t -> shown l t.
Proof. intros S. exists [], l, []. rewrite app_nil_r. split; [constructor|]. split; [constructor|]. split; [reflexivity|exact S]. Qed.
Lemma shown_str s : clean s -> shown (34 :: s ++ [34]) (Str s). Proof. intros C. apply shown_is. now constructor. Qed.

(** ** Numbers *)
Lemma number_pad w v x tol y : number_is v y -> (Rabs (y - x) <= tol)%R -> shown (pad w v) (Num x tol).
Proof.
  intros N E. exists (repeat 32 (w - length v)), v, []. rewrite app_nil_r. split; [|split; [constructor|split; [reflexivity|now apply sh_num with y]]].
  apply Forall_forall. intros c Hc. apply repeat_spec in Hc. subst c. now left.
Qed.
Lemma digits_dig l : all_digits l -> Forall dig l. Proof. intros H. exact H. Qed.
Lemma shown_int w z : shown (print_d w z) (Int z).
Proof.
  unfold print_d, Int. destruct (Z.ltb_spec z 0) as [L|L].
  - destruct (dec_text_ok (- z) ltac:(lia)) as (A & V & N). apply number_pad with (IZR z); [|rewrite Rminus_eq_0, Rabs_R0; lra]. exists true, (dec_text (- z)), []. split; [rewrite app_nil_r; reflexivity|]. split; [apply dec_text_int; lia|]. split; [constructor|]. rewrite app_nil_r, V. cbn [length pow]. rewrite opp_IZR. lra.
  - destruct (dec_text_ok z L) as (A & V & N). apply number_pad with (IZR z); [|rewrite Rminus_eq_0, Rabs_R0; lra]. exists false, (dec_text z), []. split; [rewrite app_nil_r; reflexivity|]. split; [apply dec_text_int; lia|]. split; [constructor|]. rewrite app_nil_r, V. cbn [length pow]. lra.
Qed.
Lemma fixed_value p n : (1 <= p)%nat -> 0 <= n -> exists i f, fixed_text p n = i ++ 46 :: f /\ f <> [] /\ jint i /\ Forall dig f /\ (IZR (digits_value (i ++ f)) / 10 ^ length f = IZR n / 10 ^ p)%R.
Proof.
  intros Hp Hn. unfold fixed_text. destruct p as [|p]; [lia|]. set (ten := (10 ^ Z.of_nat (S p))%Z). assert (T0 : (0 < ten)%Z) by (apply Z.pow_pos_nonneg; lia). cbv zeta.
  destruct (dec_text_ok (n / ten) ltac:(apply Z.div_pos; lia)) as (A1 & V1 & N1). assert (M := Z.mod_pos_bound n ten T0). destruct (dec_text_ok (n mod ten) ltac:(lia)) as (A2 & V2 & N2).
  assert (L : (length (dec_text (n mod ten)) <= S p)%nat) by (unfold dec_text; rewrite rev_length; apply nat_digits_len; [exact M|lia]). destruct (zeros_ok (S p - length (dec_text (n mod ten)))) as [AZ VZ].
  exists (dec_text (n / ten)), (repeat 48%Z (S p - length (dec_text (n mod ten))) ++ dec_text (n mod ten)). split; [reflexivity|]. assert (LB : length (repeat 48%Z (S p - length (dec_text (n mod ten))) ++ dec_text (n mod ten)) = S p) by (rewrite app_length, repeat_length; lia).
  split; [intros K; rewrite K in LB; discriminate LB|]. split; [apply dec_text_int, Z.div_pos; lia|]. split; [apply Forall_app; split; assumption|].
  rewrite value_app, LB, V1, value_app, VZ, V2. fold ten. f_equal. f_equal. rewrite Z.mul_0_l, Z.add_0_l, Z.mul_comm. symmetry. apply Z.div_mod. lia.
Qed.
Lemma fixed_signed (neg : bool) p n : (1 <= p)%nat -> 0 <= n -> number_is ((if neg then [45] else []) ++ fixed_text p n) ((if neg then -1 else 1) * (IZR n / 10 ^ p)).
Proof.
  intros Hp Hn. destruct (fixed_value p n Hp Hn) as (i & f & -> & N & I & F & E). exists neg, i, f. split; [destruct f; [congruence|reflexivity]|]. split; [exact I|]. split; [exact F|]. rewrite E. reflexivity.
Qed.
Lemma shown_real w p (x : b64) : (1 <= p)%nat -> is_finite x = true -> shown (print_f w p x) (Real p x).
Proof.
  intros Hp F. assert (T : (0 < 10 ^ p)%R) by (apply pow_lt; lra). unfold print_f, Real. destruct x as [s|s| |s m e H]; try discriminate F.
  - apply number_pad with ((if s then -1 else 1) * (IZR 0 / 10 ^ p))%R; [apply fixed_signed; [exact Hp|lia]|]. cbn [B2R]. replace (_ - _)%R with 0%R by (unfold Rdiv; ring). rewrite Rabs_R0. apply Rmult_le_pos; [lra|apply Rlt_le, Rinv_0_lt_compat; exact T].
  - destruct (scaled_R p (Zpos m) e ltac:(lia)) as [N E]. apply number_pad with ((if s then -1 else 1) * (IZR (scaled p (Zpos m) e) / 10 ^ p))%R; [apply fixed_signed; assumption|]. cbn [B2R]. unfold F2R. cbn [Fnum Fexp].
    replace ((if s then -1 else 1) * (IZR (scaled p (Zpos m) e) / 10 ^ p) - IZR (cond_Zopp s (Zpos m)) * bpow radix2 e)%R with ((if s then -1 else 1) * ((IZR (scaled p (Zpos m) e) - IZR (Zpos m) * bpow radix2 e * 10 ^ p) / 10 ^ p))%R.
    2: { destruct s; unfold cond_Zopp; [change (- Zpos m)%Z with (- (Zpos m))%Z; rewrite (opp_IZR (Zpos m))|]; field; lra. }
    unfold Rdiv. rewrite !Rabs_mult, (Rabs_pos_eq (/ 10 ^ p)) by (apply Rlt_le, Rinv_0_lt_compat; exact T). replace (Rabs (if s then -1 else 1)) with 1%R by (destruct s; [rewrite Rabs_left; lra|rewrite Rabs_pos_eq; lra]). rewrite Rmult_1_l. apply Rmult_le_compat_r; [apply Rlt_le, Rinv_0_lt_compat; exact T|exact E].
Qed.

(** ** Members and elements *)
Lemma members_blank l ms : shows_members l ms -> shows_members (32 :: l) ms.
Proof. intros H. inversion H; subst; [apply (sm_one (32 :: a) k b c v d t)|apply (sm_cons (32 :: a) k b c v d t)]; try assumption; now apply ws_blank. Qed.
Lemma elements_blank l ts : shows_elements l ts -> shows_elements (32 :: l) ts.
Proof. intros H. inversion H; subst; [apply (se_one (32 :: a) v b t)|apply (se_cons (32 :: a) v b t)]; try assumption; now apply ws_blank. Qed.
Lemma member_one k v t : clean k -> shown v t -> shows_members (34 :: k ++ 34 :: 58 :: v) [(k, t)].
Proof. intros K (a & w & b & A & B & -> & S). replace (34 :: k ++ 34 :: 58 :: a ++ w ++ b) with ([] ++ (34 :: k ++ [34]) ++ [] ++ 58 :: a ++ w ++ b) by (cbn [app]; rewrite <- app_assoc; reflexivity). apply sm_one; try assumption; constructor. Qed.
Lemma member_cons k v t l ms : clean k -> shown v t -> shows_members l ms -> shows_members (34 :: k ++ 34 :: 58 :: v ++ 44 :: l) ((k, t) :: ms).
Proof. intros K (a & w & b & A & B & -> & S) L. replace (34 :: k ++ 34 :: 58 :: (a ++ w ++ b) ++ 44 :: l) with ([] ++ (34 :: k ++ [34]) ++ [] ++ 58 :: a ++ w ++ b ++ 44 :: l) by (cbn [app]; rewrite <- !app_assoc; reflexivity). apply sm_cons; try assumption; constructor. Qed.
Lemma element_one v t : shown v t -> shows_elements v [t].
Proof. intros (a & w & b & A & B & -> & S). now apply se_one. Qed.
Lemma element_cons v t l ts : shown v t -> shows_elements l ts -> shows_elements (v ++ 44 :: l) (t :: ts).
Proof. intros (a & w & b & A & B & -> & S) L. rewrite <- !app_assoc. now apply se_cons. Qed.
Lemma shown_obj l ms : shows_members l ms -> shown (123 :: l ++ [125]) (Obj ms). Proof. intros H. apply shown_is. now constructor. Qed.
Lemma shown_arr l ts : shows_elements l ts -> shown (91 :: l ++ [93]) (Arr ts). Proof. intros H. apply shown_is. now constructor. Qed.

(** Rows: blank before the key or not, key, text of the value. *)
Definition row := (bool * list Z * list Z)%type.
Definition row_text (r : row) : list Z := let '(b, k, v) := r in (if b : bool then [32] else []) ++ 34 :: k ++ 34 :: 58 :: v.
Fixpoint rows_text (l : list row) : list Z := match l with [] => [] | [r] => row_text r | r :: l => row_text r ++ 44 :: rows_text l end.
Definition row_ok (r : row) (m : list Z * tree) : Prop := let '(b, k, v) := r in k = fst m /\ clean k /\ shown v (snd m).
Lemma rows_ok l ms : Forall2 row_ok l ms -> l <> [] -> shows_members (rows_text l) ms.
Proof.
  induction 1 as [|[[b k] v] [k' t] l ms (E & K & S) H IH]; intros N; [congruence|]. cbn [fst snd] in *. subst k'.
  assert (G : shows_members ((34 :: k ++ 34 :: 58 :: v) ++ match l with [] => [] | _ => 44 :: rows_text l end) ((k, t) :: ms)).
  { destruct H as [|r m l ms R H]; [rewrite app_nil_r; now apply member_one|]. specialize (IH ltac:(discriminate)). cbn [app]. rewrite <- app_assoc. cbn [app]. now apply member_cons. }
  match goal with |- shows_members ?x _ => replace x with ((if b then [32] else []) ++ ((34 :: k ++ 34 :: 58 :: v) ++ match l with [] => [] | _ => 44 :: rows_text l end)) end; [destruct b; cbn [app]; [apply members_blank|]; exact G|].
  destruct l; cbn [rows_text row_text]; [rewrite app_nil_r; reflexivity|]. rewrite app_assoc. reflexivity.
Qed.
Lemma rows_then l ms rest ms' : Forall2 row_ok l ms -> shows_members rest ms' -> l <> [] -> shows_members (rows_text l ++ 44 :: rest) (ms ++ ms').
Proof.
  intros H R. induction H as [|[[b k] v] [k' t] l ms (E & K & S) H IH]; intros N; [congruence|]. cbn [fst snd] in *. subst k'.
  assert (G : shows_members ((34 :: k ++ 34 :: 58 :: v) ++ 44 :: match l with [] => rest | _ => rows_text l ++ 44 :: rest end) ((k, t) :: ms ++ ms')).
  { cbn [app]. rewrite <- app_assoc. cbn [app]. apply member_cons; [exact K|exact S|]. destruct H as [|r m l ms Rr H]; [exact R|]. apply IH. discriminate. }
  match goal with |- shows_members ?x _ => replace x with ((if b then [32] else []) ++ ((34 :: k ++ 34 :: 58 :: v) ++ 44 :: match l with [] => rest | _ => rows_text l ++ 44 :: rest end)) end; [destruct b; cbn [app]; [apply members_blank|]; exact G|].
  destruct l; cbn [rows_text row_text]; rewrite <- ?app_assoc; reflexivity.
Qed.
Fixpoint cells_text (l : list (list Z)) : list Z := match l with [] => [] | [v] => v | v :: l => v ++ 44 :: cells_text l end.
Lemma cells_ok l ts : Forall2 shown l ts -> l <> [] -> shows_elements (cells_text l) ts.
Proof.
  induction 1 as [|v t l ts S H IH]; intros N; [congruence|]. destruct H as [|v' t' l ts S' H]; [now apply element_one|].
  change (cells_text (v :: v' :: l)) with (v ++ 44 :: cells_text (v' :: l)). apply element_cons; [exact S|]. apply IH. discriminate.
Qed.

(** The relation only speaks of JSON. *)
Lemma number_json l v : number_is l v -> jnumber l.
Proof.
  intros (neg & i & f & -> & I & F & _). exists (if neg then [45] else []), i, (match f with [] => [] | _ => 46 :: f end), []. rewrite app_nil_r. split; [reflexivity|]. split; [destruct neg; tauto|]. split; [exact I|]. split; [|now left]. destruct f as [|c f]; [now left|right]. exists (c :: f). split; [reflexivity|]. split; [discriminate|exact F].
Qed.
Lemma clean_chars s : clean s -> chars s. Proof. induction 1; constructor; assumption. Qed.
Scheme shows_i := Induction for shows Sort Prop
with shows_elements_i := Induction for shows_elements Sort Prop
with shows_members_i := Induction for shows_members Sort Prop.
Lemma shows_value : forall l t, shows l t -> value l.
Proof.
  apply (shows_i (fun l t _ => value l) (fun l ts _ => elements l) (fun l ms _ => members l)); intros.
  - apply v_num. now apply number_json with v.
  - apply v_str. exists s. split; [now apply clean_chars|reflexivity].
  - now apply v_arr.
  - now apply v_obj.
  - assumption.
  - now apply el_one.
  - now apply el_cons.
  - apply me_one; try assumption. exists k. split; [now apply clean_chars|reflexivity].
  - apply me_cons; try assumption. exists k. split; [now apply clean_chars|reflexivity].
Qed.

(** A text stands for one number only. *)
Lemma point_split : forall i i' t t', Forall dig i -> Forall dig i' -> (t = [] \/ exists f, t = 46 :: f) -> (t' = [] \/ exists f, t' = 46 :: f) -> i ++ t = i' ++ t' -> i = i' /\ t = t'.
Proof.
  assert (ND : forall c l, Forall dig (c :: l) -> forall t r, (t = [] \/ exists f, t = 46 :: f) -> t <> c :: r).
  { intros c l H t r0 [->|[f ->]] K; [discriminate|]. injection K as <- _. inversion H as [|? ? D _]. unfold dig in D. lia. }
  induction i as [|c i IH]; intros [|c' i'] t t' H H' T T' E; cbn [app] in E.
  - split; [reflexivity|exact E].
  - exfalso. exact (ND c' i' H' t _ T E).
  - exfalso. symmetry in E. exact (ND c i H t' _ T' E).
  - injection E as -> E. destruct (IH i' t t' (Forall_inv_tail H) (Forall_inv_tail H') T T' E) as [-> ->]. split; reflexivity.
Qed.
Lemma jint_digits i : jint i -> Forall dig i /\ forall r, i ++ r <> [] /\ forall l, i ++ r <> 45 :: l.
Proof.
  intros [->|(d & ds & -> & D & F)]; (split; [constructor; [unfold dig; lia|]; [constructor..|assumption]|]) || (split; [constructor; [unfold dig; lia|]|]); try assumption; try constructor; intros; cbn [app]; try discriminate; intros K; injection K; lia.
Qed.
Lemma number_unique l v v' : number_is l v -> number_is l v' -> v = v'.
Proof.
  intros (n & i & f & E & I & F & ->) (n' & i' & f' & E' & I' & F' & ->). rewrite E in E'. clear E. destruct (jint_digits i I) as [D N], (jint_digits i' I') as [D' N'].
  assert (n = n' /\ i ++ match f with [] => [] | _ => 46 :: f end = i' ++ match f' with [] => [] | _ => 46 :: f' end) as [-> E].
  { destruct n, n'; cbn [app] in E'; [injection E' as E'; tauto| | |tauto].
    - exfalso. symmetry in E'. exact (proj2 (N' _) _ E').
    - exfalso. exact (proj2 (N _) _ E'). }
  apply point_split in E; [|assumption|assumption|destruct f; [now left|right; eauto]|destruct f'; [now left|right; eauto]]. destruct E as [-> E]. destruct f, f'; try discriminate E; [reflexivity|]. injection E as -> ->. reflexivity.
Qed.
