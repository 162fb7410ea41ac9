(** Property theorem C121: what a reader of JSON finds in the output of sat_skymap. *)
From Coq Require Import String Ascii ZArith List Bool Reals Lra Lia.
From Flocq Require Import Core IEEE754.BinarySingleNaN.
From Verif Require Import CLib FloatModel JsonSpec JsonDataSpec JsonDataProofs JsonAgreeSpec JsonAgreeProofs SkymapModel SkymapSpec SkymapOutSpec SkymapReadSpec SkymapReadProofs SkymapProofs10 SkymapExamples SkymapRuns.
Import ListNotations.
Open Scope Z_scope.

(** C121: the text of a normal run (conditions as in C57) ends with a newline; before it stands a JSON object with the members of [document]
    in their order: every number as computed, to half a unit of the last place printed, every text as it is, the satellites in the
    order in which they were listed, each with its own name, designator, number and data. *)
Theorem C121_document : forall e l1 l2 nm fin, skymap e l1 l2 nm = Ok fin -> f_code fin = 0 ->
  Forall clean (e_argv e) -> clean (p_date (e_p e)) -> hdr_finite e -> Forall item_clean (listing (f_log fin)) ->
  exists file msg text, (nth_error (e_argv e) (file_arg (e_argv e)) = Some file \/ nth_error (e_argv e) (file_arg (e_argv e)) = Some (64 :: file)) /\
    (msg = [] \/ msg = bytes "Requested satellite not found in TLE file") /\ (p_single_i (e_p e) = false -> p_single_n (e_p e) = false -> msg = []) /\
    f_out fin = text ++ [10] /\
    shows text (document (e_p e) (e_h e) file msg (listing (f_log fin)) (f_found fin) (f_nsats fin) (f_nsunlit fin)).
Proof. exact read_normal. Qed.
Print Assumptions C121_document.
(** A text stands for one number only; what is shown is JSON. *)
Theorem C121_number_unique : forall l v v', number_is l v -> number_is l v' -> v = v'.
Proof. exact number_unique. Qed.
Print Assumptions C121_number_unique.
Theorem C121_shows_json : forall l t, shows l t -> value l.
Proof. exact shows_value. Qed.
Print Assumptions C121_shows_json.

(** Nothing else can be found in a text: two descriptions of it agree in every number, string, key, and in the number and order of the
    elements and members. *)
Theorem C121_unambiguous : forall l t, shows l t -> forall t', shows l t' -> agree t t'.
Proof. exact shows_agree. Qed.
Print Assumptions C121_unambiguous.
Example C121_agree : agree (Arr [Int 1; Str (bytes "x")]) (Arr [Any; Str (bytes "x")]) /\ ~ agree (Arr [Int 1]) (Arr [Int 1; Int 2]) /\ ~ agree (Int 1) (Int 2) /\
  ~ agree (Obj [(bytes "az", Int 1)]) (Obj [(bytes "alt", Int 1)]).
Proof.
  split; [repeat constructor|]. split; [intros H; inversion H as [| |? ? K| | |]; subst; inversion K as [|? ? ? ? _ K2]; inversion K2|].
  split; [intros H; inversion H as [? ? ? ? K| | | | |]; apply Rabs_le_inv in K; lra|]. intros H. inversion H as [| | |? ? K| |]; inversion K.
Qed.

(** The run of the example of C57 fulfils the conditions; the number 12.50 is 12.5 and nothing else. *)
Example C121_run : (Forall clean (e_argv ex_env) /\ clean (p_date (e_p ex_env)) /\ hdr_finite ex_env /\ item_clean (mk_item (bytes "ISS (ZARYA)") (bytes "1998-067A") tle0 ex_num)) /\
  exists fin, skymap ex_env z100 z100 z25 = Ok fin /\ f_code fin = 0 /\ json (f_out fin).
Proof. exact (conj ex_printable plain_json). Qed.
Example C121_entry : exists en, entry_json false (bytes "ISS (ZARYA)") (bytes "1998-067A") tle0 ex_num = Ok en /\
  en = q "{'name': 'ISS (ZARYA)', 'intl_desig': '1998-067A', 'norad_n': 0, 'data': [185.0000,-53.0000,186.0000,-53.0000,  1436.00,5.0000, 89, 2.000,1,690893]}" /\
  shown en (satellite false (mk_item (bytes "ISS (ZARYA)") (bytes "1998-067A") tle0 ex_num)).
Proof.
  eexists. split; [vm_compute; reflexivity|]. split; [vm_compute; reflexivity|]. apply entry_shown; [|vm_compute; reflexivity].
  split; [apply clean_key; reflexivity|]. split; [apply clean_key; reflexivity|]. unfold num_finite. repeat (apply Forall_cons; [vm_compute; reflexivity|]). apply Forall_nil.
Qed.
Example C121_number : number_is (bytes "-12.50") (-12.5) /\ shows (bytes "-12.50") (Num (-12.54) 0.05) /\ ~ shows (bytes "-12.50") (Num (-12.6) 0.05) /\ ~ shows (bytes "-12.50") (Num 12.5 0.05).
Proof.
  assert (N : number_is (bytes "-12.50") (-12.5)).
  { exists true, [49; 50], [53; 48]. split; [reflexivity|]. split; [right; exists 49, [50]; split; [reflexivity|]; split; [lia|]; constructor; [unfold dig; lia|constructor]|].
    split; [constructor; [unfold dig; lia|constructor; [unfold dig; lia|constructor]]|]. replace (DatefSpec.digits_value ([49; 50] ++ [53; 48])) with 1250 by reflexivity. cbn [length pow]. lra. }
  split; [exact N|]. split; [apply sh_num with (-12.5)%R; [exact N|apply Rabs_le; lra]|].
  split; intros H; inversion H as [l v x tol M E| | | |]; subst; rewrite (number_unique _ _ _ M N) in E; apply Rabs_le_inv in E; lra.
Qed.
