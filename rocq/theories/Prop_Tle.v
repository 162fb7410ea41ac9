(** Properties C01-C13: TLE text decoding (src/get_el.c, src/basics.c). *)
From Coq Require Import String ZArith List Bool QArith.
From Verif Require Import CLib TleModel TleSpec TleProofs1 TleProofs2 TleProofs3 TleProofs4 TleProofs5 TleProofs6 TleExamples TleSafeSpec TleSafeProofs TleSafeRuns TleExactSpec TleExactProofs TleExactRuns.
Import ListNotations.
Open Scope Z_scope.

(** C01: classification of lines by the checksum routine. *)
Theorem C01_checksum_classifies : forall l, (70 <= length l)%nat ->
  (~ line_start l -> tle_checksum l = Ok (-1)) /\
  (line_start l -> ~ data_ok l -> tle_checksum l = Ok (-2)) /\
  (line_start l -> data_ok l -> 32 < col l 69 -> tle_checksum l = Ok (-3)) /\
  (line_start l -> data_ok l -> col l 69 <= 32 ->
     exists r, tle_checksum l = Ok r /\ 0 <= r < 10 /\
       (total (firstn 68 l) - (col l 68 - 48)) mod 10 = r).
Proof. exact checksum_cases. Qed.
Print Assumptions C01_checksum_classifies.
Example C01_example_codes :
  tle_checksum iss1 = Ok 0 /\ tle_checksum (retype iss1 0 51) = Ok (-1) /\
  tle_checksum (retype iss1 10 126) = Ok (-2) /\ tle_checksum (retype iss1 69 65) = Ok (-3) /\
  tle_checksum (retype iss1 68 48) = Ok 5.
Proof. vm_compute. repeat split. Qed.

Theorem C01_checksum_zero_iff : forall l, (70 <= length l)%nat ->
  line_start l -> data_ok l -> col l 69 <= 32 -> digit (col l 68) ->
  (tle_checksum l = Ok 0 <-> check_digit_ok l).
Proof. exact checksum_zero_iff. Qed.
Print Assumptions C01_checksum_zero_iff.
Example C01_example_iss :
  (70 <= length iss1)%nat /\ line_start iss1 /\ data_ok iss1 /\ col iss1 69 <= 32 /\ digit (col iss1 68) /\ check_digit_ok iss1.
Proof.
  destruct iss_layout1 as (A & B & C & D & E & _).
  repeat split; try assumption; try (vm_compute; discriminate). now left.
Qed.

(** C02: a single changed digit is always detected. *)
Theorem C02_single_digit_detected : forall l i c,
  (70 <= length l)%nat -> digit (col l 68) ->
  tle_checksum l = Ok 0 -> (i <= 68)%nat -> digit (col l i) -> digit c -> c <> col l i ->
  tle_checksum (retype l i c) <> Ok 0.
Proof. exact checksum_detects. Qed.
Print Assumptions C02_single_digit_detected.
Example C02_example : tle_checksum iss2 = Ok 0 /\ col iss2 12 = 54 /\ tle_checksum (retype iss2 12 57) = Ok 3.
Proof. vm_compute. repeat split. Qed.

(** C03: false of the code: a line whose check column holds '?' is accepted. *)
Theorem C03_non_digit_check_column_refuted :
  exists l, (70 <= length l)%nat /\ tle_checksum l = Ok 0 /\ ~ digit (col l 68).
Proof.
  exists (retype iss1 68 63). split; [vm_compute; repeat constructor|]. split; [vm_compute; reflexivity|].
  intros [_ H]. vm_compute in H. now apply H.
Qed.
Print Assumptions C03_non_digit_check_column_refuted.

(** What does hold: acceptance means the check character has the right value modulo 10. *)
Theorem C03_check_value_partial : forall l, (70 <= length l)%nat -> tle_checksum l = Ok 0 ->
  line_start l /\ data_ok l /\ col l 69 <= 32 /\ (col l 68 - 48) mod 10 = total (firstn 68 l) mod 10.
Proof. exact checksum_zero_inv. Qed.
Print Assumptions C03_check_value_partial.
(** Exactly the accepted lines. *)
Theorem C03_accepted_iff : forall l, (70 <= length l)%nat ->
  tle_checksum l = Ok 0 <-> line_start l /\ data_ok l /\ col l 69 <= 32 /\ (col l 68 - 48) mod 10 = total (firstn 68 l) mod 10.
Proof. exact accepted_iff. Qed.
Print Assumptions C03_accepted_iff.
Example C03_example : tle_checksum iss1 = Ok 0 /\ (col iss1 68 - 48) mod 10 = 5.
Proof. vm_compute. repeat split. Qed.

(** C04: reads of the checksum routine.  On a text ended by its NUL (and nothing after it in the object) the only
    undefined case is a 68-character line of valid characters, where the byte after the NUL is read. *)
Theorem C04_checksum_reads : forall t, ~ In 0 t ->
  (tle_checksum (t ++ [0]) = UB OutOfBounds <->
   (length t = 68%nat /\ line_start t /\ data_ok t)) /\
  (tle_checksum (t ++ [0]) <> UB OutOfBounds -> exists r, tle_checksum (t ++ [0]) = Ok r).
Proof. exact checksum_text. Qed.
Print Assumptions C04_checksum_reads.
Example C04_example : tle_checksum (firstn 69 iss1 ++ [0]) = Ok 0 /\ tle_checksum (bytes "hello" ++ [0]) = Ok (-1).
Proof. vm_compute. repeat split. Qed.

Theorem C04_reads_inside_text_refuted :
  exists t, ~ In 0 t /\ tle_checksum (t ++ [0]) = UB OutOfBounds.
Proof.
  exists (firstn 68 iss1). split; [|vm_compute; reflexivity].
  intro H. vm_compute in H. repeat (destruct H as [H|H]; [discriminate H|]). destruct H.
Qed.
Print Assumptions C04_reads_inside_text_refuted.

Theorem C04_only_first_70_bytes : forall l m, firstn 70 l = firstn 70 m -> (70 <= length l)%nat ->
  (70 <= length m)%nat -> tle_checksum l = tle_checksum m.
Proof. exact checksum_prefix. Qed.
Print Assumptions C04_only_first_70_bytes.
Example C04_example_70 : firstn 70 iss1 = firstn 70 (firstn 70 iss1 ++ [65;66;67]).
Proof. vm_compute. reflexivity. Qed.

(** C05: catalogue codes are decoded one-to-one. *)
Theorem C05_decode_encode : forall n r rs, 0 <= n < norad_count -> is_digit r = false ->
  get_norad_number (encode_norad n ++ r :: rs) = Ok n.
Proof. exact decode_encode. Qed.
Print Assumptions C05_decode_encode.

Theorem C05_encode_decode : forall s r rs, is_code s -> is_digit r = false ->
  exists n, get_norad_number (s ++ r :: rs) = Ok n /\ 0 <= n < norad_count /\ encode_norad n = s.
Proof. exact encode_decode. Qed.
Print Assumptions C05_encode_decode.

Theorem C05_codes_are_codes : forall n, 0 <= n < norad_count -> is_code (encode_norad n).
Proof. exact encode_is_code. Qed.
Print Assumptions C05_codes_are_codes.

Theorem C05_blank_padded : forall k ds r rs, (k + length ds = 5)%nat -> (1 <= k)%nat -> ds <> [] ->
  Forall digit ds -> is_digit r = false ->
  get_norad_number (repeat 32 k ++ ds ++ r :: rs) = Ok (dec ds).
Proof. exact norad_blank_padded. Qed.
Print Assumptions C05_blank_padded.

(** Anything else (a symbol that is neither one of the 34 nor a blank) gives 0. *)
Theorem C05_not_a_code : forall s rest c, length s = 5%nat -> In c s -> ~ In c symbols -> c <> 32 ->
  get_norad_number (s ++ rest) = Ok 0.
Proof. exact norad_not_code. Qed.
Print Assumptions C05_not_a_code.
Example C05_example_not : ~ In 73 symbols /\ ~ In 79 symbols /\ get_norad_number (bytes "I0000U") = Ok 0.
Proof. split; [|split; [|reflexivity]]; intro H; cbn in H; repeat (destruct H as [H|H]; [discriminate H|]); exact H. Qed.
(** The documented ends of the six ranges. *)
Example C05_example_ranges :
  map encode_norad [0; 99999; 100000; 339999; 340000; 32412063; 32412064; 41845023; 41845024; 44619423; 44619424; 45435423]
  = map bytes ["00000"; "99999"; "A0000"; "Z9999"; "0000A"; "ZZZZZ"; "000A0"; "ZZZZ9"; "00A00"; "ZZZ99"; "0A000"; "ZZ999"]%string
  /\ get_norad_number (bytes "T0042U") = Ok 270042
  /\ get_norad_number (bytes " 5544U") = Ok 5544.
Proof. vm_compute. repeat split. Qed.

(** C06: false of the code: a digit in the classification column changes the number. *)
Theorem C06_own_columns_only_refuted :
  exists l m, field l 2 5 = field m 2 5 /\ is_code (field l 2 5) /\
    get_norad_number (adv l 2) = Ok 25544 /\ get_norad_number (adv m 2) = Ok 75443.
Proof.
  exists iss1, (retype iss1 7 51).
  split; [reflexivity|]. split; [|vm_compute; repeat split].
  split; [reflexivity|]. vm_compute field. repeat (constructor; [vm_compute; tauto|]). constructor.
Qed.
Print Assumptions C06_own_columns_only_refuted.

Theorem C06_own_columns_partial : forall l m, (8 <= length l)%nat -> (8 <= length m)%nat ->
  is_code (field l 2 5) -> field l 2 5 = field m 2 5 -> ~ digit (col l 7) -> ~ digit (col m 7) ->
  get_norad_number (adv l 2) = get_norad_number (adv m 2).
Proof. exact norad_own_columns. Qed.
Print Assumptions C06_own_columns_partial.
Example C06_example : field iss1 2 5 = field (retype iss1 7 67) 2 5 /\ col iss1 7 <> col (retype iss1 7 67) 7.
Proof. vm_compute. split; [reflexivity|discriminate]. Qed.

(** Exactly: a decimal number runs on to the first character that is not a digit ... *)
Theorem C06_decimal_exactly : forall p d n, (5 <= length p)%nat -> leads (col p 0) d -> Forall plain (firstn 4 (skipn 1 p)) ->
  get_norad_number p = Ok n <-> exists v, number (skipn 1 p) v /\ n = 10000 * d + v /\ fits n.
Proof. exact decimal_code. Qed.
Print Assumptions C06_decimal_exactly.
Example C06_decimal_example : leads (col (adv (retype iss1 7 51) 2) 0) 2 /\ Forall plain (firstn 4 (skipn 1 (adv (retype iss1 7 51) 2))) /\
  number (skipn 1 (adv (retype iss1 7 51) 2)) 55443.
Proof. exact ex_decimal. Qed.
(** ... and every other text of five characters gives a number of its own, whatever follows. *)
Theorem C06_other_codes : forall p q, (5 <= length p)%nat -> (5 <= length q)%nat -> firstn 5 p = firstn 5 q ->
  (forall d, leads (col p 0) d -> ~ Forall plain (firstn 4 (skipn 1 p))) ->
  exists n, get_norad_number p = Ok n /\ get_norad_number q = Ok n.
Proof. exact other_code. Qed.
Print Assumptions C06_other_codes.
Example C06_other_example : forall d, leads (col (bytes "2A544") 0) d -> ~ Forall plain (firstn 4 (skipn 1 (bytes "2A544"))).
Proof. exact ex_other. Qed.

(** C07: parsing lines laid out in the TLE columns yields the printed elements; the return code tells which check
    digits are right. *)
Theorem C07_parse_describes : forall l1 l2 e s, layout1 l1 e -> layout2 l2 e ->
  digit (col l1 68) -> digit (col l2 68) ->
  exists ok1 ok2 s', (ok1 = true <-> check_digit_ok l1) /\ (ok2 = true <-> check_digit_ok l2) /\
    parse_elements l1 l2 s = Ok ((if ok1 then 0 else 1) + (if ok2 then 0 else 2), s') /\ describes s' e.
Proof. exact parse_ok. Qed.
Print Assumptions C07_parse_describes.
Example C07_example_layout : layout1 iss1 iss_elements /\ layout2 iss2 iss_elements.
Proof. exact (conj iss_layout1 iss_layout2). Qed.
Example C07_example_parse :
  exists s, parse_elements iss1 iss2 blank_tle = Ok (0, s) /\ norad_number s = 25544 /\
    (epoch s == 246044202083333 # 100000000)%Q /\ (bstar s == 3027 # 10000000)%Q.
Proof. eexists. split; [vm_compute; reflexivity|]. vm_compute. repeat split. Qed.

(** C08: return codes. *)
Theorem C08_return_codes : forall l1 l2 s c s', parse_elements l1 l2 s = Ok (c, s') ->
  (c < 0 /\ s' = s /\
    (c = -104 /\ (col l1 0 <> 49 \/ col l2 0 <> 50) \/
     (exists k, tle_checksum l1 = Ok k /\ k < 0 /\ c = k - 100) \/
     (exists k, tle_checksum l2 = Ok k /\ k < 0 /\ c = k))) \/
  (exists k1 k2, col l1 0 = 49 /\ col l2 0 = 50 /\
     tle_checksum l1 = Ok k1 /\ tle_checksum l2 = Ok k2 /\ 0 <= k1 /\ 0 <= k2 /\
     (col l1 62 <> 72 -> c = (if k1 =? 0 then 0 else 1) + (if k2 =? 0 then 0 else 2)) /\
     (col l1 62 = 72 -> c = 0)).
Proof. exact parse_codes. Qed.
Print Assumptions C08_return_codes.
Example C08_example_codes :
  exists s0 s1 s2 s3, parse_elements iss1 iss2 blank_tle = Ok (0, s0) /\
    parse_elements (retype iss1 68 48) iss2 blank_tle = Ok (1, s1) /\
    parse_elements iss1 (retype iss2 68 48) blank_tle = Ok (2, s2) /\
    parse_elements (retype iss1 68 48) (retype iss2 68 48) blank_tle = Ok (3, s3) /\
    parse_elements iss2 iss1 blank_tle = Ok (-104, blank_tle).
Proof.
  do 4 eexists. split; [vm_compute; reflexivity|]. split; [vm_compute; reflexivity|].
  split; [vm_compute; reflexivity|]. split; vm_compute; reflexivity.
Qed.

Theorem C08_zero_means_checked_partial : forall l1 l2 s s',
  parse_elements l1 l2 s = Ok (0, s') -> col l1 62 <> 72 ->
  tle_checksum l1 = Ok 0 /\ tle_checksum l2 = Ok 0.
Proof. exact parse_zero. Qed.
Print Assumptions C08_zero_means_checked_partial.
Example C08_example_zero : exists s, parse_elements iss1 iss2 blank_tle = Ok (0, s) /\ col iss1 62 <> 72.
Proof. eexists. split; [vm_compute; reflexivity|vm_compute; discriminate]. Qed.

(** False for the state-vector type: code 0 with a wrong check digit. *)
Theorem C08_zero_means_checked_refuted :
  exists l1 l2 s, parse_elements l1 l2 blank_tle = Ok (0, s) /\ tle_checksum l1 = Ok 1.
Proof. exists high1_bad, high2. eexists. split; vm_compute; reflexivity. Qed.
Print Assumptions C08_zero_means_checked_refuted.

(** C09: epoch. *)
Theorem C09_epoch : forall l1 l2 e s, layout1 l1 e -> layout2 l2 e ->
  exists s', parse_common l1 l2 s = Ok s' /\
    norad_number s' = e_number e /\ classification s' = e_class e /\
    tle_intl_desig s' = e_desig e /\ ephemeris_type s' = e_type e /\
    bulletin_number s' = e_elset e /\ revolution_number s' = e_rev e /\
    (epoch s' == jd_january0 (e_year e) + inject_Z (e_day e) / e8)%Q.
Proof. exact parse_common_ok. Qed.
Print Assumptions C09_epoch.
Example C09_example : e_year iss_elements = 2024 /\ e_day iss_elements = 13252083333 /\
  (jd_january0 2024 == 24603095 # 10)%Q /\ full_year 57 = 1957 /\ full_year 56 = 2056.
Proof. vm_compute. repeat split. Qed.

(** C10: false of the code: lines with correct check digits that lead to undefined behaviour: a blank exponent digit
    (decrementing a negative counter), angle fields without a separating blank (read past the buffer, integer overflow), and a bad base-36 digit (abort). *)
Theorem C10_parse_safe_refuted :
  (exists l1 l2, length l1 = 100%nat /\ length l2 = 100%nat /\ tle_checksum l1 = Ok 0 /\ tle_checksum l2 = Ok 0 /\
     parse_elements l1 l2 blank_tle = UB Overflow) /\
  (exists l1 l2, length l1 = 100%nat /\ length l2 = 100%nat /\ tle_checksum l1 = Ok 0 /\ tle_checksum l2 = Ok 0 /\
     col l2 51 <> 32 /\ parse_elements l1 l2 blank_tle = UB Overflow) /\
  (exists l1 l2, length l1 = 100%nat /\ length l2 = 100%nat /\ tle_checksum l1 = Ok 0 /\ tle_checksum l2 = Ok 0 /\
     parse_elements l1 l2 blank_tle = UB AssertFail).
Proof.
  split; [|split].
  - exists bad_sci1, iss2. vm_compute. repeat split.
  - exists iss1, overflow_angle2. vm_compute. repeat split; discriminate.
  - exists high1_bad_digit, high2. vm_compute. repeat split.
Qed.
Print Assumptions C10_parse_safe_refuted.

(** The angle reader alone runs past the end of a buffer without blanks. *)
Theorem C10_angle_overread_refuted : exists p, get_angle p = UB OutOfBounds /\ length p = 9%nat.
Proof. exists (bytes "269.9876" ++ [0]). vm_compute. repeat split. Qed.
Print Assumptions C10_angle_overread_refuted.

(** Safe whenever the lines follow the column layout, or are not TLE lines at all. *)
Theorem C10_parse_safe_partial : forall l1 l2 s, (70 <= length l1)%nat -> (70 <= length l2)%nat ->
  (exists e, layout1 l1 e /\ layout2 l2 e) \/ (~ line_start l1 \/ ~ line_start l2 \/ ~ data_ok l1 \/ ~ data_ok l2 \/ 32 < col l1 69 \/ 32 < col l2 69) ->
  exists c s', parse_elements l1 l2 s = Ok (c, s').
Proof. exact parse_safe. Qed.
Print Assumptions C10_parse_safe_partial.
Example C10_example : (70 <= length iss1)%nat /\ (70 <= length iss2)%nat /\ layout1 iss1 iss_elements /\ layout2 iss2 iss_elements.
Proof. repeat split; try (apply iss_layout1); try (apply iss_layout2). Qed.

(** Exactly when a decimal number is read, and which. *)
Theorem C10_numbers : forall p v, c_atoi p = Ok v <-> number p v.
Proof. exact atoi_iff. Qed.
Print Assumptions C10_numbers.
(** Safe for lines of any content whose numbers fit an int, whose angles are ended by a blank after at most nine digits, and whose exponents are digits. *)
Theorem C10_fields_fit : forall l1 l2 s, (70 <= length l1)%nat -> (70 <= length l2)%nat -> numbers_fit l1 ->
  (col l1 62 = 72 -> high_fits l1 l2) -> (col l1 62 <> 72 -> mean_fits l1 l2) -> exists c s', parse_elements l1 l2 s = Ok (c, s').
Proof. exact parse_fits. Qed.
Print Assumptions C10_fields_fit.
(** Angles, exactly; and the decoding of two lines of any content, exactly. *)
Theorem C10_angles : forall p v, get_angle p = Ok v <-> some_angle p v.
Proof. exact angle_iff. Qed.
Print Assumptions C10_angles.
Example C10_angles_example : some_angle (bytes "  12.A4 ") (1000 + 200 + 170 + 4).
Proof. exact ex_angle. Qed.
Theorem C10_safe_exactly : forall l1 l2 s, (70 <= length l1)%nat -> (70 <= length l2)%nat ->
  (exists c s', parse_elements l1 l2 s = Ok (c, s')) <-> (tle_pair l1 l2 -> fields_defined l1 l2).
Proof. exact parse_iff. Qed.
Print Assumptions C10_safe_exactly.
Example C10_safe_exactly_example : (tle_pair iss1 odd2 /\ fields_defined iss1 odd2) /\ ~ fields_defined bad_sci1 iss2.
Proof. exact (conj ex_defined ex_undefined). Qed.
(** State vectors: exactly. *)
Theorem C10_state_vectors : forall l1 l2 s, (70 <= length l1)%nat -> (70 <= length l2)%nat -> numbers_fit l1 -> col l1 62 = 72 ->
  tle_checksum l1 = Ok 0 -> tle_checksum l2 = Ok 0 -> col l1 0 = 49 -> col l2 0 = 50 ->
  (exists c s', parse_elements l1 l2 s = Ok (c, s')) <-> high_fits l1 l2.
Proof. exact parse_high_iff. Qed.
Print Assumptions C10_state_vectors.
Example C10_fields_example : numbers_fit iss1 /\ mean_fits iss1 odd2 /\ col odd2 26 = 65 /\ exists s, parse_elements iss1 odd2 blank_tle = Ok (0, s).
Proof. exact (conj iss_numbers (conj odd_mean (conj eq_refl odd_parsed))). Qed.
Example C10_numbers_example : number (bytes " -12.5") (-12).
Proof. exact ex_number. Qed.
Example C10_state_vectors_example : numbers_fit high1 /\ high_fits high1 high2.
Proof. exact (conj high_numbers high_high). Qed.

(** C11: scientific fields. *)
Theorem C11_sci_value : forall s v rest, shows_sci s v -> exists q, sci (s ++ rest) = Ok q /\ (q == v)%Q.
Proof. exact sci_shows. Qed.
Print Assumptions C11_sci_value.
Theorem C11_sci_blank : forall s rest, (2 <= length s)%nat -> col s 1 = 32 -> sci (s ++ rest) = Ok 0%Q.
Proof. exact sci_blank. Qed.
Print Assumptions C11_sci_blank.
Example C11_example : shows_sci (bytes "-24642-3") (-24642 # 100000000) /\ sci (bytes "-24642-3 ") <> Ok 0%Q /\
  sci (bytes "         ") = Ok 0%Q.
Proof.
  split; [|split; [discriminate|reflexivity]].
  exists 45, (bytes "24642"), 45, 51. repeat split; try discriminate; try tauto.
  vm_compute bytes. digits_ok.
Qed.

(** C12: base-36 state vectors. *)
Theorem C12_base36_roundtrip : forall v rest, Z.abs v < 36 ^ 8 -> get_high_value (encode36 v ++ rest) = Ok v.
Proof. exact high_roundtrip. Qed.
Print Assumptions C12_base36_roundtrip.
Theorem C12_base36_range : forall p v, get_high_value p = Ok v -> Z.abs v < 36 ^ 8.
Proof. exact high_value_range. Qed.
Print Assumptions C12_base36_range.
Theorem C12_state_vector : forall l1 l2 x y z vx vy vz s,
  (70 <= length l1)%nat -> (70 <= length l2)%nat ->
  col l1 62 = 72 -> col l1 0 = 49 -> col l2 0 = 50 ->
  Z.abs x < 36 ^ 8 -> Z.abs y < 36 ^ 8 -> Z.abs z < 36 ^ 8 ->
  Z.abs vx < 36 ^ 8 -> Z.abs vy < 36 ^ 8 -> Z.abs vz < 36 ^ 8 ->
  field l1 33 9 = encode36 x -> field l1 43 9 = encode36 y -> field l1 53 9 = encode36 z ->
  field l2 33 9 = encode36 vx -> field l2 43 9 = encode36 vy -> field l2 53 9 = encode36 vz ->
  forall k1 k2 sc, tle_checksum l1 = Ok k1 -> tle_checksum l2 = Ok k2 -> 0 <= k1 -> 0 <= k2 ->
  parse_common l1 l2 s = Ok sc ->
  exists s', parse_elements l1 l2 s = Ok (0, s') /\
    xincl s' = inject_Z x /\ xnodeo s' = inject_Z y /\ eo s' = inject_Z z /\
    (omegao s' == inject_Z vx / inject_Z (10 ^ 4))%Q /\ (xmo s' == inject_Z vy / inject_Z (10 ^ 4))%Q /\
    (xno s' == inject_Z vz / inject_Z (10 ^ 4))%Q /\
    epoch s' = epoch sc /\ norad_number s' = norad_number sc /\ ephemeris_type s' = 72.
Proof. exact parse_high_elements. Qed.
Print Assumptions C12_state_vector.
Example C12_example : encode36 (-123456789) = bytes "-0021I3V9" /\ get_high_value (bytes "+ZZZZZZZZ") = Ok (36 ^ 8 - 1).
Proof. vm_compute. repeat split. Qed.
Example C12_example_lines :
  field high1 33 9 = encode36 481261 /\ field high1 53 9 = encode36 1 /\ col high1 62 = 72 /\
  tle_checksum high1 = Ok 0 /\ tle_checksum high2 = Ok 0 /\ exists sc, parse_common high1 high2 blank_tle = Ok sc.
Proof.
  split; [vm_compute; reflexivity|]. split; [vm_compute; reflexivity|]. split; [vm_compute; reflexivity|].
  split; [vm_compute; reflexivity|]. split; [vm_compute; reflexivity|]. eexists. vm_compute. reflexivity.
Qed.

(** C13: exact condition under which a state vector reaches the integrator ... *)
Theorem C13_state_vector_propagator_partial : forall deep t, ephemeris_type t = 72 ->
  (chosen_propagator deep t = StateVector <->
   (xno t <= 0)%Q \/ (1 < eo t)%Q \/ (eo t < 0)%Q \/ deep t = true).
Proof. exact high_chosen_iff. Qed.
Print Assumptions C13_state_vector_propagator_partial.
(** ... so the property is false: for this state vector (z = 1 m, vz > 0) SGP4 is run on a state vector when the period test fails. *)
Theorem C13_state_vector_propagator_refuted :
  exists s, parse_elements high1 high2 blank_tle = Ok (0, s) /\ ephemeris_type s = 72 /\
    chosen_propagator (fun _ => false) s = Near.
Proof. eexists. split; [vm_compute; reflexivity|]. vm_compute. repeat split. Qed.
Print Assumptions C13_state_vector_propagator_refuted.
