(** Theorems C01-C07 about single values in text files. *)
From Coq Require Import QArith Qabs.
From Verif Require Import CodePairSpec F64Spec TextProofs F64Proofs F64SpecProofs CodePairProofs.
Open Scope N_scope.

(** * C01: control characters and carets *)

Theorem C01_control_characters_roundtrip : forall s : rstring,
  un_escape_string (escape_control_characters s) = s.
Proof. exact un_escape_escape. Qed.
Print Assumptions C01_control_characters_roundtrip.

(** "a\t^b\0" *)
Example C01_example : escape_control_characters [0x61; 0x09; 0x5E; 0x62; 0x00] = str "a^I^ b^@" /\
  un_escape_string (str "a^I^ b^@") = [0x61; 0x09; 0x5E; 0x62; 0x00].
Proof. vm_compute. auto. Qed.

(** The escaped form is the documented caret notation. *)
Theorem C01_escape_is_caret_notation : forall s, escape_control_characters s = caret_form s.
Proof. exact escape_caret_form. Qed.
Print Assumptions C01_escape_is_caret_notation.

(** * C02: a string cannot break the framing *)

(** The bytes of a string pair in a text file are exactly two lines; its value line has no
    control character and is 7-bit when the file is written as ASCII. *)
Lemma c02_text : forall ascii c s,
  exists code_line value_line,
    write_text_pair ascii (mk_pair c (VStr s)) = code_line ++ [13; 10] ++ value_line ++ [13; 10] /\
    Forall (fun b => 32 <= b < 128) code_line /\ Forall (fun b => 32 <= b) value_line /\
    (ascii = true -> Forall (fun b => b < 128) value_line).
Proof.
  intros ascii c s. unfold write_text_pair. cbn [p_code p_value].
  exists (utf8_encode (pad_left 3 (show_int c))), (utf8_encode (string_line ascii s)).
  pose proof (escape_control_no_control s) as NC.
  split; [|split; [|split]].
  - unfold utf8_encode. rewrite !flat_map_app. rewrite <- !app_assoc. reflexivity.
  - pose proof (pad_left_ascii 3 _ (show_int_ascii c)) as A.
    rewrite utf8_encode_ascii by (eapply Forall_impl; [|exact A]; cbn; intros; lia).
    eapply Forall_impl; [|exact A]; cbn; intros; lia.
  - apply utf8_encode_no_control. unfold string_line. destruct ascii; [|exact NC].
    eapply Forall_impl; [|apply escape_unicode_ascii; exact NC]. cbn; intros; lia.
  - intros ->. unfold string_line. pose proof (escape_unicode_ascii _ NC) as A.
    rewrite utf8_encode_ascii; (eapply Forall_impl; [|exact A]); cbn; intros; lia.
Qed.
Theorem C02_text_framing : forall ascii c s,
  exists code_line value_line,
    write_text_pair ascii (mk_pair c (VStr s)) = code_line ++ [13; 10] ++ value_line ++ [13; 10] /\
    Forall (fun b => 32 <= b < 128) code_line /\ Forall (fun b => 32 <= b) value_line /\
    (ascii = true -> Forall (fun b => b < 128) value_line).
Proof. exact c02_text. Qed.
Print Assumptions C02_text_framing.

Lemma c02_binary : forall r13 s,
  exists bs, write_bin_value r13 (VStr s) = bs ++ [0] /\ Forall (fun b => 32 <= b) bs.
Proof.
  intros r13 s. exists (utf8_encode (escape_control_characters s)). split; [reflexivity|].
  apply utf8_encode_no_control, escape_control_no_control.
Qed.
Theorem C02_binary_framing : forall r13 s,
  exists bs, write_bin_value r13 (VStr s) = bs ++ [0] /\ Forall (fun b => 32 <= b) bs.
Proof. exact c02_binary. Qed.
Print Assumptions C02_binary_framing.

(** A string made of a line feed, a NUL and the letter e with acute accent. *)
Example C02_example :
  write_text_pair true (mk_pair 1 (VStr [10; 0; 0xE9])) = str "  1" ++ [13; 10] ++ str "^J^@\U+00E9" ++ [13; 10] /\
  write_bin_value true (VStr [10; 0; 0xE9]) = str "^J^@" ++ [0xC3; 0xA9] ++ [0].
Proof. vm_compute. auto. Qed.

(** * C03: Unicode text in R2004 and earlier *)

(** Full statement: [forall s, is_string s -> unicode_pipeline s = s]. It is false. *)
Definition unicode_pipeline (s : rstring) : rstring :=
  un_escape_string (un_escape_ascii_to_unicode (escape_unicode_to_ascii (escape_control_characters s))).

(** "C:\temp" loses everything from the backslash on; U+1F600 becomes U+1F60 and "0";
    the text "\U+0041" becomes "A". *)
Theorem C03_unicode_refuted : exists s, is_string s /\ unicode_pipeline s <> s.
Proof. exists (str "C:\temp"). split; [repeat constructor|]. vm_compute. discriminate. Qed.
Print Assumptions C03_unicode_refuted.
Example C03_refuted_cases :
  unicode_pipeline (str "C:\temp") = str "C:" /\ unicode_pipeline [0x1F600] = [0x1F60; 0x30] /\
  unicode_pipeline (str "\U+0041") = str "A" /\ unicode_pipeline [0x1C] = [].
Proof. vm_compute. auto. Qed.

(** What holds: strings of the basic plane in which every backslash of the caret form is followed by six
    ASCII characters that do not start an escape. Missing from the full claim: the strings above. *)
Theorem C03_unicode_roundtrip_partial : forall s,
  is_string s -> backslash_safe (caret_form s) -> unicode_pipeline s = s.
Proof.
  intros s H B. rewrite <- escape_caret_form in B. apply ascii_pipeline_roundtrip; [exact H|].
  apply backslash_safe_survives. exact B.
Qed.
Print Assumptions C03_unicode_roundtrip_partial.
(** "Größe \\server\dir\file \t": with a backslash that is far enough from the end. *)
Example C03_example : is_string ([0x47; 0x72; 0xF6; 0xDF; 0x65] ++ str "\Pabcdefgh") /\
  backslash_safe (caret_form ([0x47; 0x72; 0xF6; 0xDF; 0x65] ++ str "\Pabcdefgh")) /\
  unicode_pipeline ([0x47; 0x72; 0xF6; 0xDF; 0x65] ++ str "\Pabcdefgh") = [0x47; 0x72; 0xF6; 0xDF; 0x65] ++ str "\Pabcdefgh".
Proof.
  split; [repeat constructor|]. split; [|vm_compute; reflexivity].
  change (caret_form ([0x47; 0x72; 0xF6; 0xDF; 0x65] ++ str "\Pabcdefgh"))
    with (0x47 :: 0x72 :: 0xF6 :: 0xDF :: 0x65 :: 0x5C :: str "Pabcde" ++ str "fgh").
  do 5 (apply bs_char; [discriminate|reflexivity|]).
  apply bs_window; [reflexivity|repeat constructor|discriminate|].
  do 3 (apply bs_char; [discriminate|reflexivity|]). constructor.
Qed.

(** Strings without backslash, control character 0x1C and characters beyond the basic plane are safe. *)
Lemma c03_plain : forall s, is_string s -> Forall (fun c => c <> 0x1C /\ c <> 0x5C /\ c < 0x10000) s -> unicode_pipeline s = s.
Proof.
  intros s H P. apply ascii_pipeline_roundtrip; [exact H|]. apply survives_plain. apply escape_control_plain. exact P.
Qed.
Theorem C03_plain_text_roundtrip_partial : forall s,
  is_string s -> Forall (fun c => c <> 0x1C /\ c <> 0x5C /\ c < 0x10000) s -> unicode_pipeline s = s.
Proof. exact c03_plain. Qed.
Print Assumptions C03_plain_text_roundtrip_partial.
Example C03_plain_example : is_string [0x4E2D; 0x6587; 0x09; 0xE9] /\
  Forall (fun c => c <> 0x1C /\ c <> 0x5C /\ c < 0x10000) [0x4E2D; 0x6587; 0x09; 0xE9].
Proof. split; repeat constructor; lia. Qed.

(** The condition is exact for the second escaping step: text not containing "\U+" survives it only if its
    backslashes are safe. *)
Lemma c03_exact : forall s, is_string s -> (forall a b, s <> a ++ str "\U+" ++ b) ->
  (un_escape_ascii_to_unicode (escape_unicode_to_ascii s) = s <-> backslash_safe s).
Proof.
  intros s H N. split.
  - intros E. apply roundtrip_survives in E; [|assumption|assumption].
    induction E; [constructor|apply bs_char|apply bs_window]; auto.
    + apply IHE; [inversion H; assumption|]. intros a b X. apply (N (c :: a) b). rewrite X. reflexivity.
    + apply IHE; [inversion H as [|? ? _ H']; apply Forall_app in H'; tauto|].
      intros a b X. apply (N (0x5C :: w ++ a) b). rewrite X. cbn [app]. rewrite <- app_assoc. reflexivity.
  - intros B. apply survives_roundtrip; [assumption|]. apply backslash_safe_survives. assumption.
Qed.
Theorem C03_exact_condition : forall s, is_string s -> (forall a b, s <> a ++ str "\U+" ++ b) ->
  (un_escape_ascii_to_unicode (escape_unicode_to_ascii s) = s <-> backslash_safe s).
Proof. exact c03_exact. Qed.
Print Assumptions C03_exact_condition.
Example C03_exact_example : forall a b, str "C:\temp" <> a ++ str "\U+" ++ b.
Proof.
  intros a b H. assert (L := f_equal (@length N) H). rewrite !app_length in L. cbn [str list_ascii_of_string map length] in L.
  destruct a as [|x [|y [|z [|u [|v a]]]]]; cbn [str list_ascii_of_string map app length] in *; try discriminate H; try lia.
  all: injection H; intros; subst; discriminate.
Qed.

(** * C04: integers *)

Theorem C04_i32_roundtrip : forall a b z o, all_white a -> all_white b ->
  parse_i32 (a ++ show_int z ++ b) o = if is_i32 z then Ok z else Err (ParseIntError o).
Proof. exact parse_i32_show. Qed.
Print Assumptions C04_i32_roundtrip.
Theorem C04_i64_roundtrip : forall a b z o, all_white a -> all_white b ->
  parse_i64 (a ++ show_int z ++ b) o = if is_i64 z then Ok z else Err (ParseIntError o).
Proof. exact parse_i64_show. Qed.
Print Assumptions C04_i64_roundtrip.
(** For 16-bit numbers the part about out-of-range values is false (see below), hence partial. *)
Lemma c04_i16 : forall a b z o, all_white a -> all_white b -> is_i16 z = true -> parse_i16 (a ++ show_int z ++ b) o = Ok z.
Proof.
  intros a b z o Ha Hb Hz. unfold parse_i16. rewrite trim_show_int_surround by assumption.
  pose proof (parse_i16_show [] z o Hz (Forall_nil _)) as E. unfold parse_i16 in E. cbn [app] in E.
  rewrite trim_id in E by apply show_int_nonwhite. exact E.
Qed.
Theorem C04_i16_roundtrip_partial : forall a b z o, all_white a -> all_white b -> is_i16 z = true ->
  parse_i16 (a ++ show_int z ++ b) o = Ok z.
Proof. exact c04_i16. Qed.
Print Assumptions C04_i16_roundtrip_partial.
(** 16-bit values pass through a float and are clamped instead of being reported. *)
Theorem C04_i16_range_refuted : exists z o, is_i16 z = false /\ parse_i16 (show_int z) o = Ok 32767%Z.
Proof. exists 70000%Z, 7. vm_compute. auto. Qed.
Print Assumptions C04_i16_range_refuted.
Example C04_example :
  parse_i32 (str "   -2147483648 ") 1 = Ok (-2147483648)%Z /\ parse_i32 (str "2147483648") 1 = Err (ParseIntError 1) /\
  parse_i64 (str "9223372036854775807") 1 = Ok 9223372036854775807%Z /\ parse_i16 (str "  -7") 1 = Ok (-7)%Z.
Proof. vm_compute. auto. Qed.

(** * C05: handles *)

Theorem C05_handle_roundtrip : forall h o, (h < 2 ^ 64)%N -> handle_of_string (handle_as_string h) o = Ok h.
Proof. intros h o H. apply handle_roundtrip. unfold is_u64. lia. Qed.
Print Assumptions C05_handle_roundtrip.
Lemma c05_inj : forall h h', (h < 2 ^ 64)%N -> (h' < 2 ^ 64)%N -> handle_as_string h = handle_as_string h' -> h = h'.
Proof.
  intros h h' H H' E. pose proof (C05_handle_roundtrip h 0 H) as A. rewrite E, C05_handle_roundtrip in A by assumption. congruence.
Qed.
Theorem C05_handle_texts_distinct : forall h h', (h < 2 ^ 64)%N -> (h' < 2 ^ 64)%N ->
  handle_as_string h = handle_as_string h' -> h = h'.
Proof. exact c05_inj. Qed.
Print Assumptions C05_handle_texts_distinct.
(** Any spelling of up to sixteen digits, with blanks around. Missing from the full claim: longer
    spellings (with leading zeros), which are misread, see below. *)
Theorem C05_handle_spellings_partial : forall a b s ds o,
  all_white a -> all_white b -> Forall2 spells s ds -> (length s <= 16)%nat ->
  handle_of_string (a ++ s ++ b) o = Ok (hex_number ds).
Proof. exact handle_of_digits. Qed.
Print Assumptions C05_handle_spellings_partial.
Theorem C05_leading_zeros_refuted : exists s ds o,
  Forall2 spells s ds /\ hex_number ds = 10 /\ handle_of_string s o = Ok 0.
Proof.
  exists (repeat 0x30 17 ++ [0x41]), (repeat 0 17 ++ [10]), 1. split; [|vm_compute; auto].
  repeat (apply Forall2_cons; [unfold spells; lia|]). apply Forall2_nil.
Qed.
Print Assumptions C05_leading_zeros_refuted.
Example C05_example : handle_as_string 0xFFFFFFFFFFFFFFFE = str "FFFFFFFFFFFFFFFE" /\
  handle_of_string (str "  00aB ") 1 = Ok 0xAB.
Proof. vm_compute. auto. Qed.

(** * C06: binary values *)
Theorem C06_binary_roundtrip : forall bs o, Forall (fun b => is_byte b = true) bs ->
  parse_hex_string (show_binary bs) o = Ok bs.
Proof. exact binary_text_roundtrip. Qed.
Print Assumptions C06_binary_roundtrip.
Example C06_example : show_binary [0; 255; 0x1A] = str "00FF1A" /\ parse_hex_string (str "00FF1A") 3 = Ok [0; 255; 0x1A].
Proof. vm_compute. auto. Qed.

(** * C07: doubles *)

(** Multiples of 1/4096 are exact. *)
Theorem C07_exact_binary_fractions : forall b o k, finite_double b ->
  (double_value b * inject_Z 4096 == inject_Z k)%Q -> parse_f64 (format_f64 b) o = Ok b.
Proof. exact text_exact_4096. Qed.
Print Assumptions C07_exact_binary_fractions.
(** -1234.5 *)
Example C07_exact_example : finite_double 0xC0934A0000000000 /\
  (double_value 0xC0934A0000000000 * inject_Z 4096 == inject_Z (-5056512))%Q /\
  format_f64 0xC0934A0000000000 = str "-1234.5".
Proof. split; [split; vm_compute; congruence|]. split; vm_compute; reflexivity. Qed.

(** Every finite double comes back as a double nearest to its value rounded to twelve decimals. *)
Theorem C07_nearest_of_twelve_decimals : forall b o, finite_double b ->
  exists s r, rounded_to_12 (double_value b) s /\
    parse_f64 (format_f64 b) o = Ok r /\ negative r = negative b /\
    nearest_double (inject_Z s / inject_Z (10 ^ 12)) r.
Proof. exact text_nearest. Qed.
Print Assumptions C07_nearest_of_twelve_decimals.
(** pi *)
Example C07_nearest_example : finite_double 0x400921FB54442D18 /\
  format_f64 0x400921FB54442D18 = str "3.14159265359" /\
  parse_f64 (str "3.14159265359") 1 = Ok 0x400921FB54442EEA.
Proof. split; [split; vm_compute; congruence|]. split; vm_compute; reflexivity. Qed.

(** A second save and load changes nothing any more. *)
Lemma c07_stable : forall b o o', finite_double b ->
  exists y, parse_f64 (format_f64 b) o = Ok y /\ parse_f64 (format_f64 y) o' = Ok y.
Proof. intros b o o' F. apply finite_agree in F as [H1 H2]. apply parse_format_stable; assumption. Qed.
Theorem C07_second_save_is_stable : forall b o o', finite_double b ->
  exists y, parse_f64 (format_f64 b) o = Ok y /\ parse_f64 (format_f64 y) o' = Ok y.
Proof. exact c07_stable. Qed.
Print Assumptions C07_second_save_is_stable.

(** The unrestricted identity is false: 1e-13 is written as 0.0. *)
Theorem C07_identity_refuted : exists b o, finite_double b /\ parse_f64 (format_f64 b) o <> Ok b.
Proof. exists 0x3D3C25C268497682, 0. split; [split; vm_compute; congruence|]. vm_compute. discriminate. Qed.
Print Assumptions C07_identity_refuted.
Example C07_refuted_text : format_f64 0x3D3C25C268497682 = str "0.0".
Proof. vm_compute. reflexivity. Qed.
