(** Properties C35, C36 and C37. *)
From Verif Require Import Base BitsModel FlagData BitsSpec BitsProofs.
Open Scope Z_scope.

(** C35. Whatever boolean properties are set, in whatever order, every property of the word reads as last set,
    or as before if never set. *)
Theorem C35_flags_read_as_last_set : forall owner fs, In (owner, fs) flag_words ->
  forall prog name w before, get_flag fs name w = Some before ->
  get_flag fs name (run_assignments fs prog w) = Some (last_assigned name prog before).
Proof. exact flags_independent. Qed.
Print Assumptions C35_flags_read_as_last_set.

(** Bits of the word that belong to no property keep their value, and the word stays a 32-bit integer. *)
Theorem C35_other_bits_untouched : forall owner fs, In (owner, fs) flag_words ->
  forall prog w i, 0 <= i -> flag_bit fs i = false -> Z.testbit (run_assignments fs prog w) i = Z.testbit w i.
Proof. exact other_bits_kept. Qed.
Print Assumptions C35_other_bits_untouched.
Theorem C35_word_stays_i32 : forall owner fs, In (owner, fs) flag_words ->
  forall prog w, is_i32 w = true -> is_i32 (run_assignments fs prog w) = true.
Proof. exact assignments_fit. Qed.
Print Assumptions C35_word_stays_i32.

Definition word_flags (owner : string) : list flag :=
  match find (fun '(o, _) => String.eqb o owner) flag_words with Some (_, fs) => fs | None => [] end.
Example C35_case : let fs := word_flags "Polyline.flags" in
  let prog := [("is_3d_polyline", true); ("is_closed", true); ("is_3d_polyline", false)]%string in
  In ("Polyline.flags"%string, fs) flag_words /\ get_flag fs "is_closed" 1024 = Some false /\
  get_flag fs "is_closed" (run_assignments fs prog 1024) = Some true /\ run_assignments fs prog 1024 = 1025.
Proof.
  split; [|vm_compute; repeat split; reflexivity].
  apply (find_some (fun '(o, _) => String.eqb o "Polyline.flags")). vm_compute. reflexivity.
Qed.

(** The two properties of a proxy entity kept in one word do not behave this way: setting the format version a
    second time mixes the two values. *)
Theorem C35_proxy_version_refuted : exists w v1 v2, is_i16 v1 = true /\ is_i16 v2 = true /\ 0 <= v1 /\ 0 <= v2 /\
  proxy_version (proxy_set_version v1 w) = v1 /\ proxy_version (proxy_set_version v2 (proxy_set_version v1 w)) <> v2.
Proof. exists 0, 1, 2. vm_compute. repeat split; congruence. Qed.
Print Assumptions C35_proxy_version_refuted.
(** and the release number read is not the one set as soon as the version is at least 16. *)
Theorem C35_proxy_release_refuted : exists w r w', proxy_set_release r w = Ok w' /\ proxy_release w' <> r.
Proof. exists 16, 0, 16. vm_compute. split; [reflexivity|congruence]. Qed.
Print Assumptions C35_proxy_release_refuted.

(** C36. Type and flags written into one word are all read back. *)
Theorem C36_dimension_word_roundtrip : forall d, dim_of_i16 (dim_to_i16 d) = d.
Proof. exact dim_roundtrip. Qed.
Print Assumptions C36_dimension_word_roundtrip.
(** Of any stored word the three flags are the bits 5, 6 and 7, and the type is the low four bits when they
    name one of the seven types, [Aligned] otherwise. *)
Theorem C36_dimension_word_meaning : forall w,
  dw_block_only (dim_of_i16 w) = Z.testbit w 5 /\ dw_ordinate_x (dim_of_i16 w) = Z.testbit w 6 /\
  dw_user_location (dim_of_i16 w) = Z.testbit w 7 /\
  (w mod 16 <= 6 -> dimension_type_i16 (dw_type (dim_of_i16 w)) = w mod 16) /\
  (6 < w mod 16 -> dw_type (dim_of_i16 w) = Aligned).
Proof. exact dim_reads_bits. Qed.
Print Assumptions C36_dimension_word_meaning.
(** A stored word without stray bits is written back unchanged. *)
Theorem C36_stored_word_kept : forall w, 0 <= w < 256 -> w mod 16 <= 6 -> Z.testbit w 4 = false ->
  dim_to_i16 (dim_of_i16 w) = w.
Proof. exact dim_reencode. Qed.
Print Assumptions C36_stored_word_kept.
Example C36_case : dim_of_i16 (128 + 32 + 5) = mk_dim AngularThreePoint true false true /\
  dim_to_i16 (mk_dim Ordinate false true true) = 198 /\ 198 mod 16 <= 6 /\ Z.testbit 198 4 = false.
Proof. vm_compute. repeat split; congruence. Qed.

(** C37. A colour has exactly one kind... *)
Theorem C37_one_kind : forall c, c <= 257 ->
  exists k, has_kind k c = true /\ forall k', has_kind k' c = true -> k' = k.
Proof. exact color_one_kind. Qed.
Print Assumptions C37_one_kind.
(** ... except raw values above 257, which can be read from a file and have none. *)
Theorem C37_one_kind_refuted : exists c, is_i16 c = true /\ forall k, has_kind k c = false.
Proof. exists 300. split; [reflexivity|]. apply color_no_kind. reflexivity. Qed.
Print Assumptions C37_one_kind_refuted.
Theorem C37_index_roundtrip : forall i, (1 <= i < 256)%N -> color_index (color_from_index i) = Some i.
Proof. exact color_index_roundtrip. Qed.
Print Assumptions C37_index_roundtrip.
Theorem C37_index_is_faithful : forall c i, color_index c = Some i -> color_from_index i = c /\ (1 <= i < 256)%N.
Proof. exact color_index_back. Qed.
Print Assumptions C37_index_is_faithful.
(** Index 0 is accepted by the constructor but is the by-block colour. *)
Theorem C37_index_zero_refuted : exists i, (i < 256)%N /\ color_index (color_from_index i) <> Some i.
Proof. exists 0%N. vm_compute. split; [reflexivity|discriminate]. Qed.
Print Assumptions C37_index_zero_refuted.
(** A layer's colour and visibility survive being stored in one signed number. *)
Theorem C37_layer_color_roundtrip : forall c on, is_i16 c = true -> 0 < c \/ (c = 0 /\ on = true) ->
  exists z, writable_color_value c on = Ok z /\ is_i16 z = true /\ read_color_value z = Ok (c, on).
Proof. exact layer_color_roundtrip. Qed.
Print Assumptions C37_layer_color_roundtrip.
(** For every other colour than 0 the visibility survives, and the colour up to its sign. *)
Theorem C37_layer_visibility : forall c on z, is_i16 c = true -> c <> 0 -> writable_color_value c on = Ok z ->
  read_color_value z = Ok (Z.abs c, on).
Proof. exact layer_color_never_loses_off. Qed.
Print Assumptions C37_layer_visibility.
(** An invisible layer with colour 0 comes back visible, a negative colour loses its sign, and the least 16-bit
    number makes both directions panic. *)
Theorem C37_layer_color_zero_refuted : exists c on z, is_i16 c = true /\ writable_color_value c on = Ok z /\ read_color_value z = Ok (c, negb on).
Proof. exists 0, false, 0. vm_compute. repeat split; reflexivity. Qed.
Print Assumptions C37_layer_color_zero_refuted.
Theorem C37_layer_color_panics_refuted : exists c, is_i16 c = true /\ read_color_value c = Err Panic /\ forall on, writable_color_value c on = Err Panic.
Proof. exists (-32768). vm_compute. repeat split; reflexivity. Qed.
Print Assumptions C37_layer_color_panics_refuted.
Example C37_case : writable_color_value 5 false = Ok (-5) /\ read_color_value (-5) = Ok (5, false) /\
  has_kind KOff (-5) = true /\ color_index (color_from_index 7) = Some 7%N.
Proof. repeat split; reflexivity. Qed.
