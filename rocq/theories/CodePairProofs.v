(** Lemmas about code pair streams. *)
From Verif Require Import CodePairSpec TextProofs F64Proofs.
Open Scope N_scope.
Ltac Zify.zify_post_hook ::= Z.div_mod_to_equations.

Lemma backslash_safe_survives : forall s, backslash_safe s <-> survives s.
Proof.
  split; (induction 1; [constructor|first [apply survives_char|apply bs_char]; assumption
                       |first [apply survives_window|apply bs_window]; assumption]).
Qed.

(** * Types of codes *)

Definition vtype_eqb (a b : vtype) : bool :=
  match a, b with
  | TBool, TBool | TInt, TInt | TLong, TLong | TShort, TShort | TDouble, TDouble | TStr, TStr | TBin, TBin => true
  | _, _ => false
  end.
Lemma vtype_eqb_eq : forall a b, vtype_eqb a b = true <-> a = b.
Proof. intros [] []; cbn; split; congruence. Qed.

(** Every code in 0..1071 agrees with every range, checked exhaustively. *)
Definition range_agrees (c : Z) (r : Z * Z * vtype) : bool :=
  let '(lo, hi, t) := r in
  implb (between lo hi c) (match expected_type c with Some t' => vtype_eqb t t' | None => false end).
Definition code_agrees (c : Z) : bool :=
  forallb (range_agrees c) code_ranges &&
  match expected_type c with
  | Some t => existsb (fun r => between (fst (fst r)) (snd (fst r)) c && vtype_eqb (snd r) t) code_ranges
  | None => true
  end.
Lemma codes_agree : forallb code_agrees (map Z.of_nat (seq 0 1072)) = true.
Proof. vm_compute. reflexivity. Qed.

Lemma code_agrees_all : forall c, (0 <= c <= 1071)%Z -> code_agrees c = true.
Proof.
  intros c H. pose proof codes_agree as A. rewrite forallb_forall in A. apply A.
  apply in_map_iff. exists (Z.to_nat c). split; [lia|]. apply in_seq. lia.
Qed.

Lemma expected_type_outside : forall c, (c < 0 \/ 1071 < c)%Z -> expected_type c = None.
Proof.
  intros c H. unfold expected_type.
  assert (B : forall lo hi, (0 <= lo)%Z -> (hi <= 1071)%Z -> between lo hi c = false) by (unfold between; intros; lia).
  rewrite !B by lia. reflexivity.
Qed.

Lemma code_ranges_bound : forall lo hi t, In (lo, hi, t) code_ranges -> (0 <= lo /\ hi <= 1071)%Z.
Proof.
  assert (A : forallb (fun r => ((0 <=? fst (fst r)) && (snd (fst r) <=? 1071))%Z) code_ranges = true) by reflexivity.
  intros lo hi t H. rewrite forallb_forall in A. apply A in H. cbn [fst snd] in H. lia.
Qed.

Lemma expected_type_ranges : forall c t, expected_type c = Some t <->
  exists lo hi, In (lo, hi, t) code_ranges /\ (lo <= c <= hi)%Z.
Proof.
  intros c t. split.
  - intros H. destruct (Z_lt_le_dec c 0) as [L|L]; [rewrite expected_type_outside in H by lia; discriminate|].
    destruct (Z_lt_le_dec 1071 c) as [G|G]; [rewrite expected_type_outside in H by lia; discriminate|].
    pose proof (code_agrees_all c ltac:(lia)) as A. unfold code_agrees in A. rewrite H in A.
    apply andb_true_iff in A as [_ A]. apply existsb_exists in A as (((lo & hi) & t') & Hin & A).
    cbn [fst snd] in A. apply andb_true_iff in A as [A1 A2]. apply vtype_eqb_eq in A2. subst t'.
    exists lo, hi. split; [assumption|]. unfold between in A1. lia.
  - intros (lo & hi & Hin & Hr). pose proof (code_ranges_bound _ _ _ Hin) as B.
    pose proof (code_agrees_all c ltac:(lia)) as A. unfold code_agrees in A.
    apply andb_true_iff in A as [A _]. rewrite forallb_forall in A. apply A in Hin. cbn [range_agrees] in Hin.
    replace (between lo hi c) with true in Hin by (unfold between; lia). cbn [implb] in Hin.
    destruct (expected_type c) as [t'|]; [|discriminate]. apply vtype_eqb_eq in Hin. congruence.
Qed.

Lemma typed_expected : forall p, typed p <-> expected_type (p_code p) = Some (value_type (p_value p)).
Proof. intros p. unfold typed. rewrite expected_type_ranges. reflexivity. Qed.

Lemma expected_type_range : forall c t, expected_type c = Some t -> (0 <= c <= 1071)%Z /\ c <> 255%Z.
Proof.
  intros c t H. split.
  - destruct (Z_lt_le_dec c 0) as [L|L]; [rewrite expected_type_outside in H by lia; discriminate|].
    destruct (Z_lt_le_dec 1071 c) as [G|G]; [rewrite expected_type_outside in H by lia; discriminate|]. lia.
  - intros ->. discriminate H.
Qed.

(** * Lines *)

Lemma read_line_loop_plain : forall allow skip i l r, Forall (fun b => b <> 10) l ->
  (i <> 0 \/ allow = false \/ hd 0 l <> 0xEF) -> skip = false ->
  read_line_loop allow skip i (l ++ 10 :: r) = (l, r).
Proof.
  intros allow skip i l r H Hb Hs. subst skip. revert i Hb. induction H as [|b l Hb' _ IH]; intros i Hb.
  - cbn [app read_line_loop]. replace ((i =? 0) && (10 =? 239) && allow) with false by lia.
    rewrite andb_false_r. reflexivity.
  - cbn [app read_line_loop]. cbn [hd] in Hb.
    replace ((i =? 0) && (b =? 239) && allow) with false by (destruct allow; lia).
    rewrite andb_false_r. replace (b =? 10) with false by lia.
    rewrite IH; [reflexivity|left; lia].
Qed.

Lemma strip_cr_cr : forall s, strip_cr (s ++ [13]) = s.
Proof. intros s. unfold strip_cr. rewrite rev_app_distr. cbn [rev app]. change (13 =? 13) with true. cbn iota. apply rev_involutive. Qed.

(** A line of ASCII text followed by CR LF. *)
Lemma read_line_ascii : forall allow enc l r,
  Forall (fun c => 0x20 <= c < 128) l ->
  read_line allow enc (l ++ crlf ++ r) = (Ok l, r).
Proof.
  intros allow enc l r H. unfold read_line, crlf.
  change (l ++ [13; 10] ++ r) with (l ++ [13] ++ 10 :: r). rewrite app_assoc.
  assert (A : Forall (fun c => c < 128) (l ++ [13])).
  { apply Forall_app. split; [|repeat constructor; lia]. eapply Forall_impl; [|exact H]. cbn. intros; lia. }
  rewrite read_line_loop_plain; [|apply Forall_app; split|right; right|reflexivity].
  - rewrite decode_ascii by exact A. rewrite strip_cr_cr. reflexivity.
  - eapply Forall_impl; [|exact H]. cbn. intros; lia.
  - repeat constructor; lia.
  - destruct A as [|x t Hx _]; cbn [hd]; lia.
Qed.

(** A line of UTF-8 text followed by CR LF, read as UTF-8. *)
Lemma read_line_utf8 : forall s r, is_string s -> Forall (fun c => 0x20 <= c) s -> hd 0 s <> 0xFEFF ->
  read_line false UTF_8 (utf8_encode s ++ crlf ++ r) = (Ok s, r).
Proof.
  intros s r Hs Hc Hb. unfold read_line, crlf.
  change (utf8_encode s ++ [13; 10] ++ r) with (utf8_encode s ++ [13] ++ 10 :: r). rewrite app_assoc.
  assert (E : utf8_encode s ++ [13] = utf8_encode (s ++ [13])).
  { unfold utf8_encode. rewrite flat_map_app. reflexivity. }
  rewrite read_line_loop_plain; [|apply Forall_app; split|right; left; reflexivity|reflexivity].
  - rewrite E. rewrite decode_utf8_encode.
    + rewrite strip_cr_cr. reflexivity.
    + apply Forall_app. split; [assumption|repeat constructor].
    + destruct s as [|c s]; cbn [app hd] in *; [lia|assumption].
  - eapply Forall_impl; [|apply utf8_encode_no_control; exact Hc]. cbn. intros; lia.
  - repeat constructor; lia.
Qed.

(** * Text round trip *)

Definition ascii_line (s : rstring) : Prop := Forall (fun c => 0x20 <= c < 128) s.

Lemma ascii_line_b : forall s, forallb (fun c => (0x20 <=? c) && (c <? 128)) s = true -> ascii_line s.
Proof.
  intros s H. apply Forall_forall. rewrite forallb_forall in H. intros x Hx. apply H in Hx. lia.
Qed.

Lemma pad_left_ascii : forall w s, ascii_line s -> ascii_line (pad_left w s).
Proof.
  intros w s H. unfold pad_left. apply Forall_app. split; [|assumption].
  apply Forall_forall. intros x Hx. apply repeat_spec in Hx. subst. lia.
Qed.

Lemma show_int_ascii : forall z, ascii_line (show_int z).
Proof. intros z. eapply Forall_impl; [|apply show_int_chars]. cbn. intros; lia. Qed.

Lemma ascii_line_128 : forall s, ascii_line s -> Forall (fun c => c < 128) s.
Proof. intros s H. eapply Forall_impl; [|exact H]. cbn. intros; lia. Qed.

Lemma utf8_ascii_line : forall s, ascii_line s -> utf8_encode (s ++ crlf) = s ++ crlf.
Proof.
  intros s H. apply utf8_encode_ascii. apply Forall_app. split; [apply ascii_line_128; assumption|].
  repeat constructor; lia.
Qed.

Lemma format_f64_ascii : forall d, ascii_line (format_f64 d).
Proof.
  intros d. destruct (f64_finite d) eqn:Hf.
  - destruct (format_f64_shape d Hf) as (fs & _ & Rf & E & _). rewrite E.
    assert (A : forall l, Forall (fun d => (d < 10)%N) l -> ascii_line (map dchar l)).
    { intros l H. apply Forall_map. eapply Forall_impl; [|exact H]. cbn. unfold dchar. intros; lia. }
    apply Forall_app. split; [destruct (f64_neg d); repeat constructor; lia|].
    apply Forall_app. split; [apply A; apply digits_range; lia|].
    constructor; [lia|apply A; assumption].
  - unfold format_f64, format_12. rewrite Hf.
    destruct (f64_frac d =? 0)%Z; [destruct (f64_neg d)|]; apply ascii_line_b; reflexivity.
Qed.

Lemma show_value_ascii : forall v, value_wf v -> (forall s, v <> VStr s) -> ascii_line (show_value v).
Proof.
  intros v H Hs. destruct v; cbn [show_value]; try apply pad_left_ascii; try apply show_int_ascii.
  - apply format_f64_ascii.
  - exfalso. eapply Hs. reflexivity.
  - eapply Forall_impl; [|apply show_binary_ascii; exact H]. cbn. intros; lia.
Qed.

Lemma trim_show_int : forall w z, trim (pad_left w (show_int z)) = show_int z.
Proof. intros. apply trim_pad_left. apply show_int_nonwhite. Qed.

Lemma pad_white : forall w (s : rstring), all_white (repeat 32 (w - length s)).
Proof. intros. apply Forall_forall. intros x Hx. apply repeat_spec in Hx. subst. reflexivity. Qed.

Lemma decimal12_parse : forall d o, decimal12 d -> parse_f64 (format_f64 d) o = Ok d.
Proof.
  intros d o (Hd & [(Hf & neg & s & Hs & E)|(Hf & Hz)]).
  - subst d. apply decimal_stable; assumption.
  - apply parse_format_inf; assumption.
Qed.

Lemma parse_show_value : forall enc v o, value_wf v -> (forall s, v <> VStr s) ->
  (forall d, v = VDouble d -> decimal12 d) ->
  parse_value enc (value_type v) (show_value v) o = Ok v.
Proof.
  intros enc v o H Hs Hd. destruct v; cbn [value_type show_value parse_value].
  - change (show_int z) with ([] ++ show_int z). rewrite parse_i16_show by (auto; constructor). reflexivity.
  - unfold parse_i32. rewrite trim_show_int. rewrite parse_show_int; [reflexivity|].
    cbn [value_wf] in H. unfold is_i32 in H. lia.
  - unfold parse_i64. rewrite trim_id by apply show_int_nonwhite. rewrite parse_show_int; [reflexivity|].
    cbn [value_wf] in H. unfold is_i64 in H. lia.
  - unfold pad_left. rewrite parse_i16_show by (auto; apply pad_white). reflexivity.
  - rewrite decimal12_parse by (apply Hd; reflexivity). reflexivity.
  - exfalso. eapply Hs. reflexivity.
  - rewrite binary_text_roundtrip by assumption. reflexivity.
Qed.

Lemma escape_control_hd : forall s, hd 0 s <> 0xFEFF -> hd 0 (escape_control_characters s) <> 0xFEFF.
Proof.
  intros [|c s] H; [exact H|]. unfold escape_control_characters. cbn [flat_map]. unfold escape_control_char.
  destruct (needs_escaping c); cbn [app hd] in *; [unfold caret; lia|exact H].
Qed.

Lemma escape_unicode_id : forall s, Forall (fun c => c < 128) s -> escape_unicode_to_ascii s = s.
Proof.
  intros s H. rewrite <- (app_nil_r s) at 1. rewrite escape_unicode_ascii_id by assumption. apply app_nil_r.
Qed.

Lemma escape_control_128 : forall s, Forall (fun c => c < 128) s -> Forall (fun c => c < 128) (escape_control_characters s).
Proof.
  induction 1 as [|c s Hc _ IH]; [constructor|].
  unfold escape_control_characters in *. cbn [flat_map]. apply Forall_app. split; [|exact IH].
  unfold escape_control_char, needs_escaping.
  destruct ((c <=? 0x1F) || (c =? 0x5E)) eqn:E.
  - constructor; [unfold caret; lia|]. constructor; [|constructor]. destruct (c =? 0x5E) eqn:E2; lia.
  - constructor; [lia|constructor].
Qed.

(** The string written for a [VStr] value, as characters. *)
Definition string_line (ascii : bool) (s : rstring) : rstring :=
  let s1 := escape_control_characters s in if ascii then escape_unicode_to_ascii s1 else s1.

Lemma string_line_plain : forall ascii s, Forall (fun c => c < 128) s -> string_line ascii s = escape_control_characters s.
Proof.
  intros [] s H; [|reflexivity]. unfold string_line. apply escape_unicode_id. apply escape_control_128. assumption.
Qed.

(** Reading the line of a faithful string. *)
Lemma read_string_line : forall ascii enc s r o, text_faithful ascii enc (VStr s) ->
  exists l, read_line false enc (utf8_encode (string_line ascii s ++ crlf) ++ r) = (Ok l, r) /\
            parse_value enc TStr l o = Ok (VStr s).
Proof.
  intros ascii enc s r o [Hs Hf]. cbn [value_wf] in Hs.
  assert (Hc := escape_control_no_control s).
  assert (AE : forall s', ascii_line s' -> utf8_encode (s' ++ crlf) ++ r = s' ++ crlf ++ r).
  { intros s' H. rewrite utf8_ascii_line by assumption. rewrite app_assoc. reflexivity. }
  destruct enc.
  - destruct Hf as [Hsafe Hmode]. rewrite <- escape_caret_form in Hsafe. apply backslash_safe_survives in Hsafe.
    assert (E : string_line ascii s = escape_unicode_to_ascii (escape_control_characters s)).
    { destruct Hmode as [->|H]; [reflexivity|]. rewrite string_line_plain by assumption.
      symmetry. apply escape_unicode_id. apply escape_control_128. assumption. }
    assert (A : ascii_line (string_line ascii s)) by (rewrite E; apply escape_unicode_ascii; assumption).
    exists (string_line ascii s). split.
    + rewrite AE by assumption. apply read_line_ascii. assumption.
    + cbn [parse_value enc_is_1252]. rewrite E. rewrite ascii_pipeline_roundtrip by assumption. reflexivity.
  - destruct Hf as [Hmode Hb].
    assert (E : string_line ascii s = escape_control_characters s).
    { destruct Hmode as [->|H]; [reflexivity|]. apply string_line_plain. assumption. }
    exists (escape_control_characters s). split.
    + rewrite E. unfold utf8_encode at 1. rewrite flat_map_app. fold (utf8_encode (escape_control_characters s)).
      change (flat_map utf8_char crlf) with crlf. rewrite <- app_assoc. apply read_line_utf8.
      * apply escape_control_scalar. assumption.
      * assumption.
      * apply escape_control_hd. assumption.
    + cbn [parse_value enc_is_1252]. rewrite un_escape_escape. reflexivity.
Qed.

Definition code_line (c : Z) : rstring := pad_left 3 (show_int c).

Lemma code_line_trim : forall c, trim (code_line c) = show_int c.
Proof. intros. apply trim_show_int. Qed.

(** The two lines of a pair. *)
Definition value_bytes (ascii : bool) (v : value) : bytes :=
  match v with
  | VStr s => utf8_encode (string_line ascii s ++ crlf)
  | _ => utf8_encode (show_value v ++ crlf)
  end.

Lemma write_text_pair_split : forall ascii p,
  write_text_pair ascii p = code_line (p_code p) ++ crlf ++ value_bytes ascii (p_value p).
Proof.
  intros ascii [c v]. unfold write_text_pair. cbn [p_code p_value].
  rewrite utf8_ascii_line by (apply pad_left_ascii; apply show_int_ascii).
  rewrite <- app_assoc. destruct v; reflexivity.
Qed.

Lemma read_value_line : forall ascii enc v r o, text_faithful ascii enc v ->
  exists l, read_line false enc (value_bytes ascii v ++ r) = (Ok l, r) /\
            parse_value enc (value_type v) l o = Ok v.
Proof.
  intros ascii enc v r o Hf.
  assert (G : (forall s, v <> VStr s) -> exists l, read_line false enc (utf8_encode (show_value v ++ crlf) ++ r) = (Ok l, r) /\
            parse_value enc (value_type v) l o = Ok v).
  { intros Hn. destruct Hf as [Hw Hv]. exists (show_value v). split.
    - pose proof (show_value_ascii v Hw Hn) as A. rewrite utf8_ascii_line by assumption.
      rewrite <- app_assoc. apply read_line_ascii. assumption.
    - apply parse_show_value; [assumption|assumption|]. intros d ->. assumption. }
  destruct v; try (apply G; intros; discriminate).
  apply read_string_line. assumption.
Qed.

Lemma text_next_code : forall ascii enc p r o first,
  expected_type (p_code p) = Some (value_type (p_value p)) ->
  text_faithful ascii enc (p_value p) ->
  forall st, (first = true -> st = mk_text (value_bytes ascii (p_value p) ++ r) enc (Some (code_line (p_code p))) o) ->
  (first = false -> st = mk_text (write_text_pair ascii p ++ r) enc None o) ->
  text_next st = (Some (Ok (p, if first then o else o + 1)),
                  mk_text r enc None (if first then o + 1 else o + 2)).
Proof.
  intros ascii enc p r o first Ht Hf st S1 S2.
  pose proof (expected_type_range _ _ Ht) as [Rc _].
  assert (Hcode : forall o', parse_i32 (show_int (p_code p)) o' = Ok (p_code p)).
  { intros o'. unfold parse_i32. rewrite trim_id by apply show_int_nonwhite.
    rewrite parse_show_int by lia. reflexivity. }
  pose proof (show_int_ne (p_code p)) as Hne.
  destruct first.
  - rewrite (S1 eq_refl). unfold text_next, text_pair. cbn [t_first t_rest t_enc t_off].
    rewrite code_line_trim.
    destruct (show_int (p_code p)) as [|ch tl]; [congruence|]. rewrite Hcode.
    destruct (read_value_line ascii enc (p_value p) r (o + 1) Hf) as (l & E1 & E2).
    rewrite E1, Ht. cbn [t_off]. rewrite E2. cbn [bind]. destruct p; reflexivity.
  - rewrite (S2 eq_refl). unfold text_next, text_pair. cbn [t_first t_rest t_enc t_off].
    rewrite write_text_pair_split. rewrite <- !app_assoc.
    rewrite read_line_ascii by (apply pad_left_ascii; apply show_int_ascii).
    cbn [t_first t_rest t_enc t_off].
    rewrite code_line_trim.
    destruct (show_int (p_code p)) as [|ch tl]; [congruence|]. rewrite Hcode.
    destruct (read_value_line ascii enc (p_value p) r (o + 1 + 1) Hf) as (l & E1 & E2).
    rewrite E1, Ht. cbn [t_off]. rewrite E2. cbn [bind].
    replace (o + 1 + 1) with (o + 2) by lia. destruct p; reflexivity.
Qed.

Definition pair_ok_text (ascii : bool) (enc : encoding) (p : pair) : Prop :=
  typed p /\ text_faithful ascii enc (p_value p).

Lemma drain_text_tail : forall ascii enc ps o fuel,
  Forall (pair_ok_text ascii enc) ps -> (length ps < fuel)%nat ->
  drain fuel (RText (mk_text (write_text ascii ps) enc None o)) = (number_lines (o + 1) ps, None).
Proof.
  intros ascii enc ps. induction ps as [|p ps IH]; intros o fuel H L; (destruct fuel as [|fuel]; [cbn in L; lia|]).
  - cbn [write_text flat_map drain reader_next]. unfold text_next, text_pair. cbn [t_first t_rest t_enc t_off].
    unfold read_line. cbn [read_line_loop]. rewrite decode_ascii by constructor. reflexivity.
  - inversion H as [|? ? [Ht Hf] Hps]; subst. apply typed_expected in Ht.
    change (write_text ascii (p :: ps)) with (write_text_pair ascii p ++ write_text ascii ps).
    cbn [drain reader_next].
    rewrite (text_next_code ascii enc p (write_text ascii ps) o false Ht Hf _ ltac:(discriminate) ltac:(reflexivity)).
    rewrite IH; [|assumption|cbn in L; lia]. cbn [number_lines].
    replace (o + 2 + 1) with (o + 1 + 2) by lia. reflexivity.
Qed.

(** Reading a file back. *)
Lemma text_stream_roundtrip : forall ascii enc ps fuel,
  Forall (pair_ok_text ascii enc) ps -> (length ps < fuel)%nat ->
  exists rd, open_reader enc (write_text ascii ps) = Ok rd /\
             drain fuel rd = (number_lines 1 ps, None).
Proof.
  intros ascii enc ps fuel H L. destruct ps as [|p ps].
  - eexists. split.
    + unfold open_reader, write_text. cbn [flat_map]. unfold read_line. cbn [read_line_loop].
      rewrite decode_ascii by constructor. reflexivity.
    + destruct fuel as [|fuel]; [cbn in L; lia|]. reflexivity.
  - inversion H as [|? ? [Ht Hf] Hps]; subst. apply typed_expected in Ht.
    eexists. split.
    + unfold open_reader, write_text. cbn [flat_map]. rewrite write_text_pair_split. rewrite <- !app_assoc.
      rewrite read_line_ascii by (apply pad_left_ascii; apply show_int_ascii). cbn [bind].
      assert (E : seqb (code_line (p_code p)) (str "AutoCAD Binary DXF") = false).
      { apply seqb_neq. intros E. apply (f_equal trim) in E. rewrite code_line_trim in E.
        pose proof (show_int_chars (p_code p)) as C. rewrite E in C. cbn in C. inversion C; subst. lia. }
      rewrite E. reflexivity.
    + destruct fuel as [|fuel]; [cbn in L; lia|]. cbn [drain reader_next].
      fold (write_text ascii ps).
      rewrite (text_next_code ascii enc p (write_text ascii ps) 1 true Ht Hf _ ltac:(reflexivity) ltac:(discriminate)).
      rewrite drain_text_tail; [|assumption|cbn in L; lia]. reflexivity.
Qed.
