(** Theorems C08-C13 about code pair streams. *)
From Verif Require Import CodePairSpec TextProofs CodePairProofs BinaryProofs ReaderProofs LineProofs.
Open Scope N_scope.
Ltac Zify.zify_post_hook ::= Z.div_mod_to_equations.

(** * C08: the group code determines the type *)

Theorem C08_delivered_pairs_are_typed : forall rd p o rd', reader_next rd = (Some (Ok (p, o)), rd') -> typed p.
Proof. exact reader_next_typed. Qed.
Print Assumptions C08_delivered_pairs_are_typed.

Theorem C08_type_table_is_the_documented_one : forall c t,
  expected_type c = Some t <-> exists lo hi, In (lo, hi, t) code_ranges /\ (lo <= c <= hi)%Z.
Proof. exact expected_type_ranges. Qed.
Print Assumptions C08_type_table_is_the_documented_one.

Theorem C08_ranges_do_not_overlap : forall c lo hi t lo' hi' t',
  In (lo, hi, t) code_ranges -> (lo <= c <= hi)%Z -> In (lo', hi', t') code_ranges -> (lo' <= c <= hi')%Z -> t = t'.
Proof. exact ranges_functional. Qed.
Print Assumptions C08_ranges_do_not_overlap.

(** A code outside the table ends the reading with an error. *)
Lemma c08_unknown : forall enc c rest fuel, is_i32 c = true ->
  (forall lo hi t, In (lo, hi, t) code_ranges -> ~ (lo <= c <= hi)%Z) ->
  line_text enc (nth_line 0 rest) <> None ->
  read_file (S fuel) enc (show_int c ++ 10 :: rest) = Ok ([], Some (UnexpectedEnumValue 2)).
Proof.
  intros enc c rest fuel Hc Hr Hl.
  assert (XT : expected_type c = None).
  { destruct (expected_type c) as [t|] eqn:E; [|reflexivity]. apply expected_type_ranges in E as (lo & hi & I & L). exfalso. eapply Hr; eassumption. }
  unfold read_file, open_reader.
  assert (A : ascii_line (show_int c)) by apply show_int_ascii.
  assert (RL : read_line true enc (show_int c ++ 10 :: rest) = (Ok (show_int c), rest)).
  { unfold read_line.
    assert (PL : Forall (fun b => b <> 10) (show_int c)) by (eapply Forall_impl; [|exact A]; cbn; intros; lia).
    assert (PE : hd 0 (show_int c) <> 0xEF).
    { destruct A as [|x t Hx _]; cbn [hd]; lia. }
    assert (LP : read_line_loop true false 0 (show_int c ++ 10 :: rest) = (show_int c, rest)).
    { clear - PL PE. assert (G : forall s i, Forall (fun b => b <> 10) s -> (i = 0 -> hd 0 s <> 0xEF) ->
         read_line_loop true false i (s ++ 10 :: rest) = (s, rest)).
      { induction s as [|b s IH]; intros i P H; cbn [app read_line_loop].
        - change (10 =? 239) with false. rewrite andb_false_r. cbn [andb]. rewrite andb_false_r. reflexivity.
        - inversion P; subst. cbn [hd] in H. replace ((i =? 0) && (b =? 239) && true) with false by lia.
          rewrite andb_false_r. replace (b =? 10) with false by lia. rewrite IH; [reflexivity|assumption|lia]. }
      apply G; auto. }
    rewrite LP. rewrite decode_ascii by (eapply Forall_impl; [|exact A]; cbn; intros; lia).
    f_equal. f_equal. apply strip_cr_none.
    destruct (show_int c) as [|x t _] using rev_ind; [discriminate|]. rewrite last_last.
    apply Forall_app in A as [_ A]. inversion A; subst. lia. }
  rewrite RL. cbn [bind].
  assert (SE : seqb (show_int c) (str "AutoCAD Binary DXF") = false).
  { destruct (seqb _ _) eqn:E; [|reflexivity]. apply seqb_eq in E. pose proof (show_int_chars c) as B. rewrite E in B.
    inversion B as [|? ? B1 _]. vm_compute in B1. destruct B1 as [_ B1]. exfalso. apply B1. reflexivity. }
  rewrite SE. cbn [bind drain reader_next]. unfold text_next; cbn [t_first t_rest t_enc t_off].
  unfold text_pair. rewrite trim_id by apply show_int_nonwhite.
  destruct (show_int c) as [|c0 l0] eqn:S; [exfalso; eapply show_int_ne; eassumption|]. rewrite <- S.
  pose proof (parse_i32_show [] [] c 1 (Forall_nil _) (Forall_nil _)) as P. rewrite app_nil_r in P. cbn [app] in P.
  cbn [t_off]. rewrite P, Hc. cbn [t_enc t_rest].
  destruct (read_line_lines false enc rest) as (r & E1 & _). rewrite E1.
  destruct (line_text enc (nth_line 0 rest)); [|congruence]. cbn [res_of_option]. rewrite XT. reflexivity.
Qed.
Theorem C08_unknown_code_is_an_error : forall enc c rest fuel, is_i32 c = true ->
  (forall lo hi t, In (lo, hi, t) code_ranges -> ~ (lo <= c <= hi)%Z) ->
  line_text enc (nth_line 0 rest) <> None ->
  read_file (S fuel) enc (show_int c ++ 10 :: rest) = Ok ([], Some (UnexpectedEnumValue 2)).
Proof. exact c08_unknown. Qed.
Print Assumptions C08_unknown_code_is_an_error.
Example C08_example :
  reader_next (RText (mk_text (str "ABC" ++ [10]) UTF_8 (Some (str " 290")) 1)) =
    (Some (Err (ParseFloatError 2)), RText (mk_text [] UTF_8 None 2)) /\
  reader_next (RText (mk_text (str "1" ++ [10]) UTF_8 (Some (str " 290")) 1)) =
    (Some (Ok (mk_pair 290 (VBool 1), 1)), RText (mk_text [] UTF_8 None 2)) /\
  read_file 9 WINDOWS_1252 (str "200" ++ 10 :: str "X") = Ok ([], Some (UnexpectedEnumValue 2)).
Proof. vm_compute. auto. Qed.

(** * C09: text streams *)

(** Full claim: every sequence of typed pairs. Missing: strings whose backslashes are not safe (C03) and doubles
    that need more than twelve decimals (C07); both are excluded by [text_faithful]. *)
Lemma c09 : forall ascii enc ps fuel,
  Forall (fun p => typed p /\ text_faithful ascii enc (p_value p)) ps -> (length ps < fuel)%nat ->
  read_file fuel enc (write_text ascii ps) = Ok (number_lines 1 ps, None).
Proof.
  intros ascii enc ps fuel H L. destruct (text_stream_roundtrip ascii enc ps fuel H L) as (rd & O & D).
  unfold read_file. rewrite O. cbn [bind]. rewrite D. reflexivity.
Qed.
Theorem C09_text_stream_roundtrip_partial : forall ascii enc ps fuel,
  Forall (fun p => typed p /\ text_faithful ascii enc (p_value p)) ps -> (length ps < fuel)%nat ->
  read_file fuel enc (write_text ascii ps) = Ok (number_lines 1 ps, None).
Proof. exact c09. Qed.
Print Assumptions C09_text_stream_roundtrip_partial.

Definition c09_pairs : list pair :=
  [mk_pair 0 (VStr (str "SECTION")); mk_pair 9 (VStr [0x4E2D; 9; 0x5E]); mk_pair 10 (VDouble 0xC0934A0000000000);
   mk_pair 70 (VShort (-5)); mk_pair 90 (VInt 2147483647); mk_pair 160 (VLong (-9223372036854775808));
   mk_pair 290 (VBool 1); mk_pair 310 (VBin [0; 255; 26])].
Ltac in_ranges := repeat (first [left; reflexivity | right]).
Example C09_example : Forall (fun p => typed p /\ text_faithful true WINDOWS_1252 (p_value p)) c09_pairs.
Proof.
  assert (T : forall p lo hi, In (lo, hi, value_type (p_value p)) code_ranges -> (lo <= p_code p <= hi)%Z -> typed p)
    by (intros p lo hi A B; exists lo, hi; auto).
  unfold c09_pairs. repeat (apply Forall_cons; [split|]); try apply Forall_nil.
  - apply (T _ 0%Z 9%Z); [in_ranges|cbn; lia].
  - split; [repeat constructor|]. split; [|left; reflexivity].
    change (caret_form (str "SECTION")) with (str "SECTION"). cbn [str list_ascii_of_string map].
    repeat (apply bs_char; [discriminate|reflexivity|]). constructor.
  - apply (T _ 0%Z 9%Z); [in_ranges|cbn; lia].
  - split; [repeat constructor|]. split; [|left; reflexivity].
    change (caret_form [0x4E2D; 9; 0x5E]) with [0x4E2D; 0x5E; 0x49; 0x5E; 0x20].
    repeat (apply bs_char; [discriminate|reflexivity|]). constructor.
  - apply (T _ 10%Z 59%Z); [in_ranges|cbn; lia].
  - split; [reflexivity|]. cbn [decimal12]. split; [reflexivity|]. left. split; [reflexivity|].
    exists true, 1234500000000000%Z. split; [lia|]. vm_compute. reflexivity.
  - apply (T _ 60%Z 79%Z); [in_ranges|cbn; lia].
  - split; [reflexivity|exact I].
  - apply (T _ 90%Z 99%Z); [in_ranges|cbn; lia].
  - split; [reflexivity|exact I].
  - apply (T _ 160%Z 169%Z); [in_ranges|cbn; lia].
  - split; [reflexivity|exact I].
  - apply (T _ 290%Z 299%Z); [in_ranges|cbn; lia].
  - split; [reflexivity|exact I].
  - apply (T _ 310%Z 319%Z); [in_ranges|cbn; lia].
  - split; [repeat constructor|exact I].
Qed.

(** * C10: binary streams *)

(** Offsets start at 20 and grow by the size of each pair. Missing from the full claim: see the refutations. *)
Lemma c10 : forall enc r13 s ps fuel, s <> [] -> binary_faithful r13 (VStr s) ->
  Forall (fun p => typed p /\ binary_faithful r13 (p_value p)) ps -> (S (length ps) < fuel)%nat ->
  exists l, read_file fuel enc (write_binary r13 (mk_pair 0 (VStr s) :: ps)) = Ok (l, None) /\
            map fst l = mk_pair 0 (VStr s) :: ps.
Proof.
  intros enc r13 s ps fuel Hs Hf H L. destruct (binary_stream_roundtrip enc r13 s ps fuel Hs Hf H L) as (rd & O & D).
  unfold read_file. rewrite O. cbn [bind]. rewrite D. eexists. split; [reflexivity|].
  generalize 20. generalize (mk_pair 0 (VStr s) :: ps). intros l. induction l as [|p l IH]; intros n; [reflexivity|].
  cbn [number_bytes map fst]. cbv zeta. cbn [map fst]. f_equal. apply IH.
Qed.
Theorem C10_binary_stream_roundtrip_partial : forall enc r13 s ps fuel, s <> [] -> binary_faithful r13 (VStr s) ->
  Forall (fun p => typed p /\ binary_faithful r13 (p_value p)) ps -> (S (length ps) < fuel)%nat ->
  exists l, read_file fuel enc (write_binary r13 (mk_pair 0 (VStr s) :: ps)) = Ok (l, None) /\
            map fst l = mk_pair 0 (VStr s) :: ps.
Proof. exact c10. Qed.
Print Assumptions C10_binary_stream_roundtrip_partial.
Example C10_example : Forall (fun p => typed p /\ binary_faithful true (p_value p))
  [mk_pair 2 (VStr (str "HEADER")); mk_pair 40 (VDouble 0x3FB999999999999A); mk_pair 290 (VBool 1); mk_pair 1071 (VInt (-1))].
Proof.
  assert (T : forall p lo hi, In (lo, hi, value_type (p_value p)) code_ranges -> (lo <= p_code p <= hi)%Z -> typed p)
    by (intros p lo hi A B; exists lo, hi; auto).
  repeat (apply Forall_cons; [split|]); try apply Forall_nil.
  - apply (T _ 0%Z 9%Z); [in_ranges|cbn; lia].
  - split; repeat constructor.
  - apply (T _ 10%Z 59%Z); [in_ranges|cbn; lia].
  - split; [reflexivity|exact I].
  - apply (T _ 290%Z 299%Z); [in_ranges|cbn; lia].
  - split; [reflexivity|cbn; lia].
  - apply (T _ 1071%Z 1071%Z); [in_ranges|cbn; lia].
  - split; [reflexivity|exact I].
Qed.
(** Non-ASCII strings are written as UTF-8 and read as Latin-1; a chunk of 256 bytes is written with length 0;
    from R13 on a boolean keeps its low byte only. *)
Definition binary_pairs (r13 : bool) (ps : list pair) : res (list pair) :=
  let? (l, _) := read_file 100 WINDOWS_1252 (write_binary r13 ps) in Ok (map fst l).
Theorem C10_binary_string_refuted : exists s, is_string s /\
  binary_pairs true [mk_pair 0 (VStr (str "SECTION")); mk_pair 1 (VStr s)] <>
  Ok [mk_pair 0 (VStr (str "SECTION")); mk_pair 1 (VStr s)].
Proof. exists [0xE9]. split; [repeat constructor|]. vm_compute. discriminate. Qed.
Print Assumptions C10_binary_string_refuted.
Theorem C10_binary_chunk_refuted : exists b, Forall (fun x => is_byte x = true) b /\
  binary_pairs true [mk_pair 0 (VStr (str "SECTION")); mk_pair 310 (VBin b)] <>
  Ok [mk_pair 0 (VStr (str "SECTION")); mk_pair 310 (VBin b)].
Proof. exists (repeat 7 256). split; [apply Forall_forall; intros x Hx; apply repeat_spec in Hx; subst; reflexivity|]. vm_compute. discriminate. Qed.
Print Assumptions C10_binary_chunk_refuted.
Theorem C10_binary_bool_refuted : exists z, is_i16 z = true /\
  binary_pairs true [mk_pair 0 (VStr (str "SECTION")); mk_pair 290 (VBool z)] <>
  Ok [mk_pair 0 (VStr (str "SECTION")); mk_pair 290 (VBool z)].
Proof. exists 300%Z. split; [reflexivity|]. vm_compute. discriminate. Qed.
Print Assumptions C10_binary_bool_refuted.

(** * C11: line ends and blanks *)

(** Full claim: all texts. Missing: CR CR LF (only one CR is removed) and lines starting with a UTF-16 mark. *)
Theorem C11_line_end_style_partial : forall enc bs, no_double_cr bs = true -> no_utf16 bs -> not_binary enc bs ->
  forall fuel, read_file fuel enc (to_unix bs) = read_file fuel enc bs.
Proof. exact to_unix_reads. Qed.
Print Assumptions C11_line_end_style_partial.
Theorem C11_blanks_do_not_matter : forall enc a b, blank_variant enc a b -> not_binary enc a -> not_binary enc b ->
  forall fuel, read_file fuel enc a = read_file fuel enc b.
Proof. exact blank_variant_reads. Qed.
Print Assumptions C11_blanks_do_not_matter.
Definition c11_text : bytes := str "  0" ++ [13; 10] ++ str "SECTION" ++ [13; 10] ++ str " 70" ++ [13; 10] ++ str "   5" ++ [13; 10].
Definition c11_text' : bytes := str "0" ++ [10] ++ str "SECTION" ++ [10] ++ str "70" ++ [10] ++ str "5" ++ [10].
Lemma c11_lines : forall n, (4 < n)%nat -> nth_line n c11_text = [] /\ nth_line n c11_text' = [].
Proof. intros n H. do 5 (destruct n as [|n]; [lia|]). destruct n; split; reflexivity. Qed.
Example C11_example : no_double_cr c11_text = true /\ no_utf16 c11_text /\ not_binary WINDOWS_1252 c11_text /\
  not_binary WINDOWS_1252 c11_text' /\ blank_variant WINDOWS_1252 c11_text c11_text' /\
  read_file 9 WINDOWS_1252 c11_text = Ok ([(mk_pair 0 (VStr (str "SECTION")), 1); (mk_pair 70 (VShort 5), 3)], None).
Proof.
  split; [reflexivity|]. split; [|split; [|split; [|split]]].
  - intros n. destruct (Nat.le_gt_cases n 4) as [L|G].
    + do 5 (destruct n as [|n]; [split; reflexivity|]). lia.
    + destruct (c11_lines n G) as [-> _]. split; reflexivity.
  - intros H. vm_compute in H. discriminate H.
  - intros H. vm_compute in H. discriminate H.
  - intros i. destruct i as [|[|[|i]]].
    + split; [reflexivity|left; reflexivity].
    + split; [reflexivity|]. right. split; [reflexivity|]. exists (str " 70"), 70%Z. split; [reflexivity|]. split; [reflexivity|].
      exists 60%Z, 79%Z, TShort. split; [in_ranges|]. split; [lia|]. split; discriminate.
    + split; [reflexivity|left; reflexivity].
    + destruct (c11_lines (2 * S (S (S i)))%nat ltac:(lia)) as [A B]. destruct (c11_lines (S (2 * S (S (S i))))%nat ltac:(lia)) as [A' B'].
      cbv zeta. rewrite A, B, A', B'. split; [reflexivity|left; reflexivity].
  - vm_compute. reflexivity.
Qed.
Theorem C11_double_cr_refuted : exists bs, read_file 9 UTF_8 (to_unix bs) <> read_file 9 UTF_8 bs.
Proof. exists (str "1" ++ [10] ++ str "a" ++ [13; 13; 10]). vm_compute. discriminate. Qed.
Print Assumptions C11_double_cr_refuted.

(** * C12: termination *)
Theorem C12_reading_terminates : forall enc bs rd, open_reader enc bs = Ok rd ->
  exists l e, (length l <= length bs)%nat /\ (forall x, e = Some x -> x <> OutOfFuel /\ x <> Panic) /\
    forall fuel, (length bs < fuel)%nat -> drain fuel rd = (l, e).
Proof. exact read_terminates. Qed.
Print Assumptions C12_reading_terminates.
Theorem C12_every_pair_consumes : forall rd p rd', reader_next rd = (Some (Ok p), rd') -> (remaining rd' < remaining rd)%nat.
Proof. exact reader_next_consumes. Qed.
Print Assumptions C12_every_pair_consumes.
Example C12_example : exists rd, open_reader WINDOWS_1252 c11_text = Ok rd /\
  drain 9 rd = ([(mk_pair 0 (VStr (str "SECTION")), 1); (mk_pair 70 (VShort 5), 3)], None).
Proof. eexists. split; [vm_compute; reflexivity|]. vm_compute. reflexivity. Qed.

(** * C13: positions *)
Theorem C13_text_positions : forall enc bs st fuel l e,
  open_reader enc bs = Ok (RText st) -> drain fuel (RText st) = (l, e) ->
  forall i p o, nth_error l i = Some (p, o) ->
    o = N.of_nat (2 * i + 1) /\
    lines_denote (match i with O => enc | _ => WINDOWS_1252 end) enc bs (2 * i) p.
Proof. exact text_positions. Qed.
Print Assumptions C13_text_positions.
Example C13_example : exists st, open_reader WINDOWS_1252 c11_text = Ok (RText st) /\
  nth_error (fst (drain 9 (RText st))) 1 = Some (mk_pair 70 (VShort 5), 3).
Proof. eexists. split; [vm_compute; reflexivity|]. vm_compute. reflexivity. Qed.

(** Binary files written by the library: the reported position of the i-th pair is two less than the
    number of bytes up to its end, because the reader starts counting at 20 although 22 bytes precede the first pair. *)
Lemma c13_binary : forall enc r13 s ps fuel, s <> [] -> binary_faithful r13 (VStr s) ->
  Forall (fun p => typed p /\ binary_faithful r13 (p_value p)) ps -> (S (length ps) < fuel)%nat ->
  exists l, read_file fuel enc (write_binary r13 (mk_pair 0 (VStr s) :: ps)) = Ok (l, None) /\
    forall i p o, nth_error l i = Some (p, o) ->
      o + 2 = N.of_nat (length (write_binary r13 (firstn (S i) (mk_pair 0 (VStr s) :: ps)))).
Proof.
  intros enc r13 s ps fuel Hs Hf H L. destruct (binary_stream_roundtrip enc r13 s ps fuel Hs Hf H L) as (rd & O & D).
  unfold read_file. rewrite O. cbn [bind]. rewrite D. eexists. split; [reflexivity|].
  assert (G : forall l n i p o, nth_error (number_bytes r13 n l) i = Some (p, o) ->
     o = n + N.of_nat (length (flat_map (write_bin_pair r13) (firstn (S i) l)))).
  { induction l as [|x l IH]; intros n i p o E; [destruct i; discriminate E|].
    cbn [number_bytes] in E. cbv zeta in E.
    change (firstn (S i) (x :: l)) with (x :: firstn i l).
    change (flat_map (write_bin_pair r13) (x :: firstn i l)) with (write_bin_pair r13 x ++ flat_map (write_bin_pair r13) (firstn i l)).
    rewrite app_length. destruct i as [|i].
    - cbn [nth_error] in E. injection E as _ <-. cbn [firstn flat_map length]. lia.
    - cbn [nth_error] in E. apply IH in E. rewrite E. lia. }
  intros i p o E. apply G in E. rewrite E. unfold write_binary. rewrite app_length.
  change (length bin_sentinel) with 22%nat. lia.
Qed.
Theorem C13_binary_positions_partial : forall enc r13 s ps fuel, s <> [] -> binary_faithful r13 (VStr s) ->
  Forall (fun p => typed p /\ binary_faithful r13 (p_value p)) ps -> (S (length ps) < fuel)%nat ->
  exists l, read_file fuel enc (write_binary r13 (mk_pair 0 (VStr s) :: ps)) = Ok (l, None) /\
    forall i p o, nth_error l i = Some (p, o) ->
      o + 2 = N.of_nat (length (write_binary r13 (firstn (S i) (mk_pair 0 (VStr s) :: ps)))).
Proof. exact c13_binary. Qed.
Print Assumptions C13_binary_positions_partial.
(** So the reported position is not the byte offset just behind the pair. *)
Theorem C13_binary_positions_refuted : exists p o,
  read_file 9 WINDOWS_1252 (write_binary true [p]) = Ok ([(p, o)], None) /\
  o <> N.of_nat (length (write_binary true [p])).
Proof. exists (mk_pair 0 (VStr (str "EOF"))), 26. vm_compute. split; [reflexivity|discriminate]. Qed.
Print Assumptions C13_binary_positions_refuted.
