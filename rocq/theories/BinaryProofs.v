(** Lemmas about the binary format. *)
From Verif Require Import CodePairSpec TextProofs F64Proofs CodePairProofs.
Open Scope N_scope.
Ltac Zify.zify_post_hook ::= Z.div_mod_to_equations.

Lemma read_le_bytes : forall n v r, v < 256 ^ N.of_nat n -> read_le n (le_bytes n v ++ r) = Ok (v, r).
Proof.
  induction n as [|n IH]; intros v r H.
  - change (256 ^ N.of_nat 0) with 1 in H. cbn [le_bytes read_le app]. do 2 f_equal. lia.
  - cbn [le_bytes read_le app]. replace (N.of_nat (S n)) with (N.succ (N.of_nat n)) in H by lia.
    rewrite N.pow_succ_r' in H. rewrite IH.
    + cbn [bind]. do 2 f_equal. pose proof (N.div_mod v 256). lia.
    + apply N.div_lt_upper_bound; lia.
Qed.

Lemma le_bytes_length : forall n v, length (le_bytes n v) = n.
Proof. induction n; intros; cbn; auto. Qed.

Lemma signed_unsigned : forall M z, (0 < M)%Z -> (M mod 2 = 0)%Z -> (- (M / 2) <= z < M / 2)%Z ->
  signed M (unsigned M z) = z.
Proof.
  intros M z HM He H. unfold signed, unsigned, wrap_signed.
  rewrite Z2N.id by (apply Z.mod_pos_bound; assumption). rewrite Z.mod_mod by lia.
  destruct (Z_lt_le_dec z 0) as [L|L].
  - assert (E : (z mod M = z + M)%Z) by (symmetry; apply Z.mod_unique with (q := (-1)%Z); lia).
    rewrite E. replace (z + M <? M / 2)%Z with false by lia. lia.
  - rewrite Z.mod_small by lia. replace (z <? M / 2)%Z with true by lia. reflexivity.
Qed.

Lemma unsigned_bound : forall M z, (0 < M)%Z -> unsigned M z < Z.to_N M.
Proof. intros M z H. unfold unsigned. pose proof (Z.mod_pos_bound z M H). lia. Qed.

Lemma read_write_i16 : forall z r, is_i16 z = true -> read_i16 (write_i16 z ++ r) = Ok (z, r).
Proof.
  intros z r H. unfold read_i16, write_i16. rewrite read_le_bytes by (apply unsigned_bound; lia).
  cbn [bind]. rewrite signed_unsigned; [reflexivity|lia|reflexivity|]. unfold is_i16 in H. lia.
Qed.
Lemma read_write_i32 : forall z r, is_i32 z = true -> read_i32 (write_i32 z ++ r) = Ok (z, r).
Proof.
  intros z r H. unfold read_i32, write_i32. rewrite read_le_bytes by (apply unsigned_bound; lia).
  cbn [bind]. rewrite signed_unsigned; [reflexivity|lia|reflexivity|]. unfold is_i32 in H. lia.
Qed.
Lemma read_write_i64 : forall z r, is_i64 z = true -> read_i64 (write_i64 z ++ r) = Ok (z, r).
Proof.
  intros z r H. unfold read_i64, write_i64. rewrite read_le_bytes by (apply unsigned_bound; lia).
  cbn [bind]. rewrite signed_unsigned; [reflexivity|lia|reflexivity|]. unfold is_i64 in H. lia.
Qed.
Lemma read_write_f64 : forall d r, is_f64 d = true -> read_f64 (write_f64 d ++ r) = Ok (d, r).
Proof.
  intros d r H. unfold read_f64, write_f64. rewrite read_le_bytes; [reflexivity|].
  unfold is_f64 in H. rewrite n64 in H. change (256 ^ N.of_nat 8) with 18446744073709551616. lia.
Qed.

Lemma read_string_binary_nul : forall s r, Forall (fun b => b <> 0) s ->
  read_string_binary (s ++ 0 :: r) = Ok (s, r).
Proof.
  induction 1 as [|b s Hb _ IH]; [reflexivity|]. cbn [app read_string_binary].
  replace (b =? 0) with false by lia. rewrite IH. reflexivity.
Qed.

Lemma read_exact_app : forall b r, read_exact (length b) (b ++ r) = Ok (b, r).
Proof. induction b as [|x b IH]; intros r; [reflexivity|]. cbn. rewrite IH. reflexivity. Qed.

(** The code. *)
Lemma bin_code_write : forall r13 c t r, expected_type c = Some t ->
  bin_code r13 (write_bin_code r13 c ++ r) = Some (Ok (c, r, N.of_nat (length (write_bin_code r13 c)))).
Proof.
  intros r13 c t r H. apply expected_type_range in H as [R N255].
  assert (I : is_i16 c = true) by (unfold is_i16; lia).
  unfold write_bin_code. rewrite as_i16_id by assumption. destruct r13.
  - unfold write_i16, unsigned. rewrite Z.mod_small by lia. cbn [le_bytes app bin_code length].
    unfold read_u8_strict. cbn [bind]. do 4 f_equal. lia.
  - destruct (255 <=? c)%Z eqn:E.
    + cbn [app bin_code length]. change (255 =? 255) with true. cbn iota.
      rewrite read_write_i16 by assumption. cbn [bind]. reflexivity.
    + unfold as_u8. rewrite Z.mod_small by lia. cbn [app bin_code length].
      replace (Z.to_N c =? 255) with false by lia. do 4 f_equal. lia.
Qed.

Lemma escape_control_nonzero : forall s, Forall (fun b => b <> 0) (escape_control_characters s).
Proof. intros s. eapply Forall_impl; [|apply escape_control_no_control]. cbn. intros; lia. Qed.

Lemma bin_value_write : forall r13 c v r,
  binary_faithful r13 v ->
  bin_value true r13 c (value_type v) (write_bin_value r13 v ++ r)
  = Ok (v, r, N.of_nat (length (write_bin_value r13 v)), r13).
Proof.
  intros r13 c v r [Hw Hf]. destruct v; cbn [value_type bin_value write_bin_value value_wf] in *.
  - destruct r13.
    + cbn [app read_u8_strict bind length]. unfold as_u8. rewrite Z.mod_small by lia.
      rewrite Z2N.id by lia. reflexivity.
    + rewrite read_write_i16 by assumption. unfold write_i16. rewrite le_bytes_length. reflexivity.
  - rewrite read_write_i32 by assumption. unfold write_i32. rewrite le_bytes_length. reflexivity.
  - rewrite read_write_i64 by assumption. unfold write_i64. rewrite le_bytes_length. reflexivity.
  - rewrite read_write_i16 by assumption. unfold write_i16. rewrite le_bytes_length. reflexivity.
  - rewrite read_write_f64 by assumption. unfold write_f64. rewrite le_bytes_length. reflexivity.
  - assert (A := escape_control_128 s Hf). rewrite utf8_encode_ascii by assumption.
    rewrite <- app_assoc. cbn [app]. rewrite read_string_binary_nul by apply escape_control_nonzero.
    cbn [bind]. cbn [negb andb].
    assert (U := un_escape_escape s). destruct (escape_control_characters s) as [|x e] eqn:E.
    + rewrite U. reflexivity.
    + rewrite U. rewrite utf8_encode_ascii by assumption. rewrite app_length. cbn [length]. do 3 f_equal. lia.
  - cbn [app read_u8_strict bind length]. rewrite N.mod_small by lia. rewrite Nat2N.id.
    rewrite read_exact_app. cbn [bind]. do 3 f_equal. lia.
Qed.

Lemma bin_next_write : forall r13 p r o, typed p -> binary_faithful r13 (p_value p) ->
  bin_next (mk_bin (write_bin_pair r13 p ++ r) true r13 o) =
  (Some (Ok (p, o + N.of_nat (length (write_bin_pair r13 p)))),
   mk_bin r true r13 (o + N.of_nat (length (write_bin_pair r13 p)))).
Proof.
  intros r13 [c v] r o Ht Hf. apply typed_expected in Ht. unfold bin_next, write_bin_pair in *.
  cbn [b_two b_rest b_detected b_off p_code p_value] in *. rewrite <- app_assoc.
  rewrite (bin_code_write r13 c (value_type v)) by assumption. rewrite Ht.
  rewrite bin_value_write by assumption. rewrite app_length.
  replace (o + N.of_nat (length (write_bin_code r13 c)) + N.of_nat (length (write_bin_value r13 v)))
    with (o + N.of_nat (length (write_bin_code r13 c) + length (write_bin_value r13 v))) by lia. reflexivity.
Qed.

(** The first pair: the width of codes is detected. *)
Lemma bin_next_first : forall r13 s r o, s <> [] -> binary_faithful r13 (VStr s) ->
  bin_next (mk_bin (write_bin_pair r13 (mk_pair 0 (VStr s)) ++ r) false false o) =
  (Some (Ok (mk_pair 0 (VStr s), o + N.of_nat (length (write_bin_pair r13 (mk_pair 0 (VStr s)))))),
   mk_bin r true r13 (o + N.of_nat (length (write_bin_pair r13 (mk_pair 0 (VStr s)))))).
Proof.
  intros r13 s r o Hs [Hw Hf].
  assert (A := escape_control_128 s Hf). assert (U := un_escape_escape s).
  assert (NE : escape_control_characters s <> []).
  { intros E. rewrite E in U. apply Hs. rewrite <- U. reflexivity. }
  unfold write_bin_pair. cbn [p_code p_value write_bin_value].
  rewrite (utf8_encode_ascii (escape_control_characters s)) by assumption.
  assert (Z := escape_control_nonzero s).
  unfold bin_next. cbn [b_two b_rest b_detected b_off].
  destruct r13.
  - change (write_bin_code true 0) with [0; 0].
    cbn [app bin_code]. change (0 =? 255) with false. cbn iota. change (expected_type (Z.of_N 0)) with (Some TStr).
    cbn [bin_value]. change (read_string_binary (0 :: ?x)) with (Ok (@nil N, x)). cbn [bind negb andb].
    change (Z.of_N 0 =? 0)%Z with true. cbn iota.
    rewrite <- app_assoc. cbn [app]. rewrite read_string_binary_nul by assumption. cbn [bind].
    rewrite U. rewrite (utf8_encode_ascii (escape_control_characters s)) by assumption.
    cbn [length]. rewrite app_length. cbn [length].
    set (L := length (escape_control_characters s)).
    replace (o + 1 + (1 + (N.of_nat L + 1))) with (o + N.of_nat (S (S (L + 1)))) by lia. reflexivity.
  - change (write_bin_code false 0) with [0].
    cbn [app bin_code]. change (0 =? 255) with false. cbn iota. change (expected_type (Z.of_N 0)) with (Some TStr).
    cbn [bin_value]. rewrite <- app_assoc. cbn [app]. rewrite read_string_binary_nul by assumption. cbn [bind].
    destruct (escape_control_characters s) as [|x e] eqn:E; [congruence|].
    rewrite U. rewrite utf8_encode_ascii by assumption.
    cbn [length]. rewrite app_length. cbn [length].
    set (L := length e).
    replace (o + 1 + (N.of_nat (S L) + 1)) with (o + N.of_nat (S (S (L + 1)))) by lia. reflexivity.
Qed.

(** Positions: the offset just behind each pair, counted from [n]. *)
Fixpoint number_bytes (r13 : bool) (n : N) (ps : list pair) : list (pair * N) :=
  match ps with
  | [] => []
  | p :: r => let n' := n + N.of_nat (length (write_bin_pair r13 p)) in (p, n') :: number_bytes r13 n' r
  end.

Lemma drain_bin_tail : forall r13 ps o fuel,
  Forall (fun p => typed p /\ binary_faithful r13 (p_value p)) ps -> (length ps < fuel)%nat ->
  drain fuel (RBin (mk_bin (flat_map (write_bin_pair r13) ps) true r13 o)) = (number_bytes r13 o ps, None).
Proof.
  intros r13 ps. induction ps as [|p ps IH]; intros o fuel H L; (destruct fuel as [|fuel]; [cbn in L; lia|]).
  - reflexivity.
  - inversion H as [|? ? [Ht Hf] Hps]; subst.
    change (flat_map (write_bin_pair r13) (p :: ps)) with (write_bin_pair r13 p ++ flat_map (write_bin_pair r13) ps).
    cbn [drain reader_next]. rewrite bin_next_write by assumption.
    rewrite IH; [reflexivity|assumption|cbn in L; lia].
Qed.

Lemma binary_stream_roundtrip : forall enc r13 s ps fuel, s <> [] ->
  binary_faithful r13 (VStr s) ->
  Forall (fun p => typed p /\ binary_faithful r13 (p_value p)) ps -> (S (length ps) < fuel)%nat ->
  exists rd, open_reader enc (write_binary r13 (mk_pair 0 (VStr s) :: ps)) = Ok rd /\
             drain fuel rd = (number_bytes r13 20 (mk_pair 0 (VStr s) :: ps), None).
Proof.
  intros enc r13 s ps fuel Hs Hf H L. eexists. split.
  - unfold open_reader, write_binary, bin_sentinel.
    change (str "AutoCAD Binary DXF" ++ [13; 10; 26; 0]) with (str "AutoCAD Binary DXF" ++ crlf ++ [26; 0]).
    rewrite <- !app_assoc. rewrite read_line_ascii by (apply ascii_line_b; reflexivity).
    cbn [bind]. rewrite seqb_refl. cbn [app]. change (26 =? 26) with true. change (0 =? 0) with true. cbn iota. reflexivity.
  - destruct fuel as [|fuel]; [lia|]. cbn [drain reader_next].
    change (flat_map (write_bin_pair r13) (?p :: ps)) with (write_bin_pair r13 p ++ flat_map (write_bin_pair r13) ps).
    rewrite bin_next_first by assumption. rewrite drain_bin_tail; [reflexivity|assumption|lia].
Qed.
