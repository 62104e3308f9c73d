(** Reading saved bytes: what the pair readers deliver to the section readers. *)
From Verif Require Import Base CodePairModel TextProofs CodePairSpec CodePairProofs BinaryProofs ReaderProofs VersionModel StreamModel SpecModel SpecSpec LoadSpec DrawingModel FileModel SaveModel
  FileSpec AssembleProofs HeaderModel HeaderProofs SaveSpec.
Set Default Goal Selector "!".
Open Scope N_scope.

(** A pair that is not taken for a comment. *)
Definition plain (p : pair) : Prop := p_code p <> 999%Z.

Lemma next_pair_keeps f rd x rd' :
  reader_next rd = (Some x, rd') -> (forall p o, x = Ok (p, o) -> plain p) ->
  next_pair (S f) rd = (Some (let? po := x in Ok (fst po)), rd').
Proof.
  intros H P. cbn [next_pair]. rewrite H. destruct x as [[p o]|e]; cbn [bind fst]; [|reflexivity].
  specialize (P p o eq_refl). unfold plain in P. apply Z.eqb_neq in P. rewrite P. reflexivity.
Qed.

Lemma read_line_rest a e1 e2 bs : snd (read_line a e1 bs) = snd (read_line a e2 bs).
Proof.
  unfold read_line. destruct (read_line_loop a false 0 bs). reflexivity.
Qed.

(** A pair takes up its place whatever the encoding. *)
Definition item_like (p : pair) (x : res pair) : Prop := match x with Ok q => p_code q = p_code p | Err e => genuine e end.
Lemma text_next_any ascii enc0 enc p r o : pair_ok_text ascii enc0 p ->
  exists x, text_next (mk_text (write_text_pair ascii p ++ r) enc None o) = (Some x, mk_text r enc None (o + 2)) /\
    item_like p (let? po := x in Ok (fst po)).
Proof.
  intros [Ht Hf]. apply typed_expected in Ht. pose proof (expected_type_range _ _ Ht) as [Rc _].
  assert (Hcode : forall o', parse_i32 (show_int (p_code p)) o' = Ok (p_code p)).
  { intros o'. unfold parse_i32. rewrite trim_id by apply show_int_nonwhite.
    rewrite parse_show_int by lia. reflexivity. }
  pose proof (show_int_ne (p_code p)) as Hne.
  unfold text_next, text_pair. cbn [t_first t_rest t_enc t_off].
  rewrite write_text_pair_split. rewrite <- !app_assoc.
  rewrite read_line_ascii by (apply pad_left_ascii; apply show_int_ascii).
  cbn [t_first t_rest t_enc t_off]. rewrite code_line_trim.
  destruct (show_int (p_code p)) as [|ch tl]; [congruence|]. rewrite Hcode.
  destruct (read_value_line ascii enc0 (p_value p) r 0 Hf) as (l & E1 & _).
  assert (R := read_line_rest false enc enc0 (value_bytes ascii (p_value p) ++ r)). rewrite E1 in R. cbn [snd] in R.
  destruct (read_line false enc (value_bytes ascii (p_value p) ++ r)) as [vl r'] eqn:RL. cbn [snd] in R. subst r'.
  replace (o + 1 + 1) with (o + 2) by lia. rewrite Ht.
  destruct vl as [s|e]; (eexists; split; [reflexivity|]).
  - destruct (parse_value enc (value_type (p_value p)) s (o + 2)) eqn:PV; cbn [bind item_like fst p_code]; [reflexivity|].
    eapply parse_value_genuine. exact PV.
  - cbn [bind item_like]. eapply read_line_genuine. exact RL.
Qed.

Lemma write_text_long ascii ps : (length ps <= length (write_text ascii ps))%nat.
Proof.
  induction ps as [|p ps IH]; [cbn; lia|]. change (write_text ascii (p :: ps)) with (write_text_pair ascii p ++ write_text ascii ps).
  rewrite app_length, write_text_pair_split, app_length, app_length. cbn [length crlf]. lia.
Qed.
Definition text_at (ascii : bool) (enc : encoding) (ps : list pair) (o : N) : reader := CodePairModel.RText (mk_text (write_text ascii ps) enc None o).

Lemma trace_text ascii enc0 enc : forall ps o fuel,
  Forall (pair_ok_text ascii enc0) ps -> Forall plain ps -> (length ps < fuel)%nat ->
  let l := trace fuel (text_at ascii enc ps o) in
  Forall2 item_like ps (map snd l) /\
  (forall k rd x, nth_error l k = Some (rd, x) -> rd = text_at ascii enc (skipn k ps) (o + 2 * N.of_nat k)) /\
  (forall ps1 ps2, ps = ps1 ++ ps2 -> Forall (pair_ok_text ascii enc) ps1 -> firstn (length ps1) (map snd l) = map Ok ps1).
Proof.
  intros ps. induction ps as [|p ps IH]; intros o fuel H P L l; (destruct fuel as [|fuel]; [cbn in L; lia|]).
  - subst l. unfold text_at. cbn [trace next_pair reader_next write_text flat_map]. unfold text_next, text_pair. cbn [t_first t_rest t_enc t_off].
    unfold read_line. cbn [read_line_loop]. rewrite decode_ascii by constructor. cbn [map].
    split; [constructor|]. split.
    + intros [|k] rd x Hx; discriminate Hx.
    + intros ps1 ps2 E _. symmetry in E. apply app_eq_nil in E as [-> _]. reflexivity.
  - inversion H as [|? ? Hp Hps]; subst. inversion P as [|? ? Pp Pps]; subst.
    destruct (text_next_any ascii enc0 enc p (write_text ascii ps) o Hp) as (x & Ex & Lx).
    assert (EN : next_pair (S fuel) (text_at ascii enc (p :: ps) o) = (Some (let? po := x in Ok (fst po)), text_at ascii enc ps (o + 2))).
    { apply next_pair_keeps.
      - unfold text_at. cbn [reader_next]. change (write_text ascii (p :: ps)) with (write_text_pair ascii p ++ write_text ascii ps). rewrite Ex. reflexivity.
      - intros q oq ->. cbn [bind fst item_like] in Lx. unfold plain in *. rewrite Lx. exact Pp. }
    assert (El : l = (text_at ascii enc (p :: ps) o, let? po := x in Ok (fst po)) :: trace fuel (text_at ascii enc ps (o + 2))).
    { subst l. cbn [trace]. rewrite EN. reflexivity. }
    rewrite El. clearbody l. cbn [length] in L. destruct (IH (o + 2) fuel Hps Pps ltac:(lia)) as (I1 & I2 & I3). split; [|split].
    + cbn [map snd]. constructor; assumption.
    + intros [|k] rd y Hk; cbn [nth_error] in Hk.
      * injection Hk as <- _. cbn [skipn]. f_equal. lia.
      * apply I2 in Hk. rewrite Hk. cbn [skipn]. f_equal. lia.
    + intros [|q ps1] ps2 E F; [reflexivity|]. cbn [app] in E. injection E as <- E. inversion F as [|? ? [Fp1 Fp2] Fps]; subst.
      cbn [length map snd firstn]. f_equal; [|eapply I3; [reflexivity|exact Fps]].
      apply typed_expected in Fp1.
      rewrite (text_next_code ascii enc p _ o false Fp1 Fp2 _ ltac:(discriminate) ltac:(reflexivity)) in Ex. injection Ex as <-. reflexivity.
Qed.

Lemma item_like_reports ps l : Forall2 item_like ps l -> reports l.
Proof.
  intros F e He. induction F as [|p x ps l H F IH]; [destruct He|]. destruct He as [->|He]; [|exact (IH He)].
  destruct H as [H1 H2]. split; assumption.
Qed.

(** * Strings without anything special *)
Definition simple (s : rstring) : bool := forallb (fun c => (0x20 <=? c) && (c <? 128) && negb (c =? 0x5E) && negb (c =? 0x5C)) s.
Lemma simple_char c s : simple (c :: s) = true -> 0x20 <= c /\ c < 128 /\ c <> 0x5E /\ c <> 0x5C /\ simple s = true.
Proof.
  intros H. apply andb_true_iff in H as [A B]. assert (0x20 <= c /\ c < 128 /\ c <> 0x5E /\ c <> 0x5C) by lia. intuition.
Qed.
Lemma simple_caret s : simple s = true -> caret_form s = s.
Proof.
  induction s as [|c s IH]; intros H; [reflexivity|]. apply simple_char in H as (H1 & H2 & H3 & H4 & H). unfold caret_form in *. cbn [flat_map].
  destruct (N.ltb_spec c 0x20); [lia|]. destruct (N.eqb_spec c 0x5E); [lia|]. cbn [app]. f_equal. exact (IH H).
Qed.
Lemma simple_safe s : simple s = true -> backslash_safe s.
Proof.
  induction s as [|c s IH]; intros H; [constructor|]. apply simple_char in H as (H1 & H2 & H3 & H4 & H). apply bs_char; [lia|lia|exact (IH H)].
Qed.
Lemma simple_ascii s : simple s = true -> Forall (fun c => c < 128) s.
Proof.
  induction s as [|c s IH]; intros H; constructor; apply simple_char in H as (H1 & H2 & H3 & H4 & H); [lia|exact (IH H)].
Qed.
Lemma simple_string s : simple s = true -> is_string s.
Proof.
  intros H. apply simple_ascii in H. unfold is_string. eapply Forall_impl; [|exact H]. cbn beta. intros c Hc. unfold is_scalar. lia.
Qed.
Lemma simple_faithful ascii enc s : simple s = true -> text_faithful ascii enc (VStr s).
Proof.
  intros H. split; [exact (simple_string s H)|]. destruct enc.
  - rewrite (simple_caret s H). split; [exact (simple_safe s H)|right; exact (simple_ascii s H)].
  - split; [right; exact (simple_ascii s H)|]. destruct s as [|c s]; cbn [hd]; [discriminate|]. apply simple_char in H. lia.
Qed.

(** * A whole text file *)
Lemma item_like_length ps l : Forall2 item_like ps l -> length l = length ps.
Proof. intros F. induction F; cbn [length]; congruence. Qed.
Lemma firstn_all_eq {A} (l : list A) n : length l = n -> firstn n l = l.
Proof. intros <-. apply firstn_all. Qed.

Lemma text_file ascii enc0 p0 p1 p2 p3 ps :
  Forall (pair_ok_text ascii enc0) (p0 :: p1 :: p2 :: p3 :: ps) -> Forall plain (p0 :: p1 :: p2 :: p3 :: ps) ->
  Forall (pair_ok_text ascii WINDOWS_1252) [p0; p1; p2; p3] ->
  exists rd y, open_reader WINDOWS_1252 (write_text ascii (p0 :: p1 :: p2 :: p3 :: ps)) = Ok rd /\
    feed_of rd = Ok p0 :: Ok p1 :: Ok p2 :: Ok p3 :: y /\ reports y /\
    redecodes (feed_as_utf8 rd) [] (Ok p2 :: Ok p3 :: y) /\
    (enc0 = WINDOWS_1252 -> y = map Ok ps) /\ (enc0 = UTF_8 -> feed_as_utf8 rd y = map Ok ps).
Proof.
  intros H P F. inversion H as [|? ? [T0 F0] Hr]; subst. inversion P as [|? ? P0 Pr]; subst. inversion F as [|? ? [T0' F0'] Fr]; subst.
  set (tail := p1 :: p2 :: p3 :: ps) in *. apply typed_expected in T0.
  set (rd := CodePairModel.RText (mk_text (value_bytes ascii (p_value p0) ++ write_text ascii tail) WINDOWS_1252 (Some (code_line (p_code p0))) 1)).
  set (n := length (value_bytes ascii (p_value p0) ++ write_text ascii tail)).
  assert (N1 : (length tail < S n)%nat).
  { subst n. rewrite app_length. pose proof (write_text_long ascii tail). lia. }
  set (tr := trace (S n) (text_at ascii WINDOWS_1252 tail 2)).
  assert (TR : trace (reader_fuel rd) rd = (rd, Ok p0) :: tr).
  { cbn [reader_fuel rd t_rest]. fold n. cbn [trace].
    rewrite (next_pair_keeps (S n) rd (Ok (p0, 1)) (text_at ascii WINDOWS_1252 tail 2)).
    - reflexivity.
    - unfold rd, text_at. cbn [reader_next].
      rewrite (text_next_code ascii WINDOWS_1252 p0 (write_text ascii tail) 1 true T0 F0' _ ltac:(reflexivity) ltac:(discriminate)). reflexivity.
    - intros p o [= <- <-]. exact P0. }
  destruct (trace_text ascii enc0 WINDOWS_1252 tail 2 (S n) Hr Pr N1) as (I1 & I2 & I3). fold tr in I1, I2, I3.
  pose proof (I3 [p1; p2; p3] ps eq_refl Fr) as I4. cbn [length map] in I4.
  destruct (map snd tr) as [|x1 [|x2 [|x3 y]]] eqn:M; try discriminate I4. cbn [firstn] in I4. injection I4 as -> -> ->.
  unfold tail in I1. inversion I1 as [|? ? ? ? _ J1]; subst. inversion J1 as [|? ? ? ? _ J2]; subst. inversion J2 as [|? ? ? ? _ J3]; subst.
  assert (Ly : length y = length ps) by exact (item_like_length _ _ J3).
  assert (Ltr : length tr = (3 + length ps)%nat) by (rewrite <- (map_length snd), M; cbn [length]; lia).
  assert (SW : forall r, (length r <= 2 + length ps)%nat ->
    feed_as_utf8 rd r = map snd (trace (reader_fuel (text_at ascii UTF_8 (skipn (3 + length ps - length r) tail) 0))
                                       (text_at ascii UTF_8 (skipn (3 + length ps - length r) tail) (2 + 2 * N.of_nat (3 + length ps - length r))))).
  { intros r Lr. unfold feed_as_utf8. rewrite TR. cbv zeta. cbn [length]. rewrite Ltr.
    replace (S (3 + length ps) - length r)%nat with (S (3 + length ps - length r)) by lia. cbn [nth_error].
    destruct (nth_error tr (3 + length ps - length r)) as [[at_r x]|] eqn:NE.
    - apply I2 in NE. subst at_r. reflexivity.
    - apply nth_error_None in NE. assert (length r = 0)%nat by lia. rewrite H0, Nat.sub_0_r.
      assert (SK : skipn (3 + length ps) tail = []) by (apply skipn_all2; cbn [length tail]; lia). rewrite SK.
      unfold text_at, reader_fuel. cbn [t_rest write_text flat_map length trace next_pair reader_next]. unfold text_next, text_pair. cbn [t_first t_rest t_enc t_off].
      unfold read_line. cbn [read_line_loop]. rewrite decode_ascii by constructor. reflexivity. }
  assert (SK : forall k o, (k <= 3 + length ps)%nat ->
    let l := map snd (trace (reader_fuel (text_at ascii UTF_8 (skipn k tail) 0)) (text_at ascii UTF_8 (skipn k tail) o)) in
    Forall2 item_like (skipn k tail) l /\ (enc0 = UTF_8 -> l = map Ok (skipn k tail))).
  { intros k o Lk.
    assert (Hk : Forall (pair_ok_text ascii enc0) (skipn k tail)) by (apply Forall_forall; intros q Hq; rewrite Forall_forall in Hr; apply Hr; rewrite <- (firstn_skipn k tail); apply in_or_app; right; exact Hq).
    assert (Pk : Forall plain (skipn k tail)) by (apply Forall_forall; intros q Hq; rewrite Forall_forall in Pr; apply Pr; rewrite <- (firstn_skipn k tail); apply in_or_app; right; exact Hq).
    destruct (trace_text ascii enc0 UTF_8 (skipn k tail) o (reader_fuel (text_at ascii UTF_8 (skipn k tail) 0)) Hk Pk) as (K1 & _ & K3).
    { unfold text_at, reader_fuel. cbn [t_rest]. pose proof (write_text_long ascii (skipn k tail)). lia. }
    split; [exact K1|]. intros E. subst enc0. specialize (K3 (skipn k tail) [] ltac:(rewrite app_nil_r; reflexivity) Hk).
    rewrite <- K3. symmetry. apply firstn_all_eq. exact (item_like_length _ _ K1). }
  exists rd, y. split; [|split; [|split; [|split; [|split]]]].
  - unfold open_reader, write_text. cbn [flat_map]. rewrite write_text_pair_split. rewrite <- !app_assoc.
    rewrite read_line_ascii by (apply pad_left_ascii; apply show_int_ascii). cbn [bind].
    assert (E : seqb (code_line (p_code p0)) (str "AutoCAD Binary DXF") = false).
    { apply seqb_neq. intros E. apply (f_equal trim) in E. rewrite code_line_trim in E.
      pose proof (show_int_chars (p_code p0)) as C. rewrite E in C. cbn in C. inversion C; subst. lia. }
    rewrite E. reflexivity.
  - unfold feed_of. rewrite TR. cbn [map snd]. rewrite M. reflexivity.
  - exact (item_like_reports _ _ J3).
  - intros r [pre Er]. assert (Lr : (length r <= 2 + length ps)%nat).
    { apply (f_equal (@length _)) in Er. cbn [length] in Er. rewrite app_length in Er. lia. }
    rewrite (SW r Lr). destruct (SK (3 + length ps - length r)%nat (2 + 2 * N.of_nat (3 + length ps - length r)) ltac:(lia)) as [K1 _].
    split.
    + exact (item_like_reports _ _ K1).
    + intros p [].
  - intros E. subst enc0. specialize (I3 tail [] ltac:(rewrite app_nil_r; reflexivity) Hr).
    rewrite firstn_all_eq in I3 by (cbn [length tail]; lia). unfold tail in I3. cbn [map] in I3. injection I3 as I3. exact I3.
  - intros E. rewrite (SW y ltac:(lia)). destruct (SK (3 + length ps - length y)%nat (2 + 2 * N.of_nat (3 + length ps - length y)) ltac:(lia)) as [_ K2].
    rewrite (K2 E). rewrite Ly. replace (3 + length ps - length ps)%nat with 3%nat by lia. reflexivity.
Qed.

(** * A whole binary file *)
Definition pair_ok_bin (r13 : bool) (p : pair) : Prop := typed p /\ binary_faithful r13 (p_value p).
Definition bin_at (r13 : bool) (ps : list pair) (o : N) : reader := CodePairModel.RBin (mk_bin (flat_map (write_bin_pair r13) ps) true r13 o).
Lemma write_bin_long r13 ps : (length ps <= length (flat_map (write_bin_pair r13) ps))%nat.
Proof.
  induction ps as [|p ps IH]; [cbn; lia|]. cbn [flat_map length]. rewrite app_length.
  assert (L : (1 <= length (write_bin_pair r13 p))%nat).
  { unfold write_bin_pair, write_bin_code, write_i16. rewrite app_length. destruct r13; [|destruct (255 <=? p_code p)%Z]; cbn [le_bytes length]; lia. }
  revert L IH. generalize (length (write_bin_pair r13 p)) (length (flat_map (write_bin_pair r13) ps)). intros. lia.
Qed.
Lemma trace_bin r13 : forall ps o fuel,
  Forall (pair_ok_bin r13) ps -> Forall plain ps -> (length ps < fuel)%nat ->
  let l := trace fuel (bin_at r13 ps o) in
  map snd l = map Ok ps /\
  (forall k rd x, nth_error l k = Some (rd, x) -> exists o', rd = bin_at r13 (skipn k ps) o').
Proof.
  intros ps. induction ps as [|p ps IH]; intros o fuel H P L l; (destruct fuel as [|fuel]; [cbn in L; lia|]).
  - subst l. split; [reflexivity|]. intros [|k] rd x Hx; discriminate Hx.
  - inversion H as [|? ? [Hp Fp] Hps]; subst. inversion P as [|? ? Pp Pps]; subst.
    set (o' := o + N.of_nat (length (write_bin_pair r13 p))).
    assert (EN : next_pair (S fuel) (bin_at r13 (p :: ps) o) = (Some (Ok p), bin_at r13 ps o')).
    { rewrite (next_pair_keeps fuel (bin_at r13 (p :: ps) o) (Ok (p, o')) (bin_at r13 ps o')).
      - reflexivity.
      - unfold bin_at. cbn [reader_next flat_map]. rewrite bin_next_write by assumption. reflexivity.
      - intros q oq [= <- <-]. exact Pp. }
    assert (El : l = (bin_at r13 (p :: ps) o, Ok p) :: trace fuel (bin_at r13 ps o')).
    { subst l. cbn [trace]. rewrite EN. reflexivity. }
    rewrite El. clearbody l. cbn [length] in L. destruct (IH o' fuel Hps Pps ltac:(lia)) as (I1 & I2). split.
    + cbn [map snd]. f_equal. exact I1.
    + intros [|k] rd y Hk; cbn [nth_error] in Hk.
      * injection Hk as <- _. exists o. reflexivity.
      * apply I2 in Hk. exact Hk.
Qed.
Lemma bin_file r13 s ps : s <> [] ->
  Forall (pair_ok_bin r13) (mk_pair 0 (VStr s) :: ps) -> Forall plain ps ->
  exists rd, open_reader WINDOWS_1252 (write_binary r13 (mk_pair 0 (VStr s) :: ps)) = Ok rd /\
    feed_of rd = map Ok (mk_pair 0 (VStr s) :: ps) /\
    forall ps1 ps2, ps = ps1 ++ ps2 -> feed_as_utf8 rd (map Ok ps2) = map Ok ps2.
Proof.
  intros Hs H P. inversion H as [|? ? [T0 F0] Hr]; subst.
  set (p0 := mk_pair 0 (VStr s)) in *.
  set (rd := CodePairModel.RBin (mk_bin (write_bin_pair r13 p0 ++ flat_map (write_bin_pair r13) ps) false false 20)).
  set (n := length (write_bin_pair r13 p0 ++ flat_map (write_bin_pair r13) ps)).
  assert (N1 : (length ps < S n)%nat).
  { subst n. rewrite app_length. pose proof (write_bin_long r13 ps). lia. }
  set (o1 := 20 + N.of_nat (length (write_bin_pair r13 p0))).
  set (tr := trace (S n) (bin_at r13 ps o1)).
  assert (TR : trace (reader_fuel rd) rd = (rd, Ok p0) :: tr).
  { cbn [reader_fuel rd b_rest]. fold n. cbn [trace].
    rewrite (next_pair_keeps (S n) rd (Ok (p0, o1)) (bin_at r13 ps o1)).
    - reflexivity.
    - unfold rd, bin_at. cbn [reader_next]. subst p0 o1. rewrite bin_next_first by assumption. reflexivity.
    - intros p o [= <- <-]. discriminate. }
  destruct (trace_bin r13 ps o1 (S n) Hr P N1) as (I1 & I2). fold tr in I1, I2.
  assert (Ltr : length tr = length ps) by (rewrite <- (map_length snd), I1, map_length; reflexivity).
  exists rd. split; [|split].
  - unfold open_reader, write_binary, bin_sentinel.
    change (str "AutoCAD Binary DXF" ++ [13; 10; 26; 0]) with (str "AutoCAD Binary DXF" ++ crlf ++ [26; 0]).
    rewrite <- !app_assoc. rewrite read_line_ascii by (apply ascii_line_b; reflexivity).
    cbn [bind]. rewrite seqb_refl. cbn [app]. change (26 =? 26) with true. change (0 =? 0) with true. cbn iota. reflexivity.
  - unfold feed_of. rewrite TR. cbn [map snd]. rewrite I1. reflexivity.
  - intros ps1 ps2 E. unfold feed_as_utf8. rewrite TR. cbv zeta. cbn [length]. rewrite Ltr, map_length, E, app_length.
    replace (S (length ps1 + length ps2) - length ps2)%nat with (S (length ps1)) by lia. cbn [nth_error].
    destruct (nth_error tr (length ps1)) as [[at_r x]|] eqn:NE.
    + apply I2 in NE as [o' ->]. rewrite E, skipn_app, skipn_all, Nat.sub_diag. cbn [app skipn read_as_utf8 bin_at].
      fold (bin_at r13 ps2 o').
      unfold feed_of. apply (trace_bin r13 ps2 o').
      * apply Forall_forall. intros q Hq. rewrite Forall_forall in Hr. apply Hr. rewrite E. apply in_or_app. right. exact Hq.
      * apply Forall_forall. intros q Hq. rewrite Forall_forall in P. apply P. rewrite E. apply in_or_app. right. exact Hq.
      * unfold bin_at, reader_fuel. cbn [b_rest]. pose proof (write_bin_long r13 ps2). lia.
    + apply nth_error_None in NE. rewrite E, app_length in Ltr. assert (L0 : length ps2 = 0%nat) by lia.
      apply length_zero_iff_nil in L0. subst ps2. reflexivity.
Qed.

(** * Saving and loading *)
Lemma version_simple v : simple (version_text v) = true.
Proof. destruct v; reflexivity. Qed.
Lemma version_of_sound v d : drawing_sound v d -> version_in d = v.
Proof.
  intros H. unfold version_in. rewrite <- version_slot, (ds_version v d H). apply version_of_val.
Qed.
Lemma encodings v : (version_leb v R2004 = negb (version_leb R2007 v)).
Proof. destruct v; reflexivity. Qed.

(** A file that starts with a 0 pair, or with the line of binary files, is not a DXB file. *)
Lemma text_not_dxb ascii enc s qs : after_dxb_line enc (write_text ascii (mk_pair 0 (VStr s) :: qs)) = None.
Proof.
  unfold after_dxb_line, write_text. cbn [flat_map]. unfold write_text_pair. cbn [p_code p_value].
  change (utf8_encode (pad_left 3 (show_int 0) ++ crlf)) with [32; 32; 48; 13; 10]%N. destruct enc; reflexivity.
Qed.
Lemma binary_not_dxb r13 enc qs : after_dxb_line enc (write_binary r13 qs) = None.
Proof. unfold after_dxb_line, write_binary, bin_sentinel. destruct enc; reflexivity. Qed.

(** The pairs themselves, read as they are. *)
Lemma pairs_load v env ps d' : let head := [FileModel.zero "SECTION"; name_pair "HEADER"; mk_pair 9 (VStr acadver); mk_pair 1 (VStr (version_text v))] in
  (forall sw y, (if version_leb R2007 v then sw y else y) = map Ok ps -> reports y -> redecodes sw [] (Ok (mk_pair 9 (VStr acadver)) :: Ok (mk_pair 1 (VStr (version_text v))) :: y) ->
    load sw env (map Ok head ++ y) = Ok d') -> load (fun it => it) env (map Ok (head ++ ps)) = Ok d'.
Proof.
  intros head L. rewrite map_app. assert (O : forall qs, reports (map Ok qs)) by (intros qs e He; apply in_map_iff in He as (q & Eq & _); discriminate Eq).
  apply L; [destruct (version_leb R2007 v); reflexivity|apply O|].
  apply redecodes_id; [exact (O (mk_pair 9 (VStr acadver) :: mk_pair 1 (VStr (version_text v)) :: ps))|]. intros p [].
Qed.
Lemma save_load_text v env d ps : drawing_sound v d -> code_pairs d = Ok ps -> Forall (text_storable v) ps ->
  exists bs d', save_text d = Ok bs /\ load_bytes env WINDOWS_1252 bs = Ok d' /\ drawing_returned v (handles_written v d) env d d' /\ load (fun it => it) env (map Ok ps) = Ok d'.
Proof.
  intros Hd Wp Hp. destruct (file_returns v env d Hd) as (qs & d' & Wq & Rd & Ld). rewrite Wp in Wq. injection Wq as ->. pose proof (pairs_load v env qs d' Ld) as Lp.
  set (ascii := version_leb v R2004) in *.
  set (p0 := FileModel.zero "SECTION") in *. set (p1 := name_pair "HEADER") in *. set (p2 := mk_pair 9 (VStr acadver)) in *. set (p3 := mk_pair 1 (VStr (version_text v))) in *.
  assert (A : Forall (pair_ok_text ascii (file_encoding v)) (p0 :: p1 :: p2 :: p3 :: qs)).
  { eapply Forall_impl; [|exact Hp]. intros p (H1 & H2 & _). split; assumption. }
  assert (B : Forall plain (p0 :: p1 :: p2 :: p3 :: qs)).
  { eapply Forall_impl; [|exact Hp]. intros p (_ & _ & H3). exact H3. }
  assert (C : Forall (pair_ok_text ascii WINDOWS_1252) [p0; p1; p2; p3]).
  { inversion_clear A as [|? ? [A0 _] A']. inversion_clear A' as [|? ? [A1 _] A]. inversion_clear A as [|? ? [A2 _] A']. inversion_clear A' as [|? ? [A3 _] _].
    repeat (apply Forall_cons; [split; [assumption|apply simple_faithful; first [reflexivity|apply version_simple]]|]). apply Forall_nil. }
  destruct (text_file ascii (file_encoding v) p0 p1 p2 p3 qs A B C) as (rd & y & OP & FD & RP & RE & Y1 & Y2).
  exists (write_text ascii (p0 :: p1 :: p2 :: p3 :: qs)), d'. split; [|split; [|split; [exact Rd|exact Lp]]].
  - unfold save_text. rewrite Wp. cbn [bind]. rewrite (version_of_sound v d Hd). reflexivity.
  - unfold load_bytes. unfold p0. change (FileModel.zero "SECTION") with (mk_pair 0 (VStr (str "SECTION"))). rewrite text_not_dxb. unfold p0, FileModel.zero in OP. rewrite OP. cbn [bind]. rewrite FD. apply Ld; [|exact RP|exact RE].
    unfold file_encoding in Y1, Y2. destruct (version_leb R2007 v); [exact (Y2 eq_refl)|exact (Y1 eq_refl)].
Qed.

Lemma save_load_binary v env d ps : drawing_sound v d -> code_pairs d = Ok ps -> Forall (binary_storable v) ps ->
  exists bs d', save_binary d = Ok bs /\ load_bytes env WINDOWS_1252 bs = Ok d' /\ drawing_returned v (handles_written v d) env d d' /\ load (fun it => it) env (map Ok ps) = Ok d'.
Proof.
  intros Hd Wp Hp. destruct (file_returns v env d Hd) as (qs & d' & Wq & Rd & Ld). rewrite Wp in Wq. injection Wq as ->. pose proof (pairs_load v env qs d' Ld) as Lp.
  set (r13 := version_leb R13 v) in *.
  set (p1 := name_pair "HEADER") in *. set (p2 := mk_pair 9 (VStr acadver)) in *. set (p3 := mk_pair 1 (VStr (version_text v))) in *.
  assert (A : Forall (pair_ok_bin r13) (mk_pair 0 (VStr (str "SECTION")) :: p1 :: p2 :: p3 :: qs)).
  { eapply Forall_impl; [|exact Hp]. intros p (H1 & H2 & _). split; assumption. }
  assert (B : Forall plain (p1 :: p2 :: p3 :: qs)).
  { inversion_clear Hp as [|? ? _ Hq]. eapply Forall_impl; [|exact Hq]. intros p (_ & _ & H3). exact H3. }
  destruct (bin_file r13 (str "SECTION") (p1 :: p2 :: p3 :: qs) ltac:(discriminate) A B) as (rd & OP & FD & SW).
  exists (write_binary r13 (mk_pair 0 (VStr (str "SECTION")) :: p1 :: p2 :: p3 :: qs)), d'. split; [|split; [|split; [exact Rd|exact Lp]]].
  - unfold save_binary. rewrite Wp. cbn [bind]. rewrite (version_of_sound v d Hd). reflexivity.
  - unfold load_bytes. rewrite binary_not_dxb, OP. cbn [bind]. rewrite FD. cbn [map]. apply Ld.
    + rewrite (SW [p1; p2; p3] qs eq_refl). destruct (version_leb R2007 v); reflexivity.
    + intros e He. apply in_map_iff in He as (q & Eq & _). discriminate Eq.
    + assert (S2 : forall r, left_of r (map Ok (p2 :: p3 :: qs)) -> feed_as_utf8 rd r = r /\ reports r).
      { intros r [pre Er]. apply map_eq_app in Er as (l1 & l2 & El & <- & <-). split.
        - apply (SW (p1 :: l1) l2). cbn [app]. rewrite <- El. reflexivity.
        - intros e He. apply in_map_iff in He as (q & Eq & _). discriminate Eq. }
      intros r Hr. destruct (S2 r Hr) as [-> Rr]. split; [exact Rr|]. intros p [].
Qed.
