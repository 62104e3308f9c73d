(** Written files are read as their pairs. *)
From Verif Require Import Base TextModel TextProofs VersionModel CodePairModel CodePairSpec CodePairProofs ReaderProofs SpecModel SpecSpec DrawingModel FileModel LoadSpec LoadProofs SaveModel SaveSpec SaveProofs BytesProofs BinaryProofs LocalProofs TrailerProofs SectionsSpec.
Open Scope string_scope.
Open Scope list_scope.
Open Scope N_scope.
Set Default Goal Selector "!".
Local Notation idle := (fun it : feed => it).

Lemma load_same sw sw' env q d : sw [] = [] -> (forall s, s <> [] -> tail_of s q -> sw' s = sw s) -> load sw env q = Ok d -> load sw' env q = Ok d.
Proof.
  intros Z W H. rewrite <- (app_nil_r q). apply (load_longer sw sw' env q [] d Z); [left; reflexivity| |exact H]. intros s Ns Ts. exists []. rewrite !app_nil_r. split; [exact (W s Ns Ts)|left; reflexivity].
Qed.
Lemma load_plain rd env q d : feed_of rd = q -> (forall s, s <> [] -> tail_of s q -> feed_as_utf8 rd s = s) -> load (feed_as_utf8 rd) env (feed_of rd) = Ok d <-> load idle env q = Ok d.
Proof.
  intros F W. rewrite F. split; intros H.
  - apply (load_same (feed_as_utf8 rd) idle); [|intros s Ns Ts; symmetry; exact (W s Ns Ts)|exact H]. unfold feed_as_utf8. cbn [length]. rewrite Nat.sub_0_r. rewrite (proj2 (nth_error_None _ _)) by lia. reflexivity.
  - apply (load_same idle (feed_as_utf8 rd)); [reflexivity|exact W|exact H].
Qed.
Lemma binary_pairs env enc r13 s ps d : s <> [] -> Forall (pair_ok_bin r13) (mk_pair 0 (VStr s) :: ps) -> Forall plain ps ->
  load_bytes env enc (write_binary r13 (mk_pair 0 (VStr s) :: ps)) = Ok d <-> load idle env (map Ok (mk_pair 0 (VStr s) :: ps)) = Ok d.
Proof.
  intros Hs H P. destruct (open_binary enc r13 (mk_pair 0 (VStr s) :: ps) []) as [O' D']. rewrite app_nil_r in O', D'. unfold load_bytes. rewrite O', D'. cbn [bind].
  set (st0 := mk_bin (flat_map (write_bin_pair r13) (mk_pair 0 (VStr s) :: ps) ++ []) false false 20).
  destruct (bin_file r13 s ps Hs H P) as (rd & Or & Fr & _).
  assert (Q : rd = CodePairModel.RBin st0). { destruct (open_binary WINDOWS_1252 r13 (mk_pair 0 (VStr s) :: ps) []) as [O2 _]. rewrite app_nil_r, Or in O2. injection O2 as ->. reflexivity. } subst rd.
  apply load_plain; [exact Fr|]. intros u Nu Tu. apply bin_utf8; [exact Nu|]. rewrite Fr. exact Tu.
Qed.

(** A text file that means the same in both encodings. *)
Definition both_encodings (ascii : bool) (p : pair) : Prop := typed p /\ text_faithful ascii WINDOWS_1252 (p_value p) /\ text_faithful ascii UTF_8 (p_value p) /\ p_code p <> 999%Z.
Lemma text_pairs env ascii s ps d : Forall (both_encodings ascii) (mk_pair 0 (VStr s) :: ps) ->
  load_bytes env WINDOWS_1252 (write_text ascii (mk_pair 0 (VStr s) :: ps)) = Ok d <-> load idle env (map Ok (mk_pair 0 (VStr s) :: ps)) = Ok d.
Proof.
  intros H. set (p0 := mk_pair 0 (VStr s)) in *. inversion H as [|? ? (T0 & W0 & U0 & _) Hr]; subst.
  assert (Ok1 : forall e, e = WINDOWS_1252 \/ e = UTF_8 -> text_faithful ascii e (p_value p0) /\ Forall (pair_ok_text ascii e) ps).
  { intros e [-> | ->]; (split; [assumption|]); (eapply Forall_impl; [|exact Hr]); intros p (A & B & C & _); split; assumption. }
  assert (Pl : Forall plain ps) by (eapply Forall_impl; [|exact Hr]; intros p (_ & _ & _ & N); exact N).
  assert (T0' := T0). apply typed_expected in T0'. set (rest := value_bytes ascii (p_value p0) ++ write_text ascii ps). set (n := length rest).
  set (rd := fun e => CodePairModel.RText (mk_text rest e (Some (code_line (p_code p0))) 1)).
  assert (N1 : (length ps < S n)%nat) by (subst n rest; rewrite app_length; pose proof (write_text_long ascii ps); lia).
  assert (TR : forall e, e = WINDOWS_1252 \/ e = UTF_8 -> trace (reader_fuel (rd e)) (rd e) = (rd e, Ok p0) :: trace (S n) (text_at ascii e ps 2)).
  { intros e He. destruct (Ok1 e He) as [F0 _]. cbn [reader_fuel rd t_rest]. fold n. cbn [trace]. rewrite (next_pair_keeps (S n) (rd e) (Ok (p0, 1)) (text_at ascii e ps 2)); [reflexivity| |].
    - unfold rd, text_at. cbn [reader_next]. unfold rest. rewrite (text_next_code ascii e p0 (write_text ascii ps) 1 true T0' F0 _ ltac:(reflexivity) ltac:(discriminate)). reflexivity.
    - intros p o X. injection X as <- <-. discriminate. }
  assert (SUB : forall e o f k, e = WINDOWS_1252 \/ e = UTF_8 -> (length (skipn k ps) < f)%nat -> map snd (trace f (text_at ascii e (skipn k ps) o)) = map Ok (skipn k ps)).
  { intros e o f k He L. destruct (Ok1 e He) as [_ F]. assert (Fk : Forall (pair_ok_text ascii e) (skipn k ps)) by (rewrite <- (firstn_skipn k ps) in F; apply Forall_app in F; apply F).
    assert (Pk : Forall plain (skipn k ps)) by (rewrite <- (firstn_skipn k ps) in Pl; apply Forall_app in Pl; apply Pl).
    destruct (trace_text ascii e e (skipn k ps) o f Fk Pk L) as (K1 & _ & K3). specialize (K3 (skipn k ps) [] ltac:(rewrite app_nil_r; reflexivity) Fk). rewrite <- K3. symmetry. apply firstn_all_eq. exact (item_like_length _ _ K1). }
  assert (FD : forall e, e = WINDOWS_1252 \/ e = UTF_8 -> feed_of (rd e) = map Ok (p0 :: ps)).
  { intros e He. unfold feed_of. rewrite (TR e He). cbn [map snd]. f_equal. exact (SUB e 2 (S n) 0%nat He N1). }
  unfold load_bytes. unfold p0 at 1. rewrite text_not_dxb. fold p0.
  assert (OP : open_reader WINDOWS_1252 (write_text ascii (p0 :: ps)) = Ok (rd WINDOWS_1252)).
  { unfold open_reader, write_text. cbn [flat_map]. rewrite write_text_pair_split. rewrite <- !app_assoc. rewrite read_line_ascii by (apply pad_left_ascii; apply show_int_ascii). cbn [bind].
    assert (E : seqb (code_line (p_code p0)) (str "AutoCAD Binary DXF") = false); [reflexivity|]. rewrite E. reflexivity. }
  rewrite OP. cbn [bind]. apply load_plain; [apply FD; left; reflexivity|]. intros u Nu [pre Tu]. unfold feed_as_utf8. rewrite (TR WINDOWS_1252 (or_introl eq_refl)). cbv zeta.
  destruct (trace_text ascii WINDOWS_1252 WINDOWS_1252 ps 2 (S n) (proj2 (Ok1 _ (or_introl eq_refl))) Pl N1) as (I1 & I2 & _). set (tr := trace (S n) (text_at ascii WINDOWS_1252 ps 2)) in *.
  assert (Ltr : length tr = length ps) by (rewrite <- (map_length snd); exact (item_like_length _ _ I1)).
  assert (Lu : (length pre + length u = S (length ps))%nat) by (apply (f_equal (@length _)) in Tu; rewrite map_length, app_length in Tu; cbn [length] in Tu; lia).
  assert (0 < length u)%nat by (destruct u; [contradiction Nu; reflexivity|cbn [length]; lia]).
  cbn [length]. rewrite Ltr. replace (S (length ps) - length u)%nat with (length pre) by lia. destruct pre as [|x pre]; cbn [nth_error length app] in *.
  - change (read_as_utf8 (rd WINDOWS_1252)) with (rd UTF_8). rewrite (FD UTF_8 (or_intror eq_refl)). exact Tu.
  - destruct (nth_error tr (length pre)) as [[a y]|] eqn:E; [|apply nth_error_None in E; lia]. apply I2 in E. subst a. change (read_as_utf8 (text_at ascii WINDOWS_1252 ?q ?o)) with (text_at ascii UTF_8 q o).
    unfold feed_of. rewrite SUB; [|right; reflexivity|unfold text_at, reader_fuel; cbn [t_rest]; pose proof (write_text_long ascii (skipn (length pre) ps)); lia].
    cbn [map] in Tu. injection Tu as _ Tu. rewrite <- skipn_map, Tu, skipn_app, skipn_all, Nat.sub_diag. reflexivity.
Qed.
