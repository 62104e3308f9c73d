(** Lemmas about the line structure of text files. *)
From Verif Require Import CodePairSpec TextProofs CodePairProofs ReaderProofs.
Open Scope N_scope.
Ltac Zify.zify_post_hook ::= Z.div_mod_to_equations.

Lemma lines_ne : forall bs, lines bs <> [].
Proof. destruct bs as [|b r]; cbn; [congruence|]. destruct (b =? 10); [congruence|]. destruct (lines r); congruence. Qed.

Lemma nth_line_lf : forall r n, nth_line 0 (10 :: r) = [] /\ nth_line (S n) (10 :: r) = nth_line n r.
Proof. intros. unfold nth_line. cbn [lines]. change (10 =? 10) with true. split; reflexivity. Qed.

Lemma nth_line_cons : forall b r n, b <> 10 ->
  nth_line 0 (b :: r) = b :: nth_line 0 r /\ nth_line (S n) (b :: r) = nth_line (S n) r.
Proof.
  intros b r n H. unfold nth_line. cbn [lines]. replace (b =? 10) with false by lia.
  pose proof (lines_ne r). destruct (lines r); [congruence|]. split; reflexivity.
Qed.

Lemma nth_line_nil : forall n, nth_line n [] = [].
Proof. intros [|[|n]]; reflexivity. Qed.

(** The loop without a byte order mark. *)
Lemma loop_lines_plain : forall allow i bs, (i = 0 -> allow = false \/ hd 0 bs <> 0xEF) ->
  exists r, read_line_loop allow false i bs = (nth_line 0 bs, r) /\ forall n, nth_line n r = nth_line (S n) bs.
Proof.
  intros allow i bs. revert i. induction bs as [|b bs IH]; intros i H.
  - exists []. split; [reflexivity|]. intros n. rewrite !nth_line_nil. reflexivity.
  - cbn [read_line_loop]. cbn [hd] in H.
    replace ((i =? 0) && (b =? 239) && allow) with false by (destruct (i =? 0) eqn:E; [destruct (H ltac:(lia)); [subst; lia|lia]|reflexivity]).
    rewrite andb_false_r. destruct (b =? 10) eqn:E.
    + assert (b = 10) by lia. subst b. exists bs. split; [reflexivity|]. intros n. symmetry. apply (nth_line_lf bs n).
    + destruct (IH (i + 1) ltac:(lia)) as (r & E1 & E2). rewrite E1.
      exists r. destruct (nth_line_cons b bs 0 ltac:(lia)) as [A _]. rewrite A. split; [reflexivity|].
      intros n. rewrite E2. symmetry. apply nth_line_cons. lia.
Qed.

Lemma loop_lines_skip3 : forall allow i bs, 3 <= i ->
  exists r, read_line_loop allow true i bs = (nth_line 0 bs, r) /\ forall n, nth_line n r = nth_line (S n) bs.
Proof.
  intros allow i bs. revert i. induction bs as [|b bs IH]; intros i H.
  - exists []. split; [reflexivity|]. intros n. rewrite !nth_line_nil. reflexivity.
  - cbn [read_line_loop].
    replace ((i =? 0) && (b =? 239) && allow) with false by lia.
    replace (((i =? 1) && (b =? 187) || (i =? 2) && (b =? 191)) && true) with false by lia.
    destruct (b =? 10) eqn:E.
    + assert (b = 10) by lia. subst b. exists bs. split; [reflexivity|]. intros n. symmetry. apply (nth_line_lf bs n).
    + destruct (IH (i + 1) ltac:(lia)) as (r & E1 & E2). rewrite E1.
      exists r. destruct (nth_line_cons b bs 0 ltac:(lia)) as [A _]. rewrite A. split; [reflexivity|].
      intros n. rewrite E2. symmetry. apply nth_line_cons. lia.
Qed.

Lemma without_mark_other : forall l, hd 0 l <> 0xEF -> without_mark l = l.
Proof.
  intros [|c l] H; [reflexivity|]. cbn [hd] in H. unfold without_mark.
  destruct c as [|c]; try reflexivity. do 8 (destruct c as [c|c|]; try reflexivity). exfalso. apply H. reflexivity.
Qed.

Lemma nth_line_hd : forall bs x, x <> 0 -> x <> 10 -> hd 0 bs = x <-> hd 0 (nth_line 0 bs) = x.
Proof.
  intros [|b bs] x H0 H10; [reflexivity|]. cbn [hd]. destruct (b =? 10) eqn:E.
  - assert (b = 10) by lia. subst b. destruct (nth_line_lf bs 0) as [-> _]. cbn [hd]. lia.
  - destruct (nth_line_cons b bs 0 ltac:(lia)) as [-> _]. reflexivity.
Qed.

Lemma nth_line_single : forall b r n, b <> 10 -> nth_line (S n) (b :: r) = nth_line (S n) r.
Proof. intros. apply nth_line_cons. assumption. Qed.

(** Reading a line takes the first line and leaves the others. *)
Lemma loop_lines : forall allow bs,
  exists r, read_line_loop allow false 0 bs = ((if allow then without_mark (nth_line 0 bs) else nth_line 0 bs), r) /\
            forall n, nth_line n r = nth_line (S n) bs.
Proof.
  intros [] bs.
  2: { apply loop_lines_plain. auto. }
  destruct (N.eq_dec (hd 0 bs) 0xEF) as [E|E].
  2: { destruct (loop_lines_plain true 0 bs (fun _ => or_intror E)) as (r & E1 & E2). exists r. split; [|assumption].
       rewrite E1. rewrite without_mark_other; [reflexivity|]. intros H. apply E. apply (nth_line_hd bs 239); [lia|lia|assumption]. }
  destruct bs as [|b bs]; [discriminate E|]. cbn [hd] in E. subst b.
  cbn [read_line_loop]. change ((0 =? 0) && (239 =? 239) && true) with true. cbn iota. change (0 + 1) with 1.
  destruct (nth_line_cons 239 bs 0 ltac:(lia)) as [A _]. rewrite A.
  assert (S239 : forall n, nth_line (S n) (239 :: bs) = nth_line (S n) bs) by (intros; apply nth_line_single; lia).
  destruct bs as [|a bs].
  { exists []. split; [reflexivity|]. intros n. rewrite S239. rewrite !nth_line_nil. reflexivity. }
  cbn [read_line_loop]. change (1 =? 0) with false. cbn [andb]. change (1 =? 1) with true. change (1 =? 2) with false. cbn [andb orb].
  rewrite orb_false_r, andb_true_r. change (1 + 1) with 2.
  (* index 2 *)
  assert (I2 : exists r, read_line_loop true true 2 bs = (drop_if 0xBF (nth_line 0 bs), r) /\ forall n, nth_line n r = nth_line (S n) bs).
  { destruct bs as [|c bs].
    - exists []. split; [reflexivity|]. intros n. rewrite !nth_line_nil. reflexivity.
    - cbn [read_line_loop]. change (2 =? 0) with false. change (2 =? 1) with false. change (2 =? 2) with true. cbn [andb orb].
      rewrite andb_true_r. change (2 + 1) with 3.
      destruct (loop_lines_skip3 true 3 bs ltac:(lia)) as (r & E1 & E2).
      destruct (c =? 191) eqn:Ec.
      + exists r. rewrite E1. destruct (nth_line_cons c bs 0 ltac:(lia)) as [B _]. rewrite B. cbn [drop_if]. rewrite Ec. split; [reflexivity|].
        intros n. rewrite E2. symmetry. apply nth_line_single. lia.
      + destruct (c =? 10) eqn:E10.
        * assert (c = 10) by lia. subst c. exists bs. destruct (nth_line_lf bs 0) as [B _]. rewrite B. split; [reflexivity|].
          intros n. symmetry. apply (nth_line_lf bs n).
        * rewrite E1. exists r. destruct (nth_line_cons c bs 0 ltac:(lia)) as [B _]. rewrite B. cbn [drop_if]. rewrite Ec. split; [reflexivity|].
          intros n. rewrite E2. symmetry. apply nth_line_single. lia. }
  destruct I2 as (r & I1 & I2).
  destruct (a =? 187) eqn:Ea.
  - exists r. rewrite I1. destruct (nth_line_cons a bs 0 ltac:(lia)) as [B _]. rewrite B. cbn [without_mark drop_if]. rewrite Ea. cbn [app].
    split; [reflexivity|]. intros n. rewrite I2, S239. symmetry. apply nth_line_single. lia.
  - destruct (a =? 10) eqn:E10.
    + assert (a = 10) by lia. subst a. exists bs. destruct (nth_line_lf bs 0) as [B _]. rewrite B. split; [reflexivity|].
      intros n. rewrite S239. symmetry. apply (nth_line_lf bs n).
    + rewrite I1. exists r. destruct (nth_line_cons a bs 0 ltac:(lia)) as [B _]. rewrite B. cbn [without_mark drop_if]. rewrite Ea. cbn [app].
      split; [reflexivity|]. intros n. rewrite I2, S239. symmetry. apply nth_line_single. lia.
Qed.

Definition res_of_option (o : option rstring) : res rstring :=
  match o with Some s => Ok s | None => Err MalformedString end.

Lemma read_line_lines : forall allow enc bs,
  exists r, read_line allow enc bs =
    (res_of_option (line_text enc (if allow then without_mark (nth_line 0 bs) else nth_line 0 bs)), r) /\
    forall n, nth_line n r = nth_line (S n) bs.
Proof.
  intros allow enc bs. destruct (loop_lines allow bs) as (r & E1 & E2). exists r. split; [|exact E2].
  unfold read_line. rewrite E1. unfold line_text. destruct (decode enc _); reflexivity.
Qed.

(** * Positions *)

Lemma trim_trim : forall s, trim (trim s) = trim s.
Proof.
  intros s.
  assert (S1 : forall l, exists a, all_white a /\ l = a ++ trim_start l).
  { induction l as [|c l (a & Ha & E)]; [exists []; split; [constructor|reflexivity]|]. cbn [trim_start].
    destruct (is_white c) eqn:W.
    - exists (c :: a). split; [constructor; assumption|]. cbn [app]. rewrite <- E. reflexivity.
    - exists []. split; [constructor|reflexivity]. }
  assert (S2 : exists a b, all_white a /\ all_white b /\ s = a ++ trim s ++ b).
  { destruct (S1 s) as (a & Ha & Ea). destruct (S1 (rev (trim_start s))) as (b & Hb & Eb).
    exists a, (rev b). split; [assumption|]. split; [apply Forall_rev; assumption|].
    unfold trim, trim_end. rewrite <- rev_app_distr, <- Eb, rev_involutive. exact Ea. }
  destruct S2 as (a & b & Ha & Hb & E). rewrite E at 2. rewrite trim_surround by assumption. reflexivity.
Qed.

Lemma parse_i32_trim : forall s o z, parse_i32 (trim s) o = Ok z -> forall o', parse_i32 s o' = Ok z.
Proof.
  intros s o z H o'. unfold parse_i32 in *. rewrite trim_trim in H.
  destruct (parse_signed _ _ (trim s)); [assumption|discriminate].
Qed.

Lemma text_pair_lines : forall st raw p o st' enc cenc bs k,
  t_enc st = enc -> t_first st = None ->
  line_text cenc (without_mark (nth_line k bs)) = Some raw ->
  (forall n, nth_line n (t_rest st) = nth_line (S k + n) bs) ->
  text_pair st raw = (Some (Ok (p, o)), st') ->
  o = t_off st /\ t_off st' = t_off st + 1 /\ t_enc st' = enc /\ t_first st' = None /\
  (forall n, nth_line n (t_rest st') = nth_line (S (S k) + n) bs) /\
  lines_denote cenc enc bs k p.
Proof.
  intros st raw p o st' enc cenc bs k He Hf Hl Hn H. unfold text_pair in H.
  destruct (trim raw) as [|c0 l0] eqn:T; [discriminate|].
  destruct (parse_i32 (c0 :: l0) (t_off st)) as [code|] eqn:P; [|discriminate].
  destruct (read_line_lines false (t_enc st) (t_rest st)) as (r & E1 & E2). rewrite E1 in H.
  destruct (line_text (t_enc st) (nth_line 0 (t_rest st))) as [vt|] eqn:V; cbn [res_of_option] in H; [|discriminate].
  destruct (expected_type code) as [t|] eqn:X; [|discriminate]. cbv zeta in H.
  destruct (parse_value (t_enc st) t vt _) as [v|] eqn:PV; cbn [bind] in H; [|discriminate].
  injection H as <- <- <-. cbn [t_off t_enc t_first t_rest].
  split; [reflexivity|]. split; [reflexivity|]. split; [assumption|]. split; [reflexivity|]. split.
  - intros n. rewrite E2, Hn. f_equal. lia.
  - exists raw, vt, t, (t_off st), (t_off st + 1). cbn [p_code p_value].
    split; [assumption|]. split; [rewrite Hn in V; replace (S k + 0)%nat with (S k) in V by lia; subst enc; exact V|].
    split; [eapply parse_i32_trim; rewrite T; exact P|]. split; [assumption|]. subst enc; exact PV.
Qed.

Lemma drain_lines : forall fuel st enc bs k l e,
  t_enc st = enc -> t_first st = None -> t_off st = N.of_nat k ->
  (forall n, nth_line n (t_rest st) = nth_line (k + n) bs) ->
  drain fuel (RText st) = (l, e) ->
  forall i p o, nth_error l i = Some (p, o) ->
    o = N.of_nat (k + 2 * i + 1) /\ lines_denote WINDOWS_1252 enc bs (k + 2 * i) p.
Proof.
  induction fuel as [|fuel IH]; intros st enc bs k l e He Hf Ho Hn D i p o Hi; cbn [drain reader_next] in D.
  { injection D as <- _. destruct i; discriminate Hi. }
  destruct (text_next st) as [x st'] eqn:T. unfold text_next in T. rewrite Hf in T.
  destruct (read_line_lines true WINDOWS_1252 (t_rest st)) as (r & E1 & E2). rewrite E1 in T.
  destruct (line_text WINDOWS_1252 (without_mark (nth_line 0 (t_rest st)))) as [raw|] eqn:L; cbn [res_of_option] in T.
  2: { injection T as <- _. injection D as <- _. destruct i; discriminate Hi. }
  rewrite Hn in L. replace (k + 0)%nat with k in L by lia.
  destruct x as [[[p0 o0]|]|]; [| injection D as <- _; destruct i; discriminate Hi | injection D as <- _; destruct i; discriminate Hi].
  apply (text_pair_lines _ _ _ _ _ enc WINDOWS_1252 bs k) in T.
  2: exact He. 2: reflexivity. 2: exact L. 2: { cbn [t_rest]. intros n. rewrite E2, Hn. f_equal. lia. }
  cbn [t_off] in T. destruct T as (-> & To & Te & Tf & Tn & Td).
  destruct (drain fuel (RText st')) as [l' e'] eqn:D'. injection D as <- <-.
  destruct i as [|i].
  - cbn [nth_error] in Hi. injection Hi as <- <-. split; [lia|]. replace (k + 2 * 0)%nat with k by lia. exact Td.
  - cbn [nth_error] in Hi.
    destruct (IH st' enc bs (k + 2)%nat l' e' Te Tf ltac:(lia)) with (i := i) (p := p) (o := o) as [A B].
    + intros n. rewrite Tn. f_equal. lia.
    + exact D'.
    + exact Hi.
    + split; [lia|]. replace (k + 2 * S i)%nat with (k + 2 + 2 * i)%nat by lia. exact B.
Qed.

(** The [i]-th pair of a text file comes from lines [2i] and [2i+1] (counted from 0) and its offset
    is the number of its code line counted from 1. *)
Lemma text_positions : forall enc bs st fuel l e,
  open_reader enc bs = Ok (RText st) -> drain fuel (RText st) = (l, e) ->
  forall i p o, nth_error l i = Some (p, o) ->
    o = N.of_nat (2 * i + 1) /\
    lines_denote (match i with O => enc | _ => WINDOWS_1252 end) enc bs (2 * i) p.
Proof.
  intros enc bs st fuel l e HO D i p o Hi. unfold open_reader in HO.
  destruct (read_line_lines true enc bs) as (r & E1 & E2). rewrite E1 in HO.
  destruct (line_text enc (without_mark (nth_line 0 bs))) as [fl|] eqn:L; cbn [res_of_option bind] in HO; [|discriminate].
  destruct (seqb fl (str "AutoCAD Binary DXF")).
  { destruct r as [|b1 [|b2 r]]; try discriminate HO; destruct (b1 =? 26); try discriminate HO. destruct (b2 =? 0); discriminate HO. }
  injection HO as <-. destruct fuel as [|fuel]; cbn [drain reader_next] in D.
  { injection D as <- _. destruct i; discriminate Hi. }
  destruct (text_next _) as [x st'] eqn:T. unfold text_next in T. cbn [t_first t_rest t_enc t_off] in T.
  destruct x as [[[p0 o0]|]|]; [| injection D as <- _; destruct i; discriminate Hi | injection D as <- _; destruct i; discriminate Hi].
  apply (text_pair_lines _ _ _ _ _ enc enc bs 0) in T.
  2: reflexivity. 2: reflexivity. 2: exact L. 2: { cbn [t_rest]. intros n. apply E2. }
  cbn [t_off] in T. destruct T as (-> & To & Te & Tf & Tn & Td).
  destruct (drain fuel (RText st')) as [l' e'] eqn:D'. injection D as <- <-.
  destruct i as [|i].
  - cbn [nth_error] in Hi. injection Hi as <- <-. split; [reflexivity|exact Td].
  - cbn [nth_error] in Hi.
    destruct (drain_lines fuel st' enc bs 2 l' e' Te Tf ltac:(lia) Tn D' i p o Hi) as [A B].
    split; [lia|]. replace (2 * S i)%nat with (2 + 2 * i)%nat by lia. exact B.
Qed.

(** * Line ends *)

Lemma to_unix_lines : forall bs, no_double_cr bs = true -> forall n,
  nth_line n (to_unix bs) = nth_line n bs \/
  (nth_line n bs = nth_line n (to_unix bs) ++ [13] /\ last (nth_line n (to_unix bs)) 0 <> 13).
Proof.
  induction bs as [|b bs IH]; intros H n; [left; reflexivity|].
  cbn [no_double_cr] in H. apply andb_true_iff in H as [H1 H2]. specialize (IH H2). cbn [to_unix].
  destruct ((b =? 13) && (hd 0 bs =? 10)) eqn:E.
  - assert (b = 13) by lia. subst b. destruct bs as [|c bs]; [cbn in E; discriminate E|]. cbn [hd] in E.
    assert (c = 10) by lia. subst c. cbn [to_unix] in *. change (10 =? 13) with false in *. cbn [andb] in *.
    destruct n as [|n].
    + right. destruct (nth_line_cons 13 (10 :: bs) 0 ltac:(lia)) as [-> _].
      destruct (nth_line_lf bs 0) as [-> _]. destruct (nth_line_lf (to_unix bs) 0) as [-> _]. split; [reflexivity|cbn; lia].
    + rewrite (nth_line_single 13) by lia. apply (IH (S n)).
  - destruct (b =? 10) eqn:E10.
    + assert (b = 10) by lia. subst b. destruct n as [|n].
      * left. destruct (nth_line_lf bs 0) as [-> _]. apply (nth_line_lf _ 0).
      * destruct (nth_line_lf bs n) as [_ ->]. destruct (nth_line_lf (to_unix bs) n) as [_ ->]. apply IH.
    + destruct n as [|n].
      * destruct (nth_line_cons b bs 0 ltac:(lia)) as [-> _]. destruct (nth_line_cons b (to_unix bs) 0 ltac:(lia)) as [-> _].
        destruct (IH O) as [A|[A B]]; [left; congruence|]. right. split; [rewrite A; reflexivity|].
        destruct (nth_line 0 (to_unix bs)) as [|x t] eqn:X; [|exact B].
        cbn [last]. cbn [app] in A. intros ->. 
        destruct bs as [|c bs]; [discriminate A|]. cbn [hd] in *.
        destruct (c =? 10) eqn:C10.
        { assert (c = 10) by lia. subst c. destruct (nth_line_lf bs 0) as [B1 _]. rewrite B1 in A. discriminate A. }
        destruct (nth_line_cons c bs 0 ltac:(lia)) as [B1 _]. rewrite B1 in A. injection A as A _. subst c. discriminate H1.
      * rewrite !nth_line_single by lia. apply (IH (S n)).
Qed.

Lemma utf8_decode_fuel_enough : forall f1 f2 bs, (length bs < f1)%nat -> (length bs < f2)%nat ->
  utf8_decode_fuel f1 bs = utf8_decode_fuel f2 bs.
Proof.
  induction f1 as [|f1 IH]; intros f2 bs H1 H2; [lia|]. destruct f2 as [|f2]; [lia|].
  cbn [utf8_decode_fuel]. destruct bs as [|b0 r0]; [reflexivity|]. cbn [length] in *.
  destruct (b0 <? 128); [rewrite (IH f2) by lia; reflexivity|].
  destruct r0 as [|b1 r1]; [reflexivity|]. cbn [length] in *. destruct (negb (is_cont b1)); [reflexivity|].
  destruct ((194 <=? b0) && (b0 <? 224)); [rewrite (IH f2) by lia; reflexivity|].
  destruct r1 as [|b2 r2]; [reflexivity|]. cbn [length] in *. destruct (negb (is_cont b2)); [reflexivity|].
  destruct ((224 <=? b0) && (b0 <? 240)); [rewrite (IH f2 r2) by lia; reflexivity|].
  destruct r2 as [|b3 r3]; [reflexivity|]. cbn [length] in *. destruct (negb (is_cont b3)); [reflexivity|].
  rewrite (IH f2 r3) by lia. reflexivity.
Qed.

Lemma option_map_app : forall (o : option rstring) c,
  option_map (cons c) (option_map (fun s => s ++ [13]) o) = option_map (fun s => s ++ [13]) (option_map (cons c) o).
Proof. intros [s|] c; reflexivity. Qed.

Lemma utf8_decode_cr_fuel : forall f g bs, (length bs < f)%nat -> (S (length bs) < g)%nat ->
  utf8_decode_fuel g (bs ++ [13]) = option_map (fun s => s ++ [13]) (utf8_decode_fuel f bs).
Proof.
  induction f as [|f IH]; intros g bs H G; [lia|]. destruct g as [|g]; [lia|].
  destruct bs as [|b0 r0].
  { destruct g as [|g]; [cbn [length] in G; lia|]. reflexivity. }
  cbn [length app] in *. cbn [utf8_decode_fuel].
  destruct (b0 <? 128).
  { rewrite IH by lia. apply option_map_app. }
  destruct r0 as [|b1 r1]; [reflexivity|]. cbn [app length] in *. destruct (negb (is_cont b1)); [reflexivity|].
  destruct ((194 <=? b0) && (b0 <? 224)).
  { rewrite IH by lia. apply option_map_app. }
  destruct r1 as [|b2 r2]; [reflexivity|]. cbn [app length] in *. destruct (negb (is_cont b2)); [reflexivity|].
  destruct ((224 <=? b0) && (b0 <? 240)).
  { cbv zeta. destruct (_ || _); [reflexivity|]. rewrite IH by lia. apply option_map_app. }
  destruct r2 as [|b3 r3]; [reflexivity|]. cbn [app length] in *. destruct (negb (is_cont b3)); [reflexivity|].
  destruct ((240 <=? b0) && (b0 <? 245)); [|reflexivity]. cbv zeta. destruct (_ || _); [reflexivity|].
  rewrite IH by lia. apply option_map_app.
Qed.

Lemma utf8_decode_cr : forall bs, utf8_decode (bs ++ [13]) = option_map (fun s => s ++ [13]) (utf8_decode bs).
Proof. intros bs. unfold utf8_decode. apply utf8_decode_cr_fuel; rewrite ?app_length; cbn [length]; lia. Qed.

Definition decode_plain (enc : encoding) (bs : bytes) : option rstring :=
  match enc with WINDOWS_1252 => Some (win1252_decode bs) | UTF_8 => utf8_decode bs end.

Definition utf8_marked (l : bytes) : bool :=
  match l with a :: b :: c :: _ => (a =? 0xEF) && (b =? 0xBB) && (c =? 0xBF) | _ => false end.

Ltac split_pos := repeat (match goal with |- context [match ?p with xI _ => _ | xO _ => _ | xH => _ end] => is_var p; destruct p end; try reflexivity; try discriminate).

Lemma decode_cases : forall enc l, utf16_marked l = false ->
  decode enc l = if utf8_marked l then utf8_decode (skipn 3 l) else decode_plain enc l.
Proof.
  intros enc l H.
  destruct (utf8_marked l) eqn:M.
  - destruct l as [|a [|b [|c l]]]; try discriminate M. cbn [utf8_marked] in M.
    assert (a = 0xEF) by lia. assert (b = 0xBB) by lia. assert (c = 0xBF) by lia. subst. reflexivity.
  - unfold decode. fold (decode_plain enc l).
    destruct l as [|a l]; [reflexivity|].
    destruct (N.eq_dec a 0xEF) as [->|A1].
    { destruct l as [|b l]; [reflexivity|]. destruct (N.eq_dec b 0xBB) as [->|B1].
      - destruct l as [|c l]; [reflexivity|]. destruct (N.eq_dec c 0xBF) as [->|C1]; [discriminate M|].
        destruct c as [|c]; [reflexivity|]. split_pos; congruence.
      - destruct b as [|b]; [reflexivity|]. split_pos; congruence. }
    destruct (N.eq_dec a 0xFF) as [->|A2].
    { destruct l as [|b l]; [reflexivity|]. destruct (N.eq_dec b 0xFE) as [->|B1]; [discriminate H|].
      destruct b as [|b]; [reflexivity|]. split_pos; congruence. }
    destruct (N.eq_dec a 0xFE) as [->|A3].
    { destruct l as [|b l]; [reflexivity|]. destruct (N.eq_dec b 0xFF) as [->|B1]; [discriminate H|].
      destruct b as [|b]; [reflexivity|]. split_pos; congruence. }
    destruct a as [|a]; [reflexivity|]. split_pos; congruence.
Qed.

Lemma decode_cr : forall enc l, utf16_marked l = false ->
  decode enc (l ++ [13]) = option_map (fun s => s ++ [13]) (decode enc l).
Proof.
  intros enc l H.
  assert (H' : utf16_marked (l ++ [13]) = false).
  { destruct l as [|a [|b l]]; [reflexivity| |exact H]. cbn. lia. }
  rewrite (decode_cases _ _ H), (decode_cases _ _ H').
  assert (M : utf8_marked (l ++ [13]) = utf8_marked l).
  { destruct l as [|a [|b [|c l]]]; try reflexivity. cbn [app utf8_marked]. lia. }
  rewrite M. destruct (utf8_marked l) eqn:E.
  - destruct l as [|a [|b [|c l]]]; try discriminate E. cbn [app skipn]. apply utf8_decode_cr.
  - destruct enc; cbn [decode_plain]; [|apply utf8_decode_cr].
    cbn [option_map]. unfold win1252_decode. rewrite map_app. reflexivity.
Qed.

Lemma without_mark_cr : forall l, without_mark (l ++ [13]) = without_mark l ++ [13].
Proof.
  intros [|a l]; [reflexivity|]. destruct (N.eq_dec a 0xEF) as [->|A].
  2: { rewrite (without_mark_other (a :: l)) by exact A. rewrite without_mark_other by exact A. reflexivity. }
  destruct l as [|b [|c l]]; [reflexivity| |].
  - cbn [app without_mark drop_if]. change (13 =? 191) with false. cbn iota. rewrite app_nil_r. reflexivity.
  - cbn [app without_mark drop_if]. destruct (b =? 187), (c =? 191); reflexivity.
Qed.

Lemma strip_cr_none : forall s, last s 0 <> 13 -> strip_cr s = s.
Proof.
  intros s. destruct s as [|c s] using rev_ind; [reflexivity|]. rewrite last_last. intros H.
  unfold strip_cr. rewrite rev_app_distr. cbn [rev app]. replace (c =? 13) with false by lia. reflexivity.
Qed.

Lemma trim_strip_cr : forall s, trim (strip_cr s) = trim s.
Proof.
  intros s. destruct s as [|c s _] using rev_ind; [reflexivity|].
  unfold strip_cr. rewrite rev_app_distr. cbn [rev app]. destruct (c =? 13) eqn:E; [|reflexivity].
  rewrite rev_involutive. assert (c = 13) by lia. subst c. symmetry.
  change (s ++ [13]) with ([] ++ s ++ [13]). apply trim_surround; [constructor|]. repeat constructor.
Qed.

(** * Files with the same lines up to blanks *)

Lemma trim_blank : forall s s' o z, trim s = trim s' -> parse_i32 s o = Ok z -> forall o', parse_i32 (trim s') o' = Ok z.
Proof.
  intros s s' o z E H o'. unfold parse_i32 in *. rewrite trim_trim, <- E.
  destruct (parse_signed _ _ (trim s)); [assumption|discriminate].
Qed.

Lemma parse_value_blank : forall enc t x y o, trim x = trim y -> t <> TStr -> t <> TBin ->
  parse_value enc t x o = parse_value enc t y o.
Proof.
  intros enc t x y o E H1 H2. destruct t; try congruence; unfold parse_value, parse_i16, parse_i32, parse_i64, parse_f64; rewrite E; reflexivity.
Qed.

Definition text_sim (enc : encoding) (a b : bytes) (k : nat) (sa sb : text_state) : Prop :=
  t_enc sa = enc /\ t_enc sb = enc /\ t_off sa = t_off sb /\ t_first sa = None /\ t_first sb = None /\
  (forall n, nth_line n (t_rest sa) = nth_line (k + n) a) /\ (forall n, nth_line n (t_rest sb) = nth_line (k + n) b).

Lemma ranges_functional : forall c lo hi t lo' hi' t',
  In (lo, hi, t) code_ranges -> (lo <= c <= hi)%Z -> In (lo', hi', t') code_ranges -> (lo' <= c <= hi')%Z -> t = t'.
Proof.
  intros. assert (A : expected_type c = Some t) by (apply expected_type_ranges; eauto).
  assert (B : expected_type c = Some t') by (apply expected_type_ranges; eauto). congruence.
Qed.

Lemma text_pair_sim : forall enc a b i sa sb ra rb,
  blank_variant enc a b ->
  text_sim enc a b (S (2 * i)) sa sb ->
  line_text (match i with O => enc | _ => WINDOWS_1252 end) (without_mark (nth_line (2 * i) a)) = Some ra ->
  trim ra = trim rb ->
  exists x sa' sb', text_pair sa ra = (x, sa') /\ text_pair sb rb = (x, sb') /\
    ((exists p, x = Some (Ok p)) -> text_sim enc a b (2 * S i) sa' sb').
Proof.
  intros enc a b i sa sb ra rb BV (Ea & Eb & Eo & Fa & Fb & Na & Nb) La T.
  unfold text_pair. rewrite <- T. destruct (trim ra) as [|c0 l0] eqn:Tr.
  { exists None, sa, sb. split; [reflexivity|]. split; [reflexivity|]. intros [p H]; discriminate H. }
  rewrite <- Eo. destruct (parse_i32 (c0 :: l0) (t_off sa)) as [code|e] eqn:P.
  2: { eexists (Some (Err e)), sa, sb. split; [reflexivity|]. split; [reflexivity|]. intros [p H]; discriminate H. }
  destruct (read_line_lines false (t_enc sa) (t_rest sa)) as (r1 & E1 & E1n). rewrite E1.
  destruct (read_line_lines false (t_enc sb) (t_rest sb)) as (r2 & E2 & E2n). rewrite E2.
  rewrite Ea, Eb, (Na O), (Nb O). replace (S (2 * i) + 0)%nat with (S (2 * i)) by lia.
  destruct (BV i) as [_ V]. cbv zeta in V.
  assert (V' : (exists x y, line_text enc (nth_line (S (2 * i)) a) = Some x /\ line_text enc (nth_line (S (2 * i)) b) = Some y /\
                 (x = y \/ (trim x = trim y /\ numeric_code code))) \/
               (line_text enc (nth_line (S (2 * i)) a) = None /\ line_text enc (nth_line (S (2 * i)) b) = None)).
  { destruct V as [V|[V (raw & c & R1 & R2 & R3)]].
    - rewrite V. destruct (line_text enc (nth_line (S (2 * i)) b)) as [y|]; [left; exists y, y; auto|right; auto].
    - destruct (line_text enc (nth_line (S (2 * i)) a)) as [x|], (line_text enc (nth_line (S (2 * i)) b)) as [y|]; try discriminate V; [|right; auto].
      injection V as V. left. exists x, y. split; [reflexivity|]. split; [reflexivity|]. right. split; [assumption|].
      rewrite La in R1. injection R1 as <-.
      rewrite <- Tr in P. apply (parse_i32_trim _ _ _) with (o' := 0) in P. congruence. }
  assert (SIM : forall ra' rb', (forall n, nth_line n ra' = nth_line (S n) (t_rest sa)) -> (forall n, nth_line n rb' = nth_line (S n) (t_rest sb)) ->
     text_sim enc a b (2 * S i) (mk_text ra' enc None (t_off sa + 1)) (mk_text rb' enc None (t_off sa + 1))).
  { intros ra' rb' A B. unfold text_sim; cbn [t_enc t_off t_first t_rest].
    split; [reflexivity|]. split; [reflexivity|]. split; [reflexivity|]. split; [reflexivity|]. split; [reflexivity|].
    split; intros n; [rewrite A, Na|rewrite B, Nb]; f_equal; lia. }
  destruct V' as [(x & y & X & Y & V')|[X Y]]; rewrite X, Y; cbn [res_of_option].
  2: { eexists _, _, _. split; [reflexivity|]. split; [reflexivity|]. intros _. apply SIM; assumption. }
  destruct (expected_type code) as [t|] eqn:XT.
  2: { eexists _, _, _. split; [reflexivity|]. split; [reflexivity|]. intros _. apply SIM; assumption. }
  assert (PV : parse_value enc t x (t_off sa + 1) = parse_value enc t y (t_off sa + 1)).
  { destruct V' as [->|[TT (lo & hi & t' & I & L & H1 & H2)]]; [reflexivity|].
    assert (t' = t). { apply expected_type_ranges in XT as (lo' & hi' & I' & L'). eapply ranges_functional; eassumption. }
    subst t'. apply parse_value_blank; assumption. }
  cbv zeta. rewrite <- PV. eexists _, _, _. split; [reflexivity|]. split; [reflexivity|]. intros _. apply SIM; assumption.
Qed.

Lemma drain_sim : forall enc a b, blank_variant enc a b -> forall fuel i sa sb,
  text_sim enc a b (2 * S i) sa sb -> drain fuel (RText sa) = drain fuel (RText sb).
Proof.
  intros enc a b BV. induction fuel as [|fuel IH]; intros i sa sb S0; [reflexivity|].
  cbn [drain reader_next]. pose proof S0 as (Ea & Eb & Eo & Fa & Fb & Na & Nb).
  unfold text_next. rewrite Fa, Fb.
  destruct (read_line_lines true WINDOWS_1252 (t_rest sa)) as (r1 & E1 & E1n). rewrite E1.
  destruct (read_line_lines true WINDOWS_1252 (t_rest sb)) as (r2 & E2 & E2n). rewrite E2.
  rewrite (Na O), (Nb O). replace (2 * S i + 0)%nat with (2 * S i)%nat by lia.
  destruct (BV (S i)) as [C _]. cbv beta iota zeta in C.
  destruct (line_text WINDOWS_1252 (without_mark (nth_line (2 * S i) a))) as [ra|] eqn:La,
           (line_text WINDOWS_1252 (without_mark (nth_line (2 * S i) b))) as [rb|] eqn:Lb;
    cbn [option_map] in C; try discriminate C; cbn [res_of_option].
  2: reflexivity.
  injection C as C.
  destruct (text_pair_sim enc a b (S i) (mk_text r1 (t_enc sa) None (t_off sa + 1)) (mk_text r2 (t_enc sb) None (t_off sb + 1)) ra rb BV) as (x & sa' & sb' & A & B & R).
  - unfold text_sim; cbn [t_enc t_off t_first t_rest]. split; [assumption|]. split; [assumption|]. split; [lia|]. split; [reflexivity|]. split; [reflexivity|].
    split; intros n; [rewrite E1n, Na|rewrite E2n, Nb]; f_equal; lia.
  - exact La.
  - exact C.
  - rewrite A, B. destruct x as [[p|e]|]; [|reflexivity|reflexivity].
    rewrite (IH (S i) sa' sb'); [reflexivity|]. apply R. exists p. reflexivity.
Qed.

(** Blanks around codes and numbers do not matter. *)
Lemma blank_variant_reads : forall enc a b, blank_variant enc a b -> not_binary enc a -> not_binary enc b ->
  forall fuel, read_file fuel enc a = read_file fuel enc b.
Proof.
  intros enc a b BV NA NB fuel. unfold read_file, open_reader, not_binary in *.
  destruct (read_line_lines true enc a) as (r1 & E1 & E1n). rewrite E1.
  destruct (read_line_lines true enc b) as (r2 & E2 & E2n). rewrite E2.
  destruct (BV O) as [C _]. cbv beta iota zeta in C. change (2 * 0)%nat with O in C.
  destruct (line_text enc (without_mark (nth_line 0 a))) as [ra|] eqn:La,
           (line_text enc (without_mark (nth_line 0 b))) as [rb|] eqn:Lb;
    cbn [option_map] in C; try discriminate C; cbn [res_of_option bind].
  2: reflexivity.
  injection C as C.
  assert (SA : seqb ra (str "AutoCAD Binary DXF") = false).
  { destruct (seqb ra _) eqn:S; [|reflexivity]. apply seqb_eq in S. congruence. }
  assert (SB : seqb rb (str "AutoCAD Binary DXF") = false).
  { destruct (seqb rb _) eqn:S; [|reflexivity]. apply seqb_eq in S. congruence. }
  rewrite SA, SB. cbn [bind]. f_equal. destruct fuel as [|fuel]; [reflexivity|].
  cbn [drain reader_next]. unfold text_next; cbn [t_first t_rest t_enc t_off].
  destruct (text_pair_sim enc a b 0 (mk_text r1 enc None 1) (mk_text r2 enc None 1) ra rb BV) as (x & sa' & sb' & A & B & R).
  - unfold text_sim; cbn [t_enc t_off t_first t_rest]. do 5 (split; [reflexivity|]). split; intros n; [rewrite E1n|rewrite E2n]; f_equal; lia.
  - exact La.
  - exact C.
  - rewrite A, B. destruct x as [[p|e]|]; [|reflexivity|reflexivity].
    rewrite (drain_sim enc a b BV fuel 0 sa' sb'); [reflexivity|]. apply R. exists p. reflexivity.
Qed.

(** Decoding does not create a carriage return at the end. *)
Lemma last_cons_ne : forall (l : rstring) c, l <> [] -> last (c :: l) 0 = last l 0.
Proof. intros [|x l] c H; [congruence|reflexivity]. Qed.

Lemma utf8_last_cr : forall f bs s, utf8_decode_fuel f bs = Some s -> last s 0 = 13 -> last bs 0 = 13.
Proof.
  assert (K : forall bs (r : bytes) (c : N) s', (bs = [] -> s' = []) -> c <> 13 -> last (c :: s') 0 = 13 -> (last s' 0 = 13 -> last bs 0 = 13) ->
              forall pre, last (pre ++ bs) 0 = 13).
  { intros bs r c s' H0 Hc L IHl pre. destruct s' as [|x s']; [cbn in L; congruence|].
    rewrite last_cons_ne in L by congruence. specialize (IHl L).
    destruct bs as [|y bs']; [discriminate (H0 eq_refl)|]. 
    clear - IHl. induction pre as [|z pre IH]; [exact IHl|]. cbn [app]. rewrite last_cons_ne; [exact IH|]. destruct pre; discriminate. }
  assert (Z0 : forall f s, utf8_decode_fuel f [] = Some s -> s = []) by (intros [|f] s H; cbn in H; congruence).
  induction f as [|f IH]; intros bs s H L; [discriminate H|]. cbn [utf8_decode_fuel] in H.
  destruct bs as [|b0 r0]; [injection H as <-; cbn in L; discriminate L|].
  destruct (b0 <? 128) eqn:B0.
  { destruct (utf8_decode_fuel f r0) as [s'|] eqn:D; [|discriminate H]. cbn [option_map] in H. injection H as <-.
    destruct r0 as [|y r0']. { apply Z0 in D. subst s'. exact L. }
    destruct s' as [|x s'].
    - exfalso. clear - D. destruct f as [|f]; [discriminate D|]. cbn [utf8_decode_fuel] in D.
      repeat (match type of D with
              | (if ?c then _ else _) = _ => destruct c
              | match ?l with [] => _ | _ :: _ => _ end = _ => destruct l
              | option_map _ ?o = _ => destruct o; cbn [option_map] in D
              | (let c := _ in _) = _ => cbv zeta in D
              end; try discriminate D).
    - rewrite last_cons_ne by discriminate. rewrite last_cons_ne in L by discriminate. eapply IH; eassumption. }
  destruct r0 as [|b1 r1]; [discriminate H|]. destruct (negb (is_cont b1)) eqn:C1; [discriminate H|].
  destruct ((194 <=? b0) && (b0 <? 224)) eqn:B1.
  { destruct (utf8_decode_fuel f r1) as [s'|] eqn:D; [|discriminate H]. cbn [option_map] in H. injection H as <-.
    apply (K r1 [] _ s') with (pre := [b0; b1]) in L; [exact L|intros ->; eapply Z0; exact D| |intros; eapply IH; eassumption].
    unfold is_cont in C1. clear - B1 C1. lia. }
  destruct r1 as [|b2 r2]; [discriminate H|]. destruct (negb (is_cont b2)) eqn:C2; [discriminate H|].
  destruct ((224 <=? b0) && (b0 <? 240)) eqn:B2.
  { cbv zeta in H. destruct (_ || _) eqn:O; [discriminate H|].
    destruct (utf8_decode_fuel f r2) as [s'|] eqn:D; [|discriminate H]. cbn [option_map] in H. injection H as <-.
    apply (K r2 [] _ s') with (pre := [b0; b1; b2]) in L; [exact L|intros ->; eapply Z0; exact D| |intros; eapply IH; eassumption].
    clear - O. apply orb_false_iff in O as [O _]. lia. }
  destruct r2 as [|b3 r3]; [discriminate H|]. destruct (negb (is_cont b3)) eqn:C3; [discriminate H|].
  destruct ((240 <=? b0) && (b0 <? 245)) eqn:B3; [|discriminate H].
  cbv zeta in H. destruct (_ || _) eqn:O; [discriminate H|].
  destruct (utf8_decode_fuel f r3) as [s'|] eqn:D; [|discriminate H]. cbn [option_map] in H. injection H as <-.
  apply (K r3 [] _ s') with (pre := [b0; b1; b2; b3]) in L; [exact L|intros ->; eapply Z0; exact D| |intros; eapply IH; eassumption].
  clear - O. apply orb_false_iff in O as [O _]. lia.
Qed.

Lemma win1252_byte_cr : forall b, win1252_byte b = 13 -> b = 13.
Proof.
  intros b. unfold win1252_byte. destruct ((128 <=? b) && (b <? 160)) eqn:E; [|auto].
  assert (F : forallb (fun n => negb (nth n win1252_high 0 =? 13)) (seq 0 32) = true) by (vm_compute; reflexivity).
  rewrite forallb_forall in F. specialize (F (N.to_nat (b - 128))). rewrite in_seq in F. specialize (F ltac:(lia)). lia.
Qed.

Lemma decode_last_cr : forall enc l s, utf16_marked l = false -> decode enc l = Some s -> last s 0 = 13 -> last l 0 = 13.
Proof.
  intros enc l s H D L. rewrite decode_cases in D by assumption. destruct (utf8_marked l) eqn:M.
  - destruct l as [|a [|b [|c l]]]; try discriminate M. cbn [skipn] in D.
    destruct l as [|x l]; [cbn in D; injection D as <-; discriminate L|].
    apply utf8_last_cr in D; [|assumption]. rewrite !last_cons_ne by discriminate. exact D.
  - destruct enc; cbn [decode_plain] in D; [|eapply utf8_last_cr; eassumption].
    injection D as <-. clear - L. unfold win1252_decode in L. destruct l as [|x l _] using rev_ind; [discriminate L|].
    rewrite map_app in L. cbn [map] in L. rewrite last_last in *. apply win1252_byte_cr. exact L.
Qed.

Lemma line_text_cr : forall enc l, utf16_marked l = false -> last l 0 <> 13 ->
  line_text enc (l ++ [13]) = line_text enc l.
Proof.
  intros enc l H L. unfold line_text. rewrite decode_cr by assumption.
  destruct (decode enc l) as [s|] eqn:D; [|reflexivity]. cbn [option_map]. f_equal.
  rewrite strip_cr_cr. rewrite strip_cr_none; [reflexivity|]. intros E. apply L. eapply decode_last_cr; eassumption.
Qed.

Lemma line_text_trim_cr : forall enc l, utf16_marked l = false ->
  option_map trim (line_text enc (l ++ [13])) = option_map trim (line_text enc l).
Proof.
  intros enc l H. unfold line_text. rewrite decode_cr by assumption.
  destruct (decode enc l) as [s|] eqn:D; [|reflexivity]. cbn [option_map]. f_equal.
  rewrite strip_cr_cr, trim_strip_cr. reflexivity.
Qed.

Lemma utf16_marked_cr : forall l, utf16_marked (l ++ [13]) = utf16_marked l.
Proof. intros [|a [|b l]]; [reflexivity| |reflexivity]. cbn. lia. Qed.

Lemma to_unix_blank_variant : forall enc bs, no_double_cr bs = true -> no_utf16 bs -> blank_variant enc bs (to_unix bs).
Proof.
  intros enc bs H U i. cbv zeta. split.
  - destruct (U (2 * i)%nat) as [_ U2]. destruct (to_unix_lines bs H (2 * i)%nat) as [E|[E L]]; [rewrite E; reflexivity|].
    rewrite E in *. rewrite without_mark_cr in *. rewrite utf16_marked_cr in U2. apply line_text_trim_cr. exact U2.
  - left. destruct (U (S (2 * i))%nat) as [U1 _]. destruct (to_unix_lines bs H (S (2 * i))%nat) as [E|[E L]]; [rewrite E; reflexivity|].
    rewrite E in *. rewrite utf16_marked_cr in U1. apply line_text_cr; assumption.
Qed.

Lemma without_mark_last : forall l, last l 0 <> 13 -> last (without_mark l) 0 <> 13 \/ without_mark l = [13].
Proof.
  intros [|a l] H; [left; exact H|]. destruct (N.eq_dec a 0xEF) as [->|A].
  2: { rewrite without_mark_other by exact A. left; exact H. }
  destruct l as [|b l]; [left; cbn; lia|]. cbn [without_mark].
  destruct l as [|c l].
  - left. cbn [drop_if app]. rewrite app_nil_r. destruct (b =? 187); cbn; [lia|]. cbn in H. exact H.
  - destruct (c =? 191) eqn:C.
    + destruct l as [|d l].
      * cbn [drop_if]. rewrite C. rewrite app_nil_r. destruct (b =? 187) eqn:B; [left; cbn; lia|].
        destruct (N.eq_dec b 13) as [->|]; [right; reflexivity|left; cbn; lia].
      * left. cbn [drop_if]. rewrite C. cbn in H. destruct (b =? 187); exact H.
    + left. cbn [drop_if]. rewrite C. cbn in H. destruct (b =? 187); exact H.
Qed.

(** CR LF may be replaced by LF. *)
Lemma to_unix_reads : forall enc bs, no_double_cr bs = true -> no_utf16 bs -> not_binary enc bs ->
  forall fuel, read_file fuel enc (to_unix bs) = read_file fuel enc bs.
Proof.
  intros enc bs H U B fuel. symmetry. apply blank_variant_reads; [apply to_unix_blank_variant; assumption|assumption|].
  unfold not_binary in *. intros E. apply B. destruct (U O) as [_ U2].
  destruct (to_unix_lines bs H O) as [X|[X L]]; [rewrite <- X; exact E|].
  rewrite X in *. rewrite without_mark_cr in *. rewrite utf16_marked_cr in U2.
  destruct (without_mark_last _ L) as [W|W]; [rewrite line_text_cr by assumption; exact E|].
  exfalso. rewrite W in E. destruct enc; discriminate E.
Qed.
