(** Lemmas about the readers on arbitrary input: types, termination, positions, line endings. *)
From Verif Require Import CodePairSpec TextProofs CodePairProofs.
Open Scope N_scope.
Ltac Zify.zify_post_hook ::= Z.div_mod_to_equations.

(** * Types *)

Lemma parse_value_type : forall enc t l o v, parse_value enc t l o = Ok v -> value_type v = t.
Proof.
  intros enc t l o v H. destruct t; cbn [parse_value] in H.
  all: try (injection H as <-; reflexivity).
  all: match goal with H : bind ?e _ = _ |- _ => destruct e; cbn [bind] in H; [injection H as <-; reflexivity|discriminate H] end.
Qed.

Ltac split_res H :=
  repeat match type of H with
  | context[match ?x with _ => _ end] => destruct x eqn:?; try discriminate H
  end.

Lemma text_pair_typed : forall st raw p o st', text_pair st raw = (Some (Ok (p, o)), st') -> typed p.
Proof.
  intros st raw p o st' H. apply typed_expected. unfold text_pair in H.
  destruct (trim raw) as [|c0 l0]; [discriminate|].
  destruct (parse_i32 (c0 :: l0) (t_off st)) as [code|]; [|discriminate].
  destruct (read_line false (t_enc st) (t_rest st)) as [vl r]. destruct vl as [value_line|]; [|discriminate].
  destruct (expected_type code) as [t|] eqn:E; [|discriminate]. cbv zeta in H.
  destruct (parse_value (t_enc st) t value_line _) as [v|] eqn:P; cbn [bind] in H; [|discriminate].
  injection H as <- _ _. cbn [p_code p_value]. rewrite E. f_equal. symmetry. eapply parse_value_type. exact P.
Qed.

Lemma text_next_typed : forall st p o st', text_next st = (Some (Ok (p, o)), st') -> typed p.
Proof.
  intros st p o st' H. unfold text_next in H. destruct (t_first st).
  - eapply text_pair_typed. exact H.
  - destruct (read_line true WINDOWS_1252 (t_rest st)) as [l r]. destruct l; [|discriminate].
    eapply text_pair_typed. exact H.
Qed.

Ltac bind_inv H :=
  match type of H with
  | bind ?e _ = Ok _ => let E := fresh "E" in destruct e eqn:E; cbn [bind] in H; [|discriminate H]
  end.

Lemma bin_value_spec : forall det two c t bs v r n two', bin_value det two c t bs = Ok (v, r, n, two') ->
  value_type v = t /\ (length r <= length bs)%nat.
Proof.
  assert (LE : forall k bs v r, read_le k bs = Ok (v, r) -> (length r <= length bs)%nat).
  { induction k as [|k IH]; intros bs v r H; cbn [read_le] in H; [injection H as _ <-; lia|].
    destruct bs as [|b bs]; [discriminate|]. bind_inv H. destruct a as [v' r']. injection H as _ <-.
    apply IH in E. cbn [length]. lia. }
  assert (RS : forall bs s r, read_string_binary bs = Ok (s, r) -> (length r <= length bs)%nat).
  { induction bs as [|b bs IH]; intros s r H; cbn [read_string_binary] in H; [discriminate|].
    destruct (b =? 0); [injection H as _ <-; cbn [length]; lia|]. bind_inv H. destruct a as [s' r'].
    injection H as _ <-. specialize (IH _ _ eq_refl). cbn [length]. lia. }
  assert (RX : forall k bs s r, read_exact k bs = Ok (s, r) -> (length r <= length bs)%nat).
  { induction k as [|k IH]; intros bs s r H; cbn [read_exact] in H; [injection H as _ <-; lia|].
    destruct bs as [|b bs]; [discriminate|]. cbn [read_u8_strict bind] in H. bind_inv H. destruct a as [v' r'].
    injection H as _ <-. apply IH in E. cbn [length]. lia. }
  intros det two c t bs v r n two' H. destruct t; cbn [bin_value] in H.
  - destruct two.
    + destruct bs as [|b bs]; [discriminate|]. cbn [read_u8_strict bind] in H. injection H as <- <- _ _. cbn [length]. split; [reflexivity|lia].
    + bind_inv H. destruct a as [z r']. injection H as <- <- _ _. unfold read_i16 in E. bind_inv E. destruct a as [w r2].
      injection E as _ <-. apply LE in E0. auto.
  - bind_inv H. destruct a as [z r']. injection H as <- <- _ _. unfold read_i32 in E. bind_inv E. destruct a as [w r2].
    injection E as _ <-. apply LE in E0. auto.
  - bind_inv H. destruct a as [z r']. injection H as <- <- _ _. unfold read_i64 in E. bind_inv E. destruct a as [w r2].
    injection E as _ <-. apply LE in E0. auto.
  - bind_inv H. destruct a as [z r']. injection H as <- <- _ _. unfold read_i16 in E. bind_inv E. destruct a as [w r2].
    injection E as _ <-. apply LE in E0. auto.
  - bind_inv H. destruct a as [z r']. injection H as <- <- _ _. unfold read_f64 in E. apply LE in E. auto.
  - bind_inv H. destruct a as [s r']. apply RS in E. destruct s as [|x s].
    + destruct (negb det && (c =? 0)%Z).
      * bind_inv H. destruct a as [s2 r2]. apply RS in E0. injection H as <- <- _ _. split; [reflexivity|lia].
      * injection H as <- <- _ _. auto.
    + injection H as <- <- _ _. auto.
  - destruct bs as [|b bs]; [discriminate|]. cbn [read_u8_strict bind] in H. bind_inv H. destruct a as [d r'].
    apply RX in E. injection H as <- <- _ _. cbn [length]. split; [reflexivity|lia].
Qed.

Lemma bin_next_typed : forall st p o st', bin_next st = (Some (Ok (p, o)), st') -> typed p.
Proof.
  intros st p o st' H. apply typed_expected. unfold bin_next in H.
  destruct (bin_code (b_two st) (b_rest st)) as [[[[code r] n]|]|]; try discriminate.
  destruct (expected_type code) as [t|] eqn:E; [|discriminate].
  destruct (bin_value _ _ code t r) as [[[[v r'] m] two]|] eqn:B; [|discriminate].
  injection H as <- _ _. cbn [p_code p_value]. rewrite E. f_equal. symmetry.
  eapply bin_value_spec. exact B.
Qed.

Lemma reader_next_typed : forall rd p o rd', reader_next rd = (Some (Ok (p, o)), rd') -> typed p.
Proof.
  intros [st|st] p o rd' H; cbn [reader_next] in H.
  - destruct (text_next st) as [x st'] eqn:E. injection H as -> _. eapply text_next_typed. exact E.
  - destruct (bin_next st) as [x st'] eqn:E. injection H as -> _. eapply bin_next_typed. exact E.
Qed.

(** * Termination *)

Lemma read_line_loop_length : forall allow skip i bs l r, read_line_loop allow skip i bs = (l, r) ->
  (length l + length r <= length bs)%nat.
Proof.
  intros allow skip i bs. revert skip i. induction bs as [|b bs IH]; intros skip i l r H; cbn [read_line_loop] in H.
  - injection H as <- <-. cbn; lia.
  - destruct ((i =? 0) && (b =? 239) && allow); [apply IH in H; cbn [length]; lia|].
    destruct ((((i =? 1) && (b =? 187)) || ((i =? 2) && (b =? 191))) && skip); [apply IH in H; cbn [length]; lia|].
    destruct (b =? 10); [injection H as <- <-; cbn [length]; lia|].
    destruct (read_line_loop allow skip (i + 1) bs) as [l' r'] eqn:E. apply IH in E. injection H as <- <-. cbn [length]. lia.
Qed.

(** Either the line is blank (and this is an end of input or an empty line) or a byte was consumed. *)
Lemma read_line_consumes : forall allow enc bs x r, read_line allow enc bs = (x, r) ->
  (length r <= length bs)%nat /\ (x <> Ok [] -> (length r < length bs)%nat).
Proof.
  intros allow enc bs x r H. unfold read_line in H.
  destruct (read_line_loop allow false 0 bs) as [l r'] eqn:E. injection H as <- <-.
  apply read_line_loop_length in E. split; [lia|]. intros Hx. destruct l as [|b l]; [|cbn [length] in E; lia].
  exfalso. apply Hx. rewrite decode_ascii by constructor. reflexivity.
Qed.

(** What is left to read. *)
Definition remaining (rd : reader) : nat :=
  match rd with
  | RText st => (length (t_rest st) + match t_first st with Some _ => 1 | None => 0 end)%nat
  | RBin st => length (b_rest st)
  end.

Lemma reader_next_consumes : forall rd p rd', reader_next rd = (Some (Ok p), rd') ->
  (remaining rd' < remaining rd)%nat.
Proof.
  intros [st|st] p rd' H; cbn [reader_next] in H.
  - destruct (text_next st) as [x st'] eqn:T. injection H as -> <-. cbn [remaining].
    unfold text_next in T.
    assert (G : forall raw st1, trim raw <> [] -> (length (t_rest st1) < length (t_rest st) + match t_first st with Some _ => 1 | None => 0 end)%nat ->
      text_pair st1 raw = (Some (Ok p), st') ->
      (length (t_rest st') + match t_first st' with Some _ => 1 | None => 0 end <
       length (t_rest st) + match t_first st with Some _ => 1 | None => 0 end)%nat).
    { intros raw st1 Hne L1 HT. unfold text_pair in HT. destruct (trim raw) as [|c0 l0]; [discriminate HT|].
      destruct (parse_i32 _ (t_off st1)); [|discriminate HT].
      destruct (read_line false (t_enc st1) (t_rest st1)) as [vl r] eqn:RL. apply read_line_consumes in RL as [RL _].
      destruct vl as [vline|]; [|discriminate HT]. destruct (expected_type a); [|discriminate HT]. cbv zeta in HT.
      destruct (parse_value _ _ vline _); cbn [bind] in HT; [|discriminate HT]. injection HT as _ <-.
      cbn [t_rest t_first]. lia. }
    assert (TN : forall raw st1, text_pair st1 raw = (Some (Ok p), st') -> trim raw <> []).
    { intros raw st1 HT E. unfold text_pair in HT. rewrite E in HT. discriminate HT. }
    destruct (t_first st) as [fl|] eqn:F.
    + eapply (G fl); [eapply TN; exact T| |exact T]. cbn [t_rest]. lia.
    + destruct (read_line true WINDOWS_1252 (t_rest st)) as [cl r] eqn:RL. apply read_line_consumes in RL as [R1 R2].
      destruct cl as [raw|e]; [|discriminate T]. pose proof (TN _ _ T) as Ht.
      eapply (G raw); [exact Ht| |exact T]. cbn [t_rest].
      assert (raw <> []) by (intros ->; apply Ht; reflexivity).
      assert (Ok raw <> Ok []) by congruence. apply R2 in H0. lia.
  - destruct (bin_next st) as [x st'] eqn:B. injection H as -> <-. cbn [remaining].
    unfold bin_next in B. destruct (bin_code (b_two st) (b_rest st)) as [[[[code r] n]|]|] eqn:C; try discriminate B.
    destruct (expected_type code) as [t|]; [|discriminate B].
    destruct (bin_value _ _ code t r) as [[[[v r'] m] two]|] eqn:V; [|discriminate B].
    injection B as _ <-. cbn [b_rest]. apply bin_value_spec in V as [_ V].
    unfold bin_code in C. destruct (b_rest st) as [|b bs]; [discriminate C|]. cbn [length].
    assert ((length r <= length bs)%nat); [|lia].
    destruct (b_two st).
    + destruct bs as [|h bs]; cbn [read_u8_strict bind] in C; [discriminate C|]. injection C as _ <- _. cbn [length]; lia.
    + destruct (b =? 255).
      * destruct (read_i16 bs) as [[z r2]|] eqn:I; cbn [bind] in C; [|discriminate C]. injection C as _ <- _.
        unfold read_i16 in I. cbn [read_le] in I. destruct bs as [|b1 [|b2 bs]]; cbn [read_le bind] in I; try discriminate I.
        injection I as _ <-. cbn [length]. lia.
      * injection C as _ <- _. lia.
Qed.

(** Errors of the readers are genuine. *)
Definition genuine (e : dxf_error) : Prop := e <> OutOfFuel /\ e <> Panic.

Lemma parse_hex_loop_genuine : forall d c b o e, parse_hex_loop c b d o = Err e -> genuine e.
Proof.
  induction d as [|x d IH]; intros c b o e H; cbn [parse_hex_loop] in H; [discriminate|].
  destruct (hex_value x); [|injection H as <-; split; discriminate].
  destruct c; [|eapply IH; exact H]. destruct (parse_hex_loop false b d o) eqn:E; cbn [bind] in H; [discriminate|].
  injection H as <-. eapply IH; exact E.
Qed.

Lemma parse_value_genuine : forall enc t l o e, parse_value enc t l o = Err e -> genuine e.
Proof.
  intros enc t l o e H. destruct t; cbn [parse_value] in H.
  - unfold parse_i16 in H. destruct (f64_from_str (trim l)); cbn [bind] in H; [discriminate|injection H as <-; split; discriminate].
  - unfold parse_i32 in H. destruct (parse_signed _ _ (trim l)); cbn [bind] in H; [discriminate|injection H as <-; split; discriminate].
  - unfold parse_i64 in H. destruct (parse_signed _ _ (trim l)); cbn [bind] in H; [discriminate|injection H as <-; split; discriminate].
  - unfold parse_i16 in H. destruct (f64_from_str (trim l)); cbn [bind] in H; [discriminate|injection H as <-; split; discriminate].
  - unfold parse_f64 in H. destruct (f64_from_str (trim l)); cbn [bind] in H; [discriminate|injection H as <-; split; discriminate].
  - discriminate.
  - destruct (parse_hex_string l o) eqn:E; cbn [bind] in H; [discriminate|]. injection H as <-.
    eapply parse_hex_loop_genuine. exact E.
Qed.

Lemma read_line_genuine : forall allow enc bs e r, read_line allow enc bs = (Err e, r) -> genuine e.
Proof.
  intros allow enc bs e r H. unfold read_line in H. destruct (read_line_loop allow false 0 bs).
  destruct (decode enc l); [discriminate|]. injection H as <- _. split; discriminate.
Qed.

Lemma read_le_genuine : forall k bs e, read_le k bs = Err e -> genuine e.
Proof.
  induction k as [|k IH]; intros bs e H; cbn [read_le] in H; [discriminate|].
  destruct bs as [|b bs]; [injection H as <-; split; discriminate|].
  destruct (read_le k bs) as [[]|] eqn:E; cbn [bind] in H; [discriminate|]. injection H as <-. eapply IH. exact E.
Qed.
Lemma read_string_genuine : forall bs e, read_string_binary bs = Err e -> genuine e.
Proof.
  induction bs as [|b bs IH]; intros e H; cbn [read_string_binary] in H; [injection H as <-; split; discriminate|].
  destruct (b =? 0); [discriminate|].
  destruct (read_string_binary bs) as [[]|] eqn:E; cbn [bind] in H; [discriminate|]. injection H as <-. apply IH. reflexivity.
Qed.
Lemma read_exact_genuine : forall k bs e, read_exact k bs = Err e -> genuine e.
Proof.
  induction k as [|k IH]; intros bs e H; cbn [read_exact] in H; [discriminate|].
  destruct bs as [|b bs]; cbn [read_u8_strict bind] in H; [injection H as <-; split; discriminate|].
  destruct (read_exact k bs) as [[]|] eqn:E; cbn [bind] in H; [discriminate|]. injection H as <-. eapply IH. exact E.
Qed.

Lemma reader_next_genuine : forall rd e rd', reader_next rd = (Some (Err e), rd') -> genuine e.
Proof.
  assert (PI : forall l o e, parse_i32 l o = Err e -> genuine e).
  { unfold parse_i32. intros l o e H. destruct (parse_signed _ _ (trim l)); [discriminate|injection H as <-; split; discriminate]. }
  intros [st|st] e rd' H; cbn [reader_next] in H.
  - destruct (text_next st) as [x st'] eqn:T. injection H as -> _. unfold text_next in T.
    assert (G : forall raw st1, text_pair st1 raw = (Some (Err e), st') -> genuine e).
    { intros raw st1 HT. unfold text_pair in HT. destruct (trim raw) as [|c0 l0]; [discriminate HT|].
      destruct (parse_i32 (c0 :: l0) (t_off st1)) eqn:P; [|injection HT as <- _; eapply PI; exact P].
      destruct (read_line false (t_enc st1) (t_rest st1)) as [vl r] eqn:RL.
      destruct vl as [vline|]; [|injection HT as <- _; eapply read_line_genuine; exact RL].
      destruct (expected_type a); [|injection HT as <- _; split; discriminate]. cbv zeta in HT.
      destruct (parse_value _ _ vline _) eqn:V; cbn [bind] in HT; [discriminate HT|]. injection HT as <- _.
      eapply parse_value_genuine. exact V. }
    destruct (t_first st) as [fl|]; [eapply G; exact T|].
    destruct (read_line true WINDOWS_1252 (t_rest st)) as [cl r0] eqn:RL0.
    destruct cl as [raw|]; [|injection T as <- _; eapply read_line_genuine; exact RL0].
    eapply G; exact T.
  - destruct (bin_next st) as [x st'] eqn:B. injection H as -> _. unfold bin_next in B.
    destruct (bin_code (b_two st) (b_rest st)) as [[[[code r] n]|e']|] eqn:C; try discriminate B.
    + destruct (expected_type code) as [t|]; [|injection B as <- _; split; discriminate].
      destruct (bin_value _ _ code t r) as [[[[v r'] m] two]|e'] eqn:V; [discriminate B|]. injection B as <- _.
      destruct t; cbn [bin_value] in V.
      * destruct (b_two st).
        -- destruct r; cbn [read_u8_strict bind] in V; [injection V as <-; split; discriminate|discriminate V].
        -- unfold read_i16 in V. destruct (read_le 2 r) as [[]|] eqn:E; cbn [bind] in V; [discriminate V|injection V as <-; eapply read_le_genuine; exact E].
      * unfold read_i32 in V. destruct (read_le 4 r) as [[]|] eqn:E; cbn [bind] in V; [discriminate V|injection V as <-; eapply read_le_genuine; exact E].
      * unfold read_i64 in V. destruct (read_le 8 r) as [[]|] eqn:E; cbn [bind] in V; [discriminate V|injection V as <-; eapply read_le_genuine; exact E].
      * unfold read_i16 in V. destruct (read_le 2 r) as [[]|] eqn:E; cbn [bind] in V; [discriminate V|injection V as <-; eapply read_le_genuine; exact E].
      * unfold read_f64 in V. destruct (read_le 8 r) as [[]|] eqn:E; cbn [bind] in V; [discriminate V|injection V as <-; eapply read_le_genuine; exact E].
      * destruct (read_string_binary r) as [[s r2]|] eqn:E; cbn [bind] in V; [|injection V as <-; eapply read_string_genuine; exact E].
        destruct s; [|discriminate V]. destruct (negb (b_detected st) && (code =? 0)%Z); [|discriminate V].
        destruct (read_string_binary r2) as [[s2 r3]|] eqn:E2; cbn [bind] in V; [discriminate V|injection V as <-; eapply read_string_genuine; exact E2].
      * destruct r as [|k r]; cbn [read_u8_strict bind] in V; [injection V as <-; split; discriminate|].
        destruct (read_exact (N.to_nat k) r) as [[]|] eqn:E; cbn [bind] in V; [discriminate V|injection V as <-; eapply read_exact_genuine; exact E].
    + injection B as <- _. unfold bin_code in C. destruct (b_rest st) as [|b bs]; [discriminate C|].
      destruct (b_two st).
      * destruct bs; cbn [read_u8_strict bind] in C; [injection C as <-; split; discriminate|discriminate C].
      * destruct (b =? 255); [|discriminate C]. unfold read_i16 in C.
        destruct (read_le 2 bs) as [[]|] eqn:E; cbn [bind] in C; [discriminate C|injection C as <-; eapply read_le_genuine; exact E].
Qed.

Lemma drain_terminates : forall fuel rd, (remaining rd < fuel)%nat ->
  exists l e, drain fuel rd = (l, e) /\ (length l <= remaining rd)%nat /\
              (forall x, e = Some x -> genuine x) /\
              forall fuel', (fuel <= fuel')%nat -> drain fuel' rd = (l, e).
Proof.
  induction fuel as [|fuel IH]; intros rd L; [lia|]. cbn [drain].
  assert (S' : forall f, (S fuel <= f)%nat -> exists f', f = S f' /\ (fuel <= f')%nat).
  { intros [|f] H; [lia|]. exists f. split; [reflexivity|lia]. }
  destruct (reader_next rd) as [[[p|e]|] rd'] eqn:E.
  - pose proof (reader_next_consumes _ _ _ E) as C. destruct (IH rd' ltac:(lia)) as (l & e & D & Hl & Hg & Hf).
    rewrite D. exists (p :: l), e. split; [reflexivity|]. split; [cbn [length]; lia|]. split; [assumption|].
    intros f Hfu. destruct (S' f Hfu) as (f' & -> & Hf'). cbn [drain]. rewrite E, Hf by assumption. reflexivity.
  - exists [], (Some e). split; [reflexivity|]. split; [cbn; lia|]. split.
    + intros x [= <-]. eapply reader_next_genuine. exact E.
    + intros f Hfu. destruct (S' f Hfu) as (f' & -> & Hf'). cbn [drain]. rewrite E. reflexivity.
  - exists [], None. split; [reflexivity|]. split; [cbn; lia|]. split; [discriminate|].
    intros f Hfu. destruct (S' f Hfu) as (f' & -> & Hf'). cbn [drain]. rewrite E. reflexivity.
Qed.

Lemma open_reader_remaining : forall enc bs rd, open_reader enc bs = Ok rd ->
  (remaining rd <= length bs)%nat \/ drain 1 rd = ([], None).
Proof.
  intros enc bs rd H. unfold open_reader in H. destruct (read_line true enc bs) as [fl r] eqn:RL.
  apply read_line_consumes in RL as [R1 R2]. destruct fl as [fl|]; cbn [bind] in H; [|discriminate].
  destruct (seqb fl (str "AutoCAD Binary DXF")) eqn:E.
  - left. destruct r as [|b1 [|b2 r]]; try discriminate; (destruct (b1 =? 26); [|discriminate]); try discriminate.
    destruct (b2 =? 0); [|discriminate]. injection H as <-. cbn [remaining b_rest]. cbn [length] in R1. lia.
  - injection H as <-. cbn [remaining t_rest t_first]. destruct fl as [|c fl].
    + right. reflexivity.
    + left. assert (Ok (c :: fl) <> Ok []) by congruence. apply R2 in H. lia.
Qed.

(** Reading a whole file terminates with at most as many pairs as bytes. *)
Lemma read_terminates : forall enc bs rd, open_reader enc bs = Ok rd ->
  exists l e, (length l <= length bs)%nat /\ (forall x, e = Some x -> genuine x) /\
    forall fuel, (length bs < fuel)%nat -> drain fuel rd = (l, e).
Proof.
  intros enc bs rd H. destruct (open_reader_remaining enc bs rd H) as [R|R].
  - destruct (drain_terminates (S (length bs)) rd ltac:(lia)) as (l & e & D & L & G & F).
    exists l, e. split; [lia|]. split; [exact G|]. intros fuel HF. apply F. lia.
  - exists [], None. split; [cbn; lia|]. split; [intros x E; discriminate E|].
    intros [|fuel] HF; [lia|]. cbn [drain] in *. destruct (reader_next rd) as [[[p|e]|] rd']; try congruence.
Qed.
