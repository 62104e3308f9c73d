(** Lemmas for C52. *)
From Verif Require Import Base StreamModel UuidModel UuidSpec.
Open Scope N_scope.
Ltac Zify.zify_post_hook ::= Z.div_mod_to_equations.
Set Default Goal Selector "!".

Lemma hex_value_spec : forall c d, hex_value c = Some d <-> hex_digit_of c d.
Proof.
  intros c d. unfold hex_value, hex_digit_of.
  destruct ((48 <=? c) && (c <=? 57)) eqn:E1; [|destruct ((65 <=? c) && (c <=? 70)) eqn:E2; [|destruct ((97 <=? c) && (c <=? 102)) eqn:E3]].
  - split; [intros H; injection H as <-; lia|intros H; f_equal; lia].
  - split; [intros H; injection H as <-; lia|intros H; f_equal; lia].
  - split; [intros H; injection H as <-; lia|intros H; f_equal; lia].
  - split; [intros H; discriminate H|intros H; exfalso; lia].
Qed.

Lemma hex_digits_value_app : forall s t acc, hex_digits_value (s ++ t) acc =
  match hex_digits_value s acc with Some v => hex_digits_value t v | None => None end.
Proof.
  induction s as [|c s IH]; intros t acc; cbn [app hex_digits_value]; [reflexivity|].
  destruct (hex_value c); [apply IH|reflexivity].
Qed.
Lemma hex_digits_value_spec : forall s v, hex_digits_value s 0 = Some v <-> hex_number s v.
Proof.
  intros s v. split.
  - revert v. induction s as [|c s IH] using rev_ind; intros v H.
    + cbn in H. injection H as <-. constructor.
    + rewrite hex_digits_value_app in H. destruct (hex_digits_value s 0) as [w|] eqn:E; [|discriminate H].
      cbn in H. destruct (hex_value c) as [d|] eqn:Ed; [|discriminate H]. injection H as <-.
      constructor; [apply IH; reflexivity|apply hex_value_spec; assumption].
  - intros H. induction H as [|s v c d H IH Hd]; [reflexivity|].
    rewrite hex_digits_value_app, IH. cbn. apply hex_value_spec in Hd. rewrite Hd. reflexivity.
Qed.
Lemma hex_number_ascii : forall s v, hex_number s v -> forallb is_ascii s = true /\ ~ In 123 s /\ ~ In 125 s.
Proof.
  intros s v H. induction H as [|s v c d H (IH1 & IH2 & IH3) Hd]; [cbn; tauto|].
  assert (48 <= c <= 102) as B by (unfold hex_digit_of in Hd; lia).
  rewrite forallb_app, IH1, !in_app_iff. cbn. unfold is_ascii. split; [lia|].
  split; (intros [K|[K|[]]]; [tauto|lia]).
Qed.

(** The positions of the hyphenated form. *)
Lemma parse_hyphenated_spec : forall s v, parse_hyphenated s = Some v <-> uuid_plain s v.
Proof.
  intros s v. split.
  - unfold parse_hyphenated. destruct ((length s =? 36)%nat && _) eqn:E; [|intros H; discriminate H].
    apply andb_true_iff in E. destruct E as [L P]. apply Nat.eqb_eq in L.
    do 36 (destruct s as [|? s]; [discriminate L|]). destruct s; [|discriminate L]. clear L.
    cbn [forallb nth] in P. repeat rewrite andb_true_iff in P. destruct P as (P1 & P2 & P3 & P4 & _).
    apply N.eqb_eq in P1, P2, P3, P4. subst. cbn [firstn skipn app]. intros H. apply hex_digits_value_spec in H.
    match type of H with hex_number [?a0;?a1;?a2;?a3;?a4;?a5;?a6;?a7;?b0;?b1;?b2;?b3;?c0;?c1;?c2;?c3;?d0;?d1;?d2;?d3;?e0;?e1;?e2;?e3;?e4;?e5;?e6;?e7;?e8;?e9;?f0;?f1] _ =>
      exact (uuid_groups [a0;a1;a2;a3;a4;a5;a6;a7] [b0;b1;b2;b3] [c0;c1;c2;c3] [d0;d1;d2;d3] [e0;e1;e2;e3;e4;e5;e6;e7;e8;e9;f0;f1] v
               eq_refl eq_refl eq_refl eq_refl eq_refl H) end.
  - intros H. destruct H as [a b c d e v La Lb Lc Ld Le H].
    do 8 (destruct a as [|? a]; [discriminate La|]). destruct a; [|discriminate La].
    do 4 (destruct b as [|? b]; [discriminate Lb|]). destruct b; [|discriminate Lb].
    do 4 (destruct c as [|? c]; [discriminate Lc|]). destruct c; [|discriminate Lc].
    do 4 (destruct d as [|? d]; [discriminate Ld|]). destruct d; [|discriminate Ld].
    do 12 (destruct e as [|? e]; [discriminate Le|]). destruct e; [|discriminate Le].
    unfold parse_hyphenated. cbn [app length nth forallb firstn skipn]. change (45 =? 45) with true. cbn [andb].
    change ((36 =? 36)%nat) with true. cbv iota. apply hex_digits_value_spec. exact H.
Qed.
Lemma uuid_plain_facts : forall s v, uuid_plain s v -> length s = 36%nat /\ forallb is_ascii s = true /\ ~ In 123 s /\ ~ In 125 s.
Proof.
  intros s v H. destruct H as [a b c d e v La Lb Lc Ld Le H]. apply hex_number_ascii in H.
  rewrite !forallb_app, !in_app_iff in H. destruct H as (A & H1 & H2). repeat rewrite andb_true_iff in A.
  destruct A as (A1 & A2 & A3 & A4 & A5).
  rewrite !app_length, !forallb_app, !in_app_iff, La, Lb, Lc, Ld, Le, A1, A2, A3, A4, A5. cbn.
  split; [reflexivity|]. split; [reflexivity|]. split; intros K; intuition discriminate.
Qed.

Lemma starts_with_spec : forall c s, starts_with c s = true <-> exists r, s = c :: r.
Proof.
  intros c [|x r]; cbn; [split; [discriminate|intros [r H]; discriminate H]|].
  split; [intros H; apply N.eqb_eq in H; subst; eexists; reflexivity|intros [r' H]; injection H as -> _; apply N.eqb_refl].
Qed.
Lemma braces_spec : forall s, starts_with 123 s && starts_with 125 (rev s) = true <-> exists t, s = [123] ++ t ++ [125].
Proof.
  intros s. rewrite andb_true_iff, !starts_with_spec. split.
  - intros [[r ->] [r' H]]. cbn [rev] in H. destruct r as [|x r] using rev_ind; [discriminate H|].
    rewrite rev_app_distr in H. cbn in H. injection H as -> _. exists r. reflexivity.
  - intros [t ->]. split; [eexists; reflexivity|]. cbn [app rev]. rewrite rev_app_distr. eexists. reflexivity.
Qed.

Lemma uuid_parse_spec : forall s v, uuid_parse s = Some v <-> uuid_text s v.
Proof.
  intros s v. unfold uuid_parse. split.
  - destruct (forallb is_ascii s); [|discriminate].
    destruct (Nat.eqb_spec (length s) 32) as [E1|E1].
    { intros H. apply uuid_simple; [assumption|apply hex_digits_value_spec; assumption]. }
    destruct (Nat.eqb_spec (length s) 36) as [E2|E2].
    { intros H. apply uuid_hyphenated. apply parse_hyphenated_spec. assumption. }
    rewrite <- andb_assoc. destruct (starts_with 123 s && starts_with 125 (rev s)) eqn:B.
    { apply braces_spec in B. destruct B as [t ->]. rewrite !app_length. cbn [length].
      destruct (Nat.eqb_spec (1 + (length t + 1)) 38) as [E3|E3]; cbn [andb].
      - intros H. apply uuid_braced. apply parse_hyphenated_spec. rewrite <- H. f_equal.
        cbn [app skipn]. rewrite firstn_app. replace (36 - length t)%nat with 0%nat by lia.
        rewrite firstn_O, app_nil_r, firstn_all2 by lia. reflexivity.
      - intros H. exfalso. destruct ((_ =? 45)%nat); [|discriminate H]. cbn in H. discriminate H. }
    rewrite andb_false_r. destruct ((length s =? 45)%nat && _) eqn:E4; [|discriminate].
    apply andb_true_iff in E4. destruct E4 as [E4 E5]. apply seqb_eq in E5. intros H.
    rewrite <- (firstn_skipn 9 s), E5. apply uuid_urn. apply parse_hyphenated_spec. assumption.
  - intros H. destruct H as [s v L H|s v H|s v H|s v H].
    + rewrite (proj1 (hex_number_ascii _ _ H)), L. cbn [Nat.eqb]. apply hex_digits_value_spec. assumption.
    + destruct (uuid_plain_facts _ _ H) as (L & A & _). rewrite A, L. cbn [Nat.eqb]. apply parse_hyphenated_spec. assumption.
    + destruct (uuid_plain_facts _ _ H) as (L & A & _). rewrite forallb_app, A, app_length, L. cbn [str map length]. cbn.
      apply parse_hyphenated_spec in H. exact H.
    + destruct (uuid_plain_facts _ _ H) as (L & A & _). rewrite !forallb_app, A, !app_length, L. cbn.
      assert (B : starts_with 125 (rev (s ++ [125]) ++ [123]) = true) by (rewrite rev_app_distr; reflexivity).
      rewrite B. apply parse_hyphenated_spec in H.
      assert (F : firstn 36 (s ++ [125]) = s)
        by (rewrite firstn_app, L, Nat.sub_diag, firstn_O, app_nil_r; apply firstn_all2; lia).
      rewrite <- F in H. exact H.
Qed.

Lemma utf8_length_ascii : forall s, forallb is_ascii s = true -> utf8_length s = length s.
Proof.
  intros s H. unfold utf8_length, utf8_encode. induction s as [|c s IH]; [reflexivity|]. cbn in H.
  apply andb_true_iff in H. destruct H as [Hc H]. cbn [flat_map]. rewrite app_length, IH by assumption.
  unfold utf8_char. unfold is_ascii in Hc. replace (c <? 128) with true by lia. reflexivity.
Qed.
Lemma utf8_length_ge : forall s, (length s <= utf8_length s)%nat.
Proof.
  intros s. unfold utf8_length, utf8_encode. induction s as [|c s IH]; [cbn; lia|]. cbn [flat_map length]. rewrite app_length.
  enough (1 <= length (utf8_char c))%nat by lia. unfold utf8_char.
  destruct (c <? 128); [cbn; lia|]. destruct (c <? 0x800); [cbn; lia|]. destruct (c <? 0x10000); cbn; lia.
Qed.

Lemma uuid_text_ascii : forall s v, uuid_text s v -> forallb is_ascii s = true.
Proof.
  intros s v H. apply uuid_parse_spec in H. unfold uuid_parse in H. destruct (forallb is_ascii s); [reflexivity|discriminate H].
Qed.

Lemma as_uuid_accepted : forall s v, uuid_accepted s v -> as_uuid s = v.
Proof.
  intros s v H.
  assert (Strip : forall t w, uuid_text t w -> as_uuid ([123] ++ t ++ [125]) = w).
  { intros t w Ht. unfold as_uuid. replace (_ && _) with true by (symmetry; apply braces_spec; eexists; reflexivity).
    cbn [app skipn]. rewrite utf8_length_ascii.
    2:{ cbn. rewrite forallb_app, (uuid_text_ascii _ _ Ht). reflexivity. }
    cbn [length]. rewrite app_length. cbn [length].
    replace (S (length t + 1) - 2)%nat with (length t) by lia. rewrite firstn_app, Nat.sub_diag. cbn [firstn]. rewrite app_nil_r, firstn_all.
    apply uuid_parse_spec in Ht. rewrite Ht. reflexivity. }
  destruct H as [s v H|s v H]; [|apply Strip; assumption].
  destruct (starts_with 123 s && starts_with 125 (rev s)) eqn:B.
  - apply braces_spec in B. destruct B as [t ->]. inversion H as [s' v' L Hx E|s' v' Hp E|s' v' Hp E|s' v' Hp E]; subst.
    + exfalso. apply hex_number_ascii in Hx. destruct Hx as (_ & K & _). apply K. left. reflexivity.
    + exfalso. apply uuid_plain_facts in Hp. destruct Hp as (_ & _ & K & _). apply K. left. reflexivity.
    + apply app_inv_tail in E. subst. apply Strip. apply uuid_hyphenated. assumption.
  - unfold as_uuid. rewrite B. apply uuid_parse_spec in H. rewrite H. reflexivity.
Qed.

Lemma as_uuid_nonzero : forall s, as_uuid s <> 0 -> uuid_accepted s (as_uuid s).
Proof.
  intros s. unfold as_uuid at 2. destruct (starts_with 123 s && starts_with 125 (rev s)) eqn:B.
  - unfold as_uuid. rewrite B. apply braces_spec in B. destruct B as [t ->]. cbn [app skipn].
    destruct (uuid_parse (firstn (utf8_length (123 :: t ++ [125]) - 2) (t ++ [125]))) as [v|] eqn:E; [|congruence].
    intros _. change (123 :: t ++ [125]) with ([123] ++ t ++ [125]) in E |- *. apply uuid_parse_spec in E.
    pose proof (uuid_text_ascii _ _ E) as A.
    (* if the text is not ASCII, the cut keeps the closing brace or more than is there *)
    destruct (forallb is_ascii t) eqn:At.
    + rewrite utf8_length_ascii in E by (rewrite !forallb_app, At; reflexivity). rewrite !app_length in E. cbn [length] in E.
      replace (1 + (length t + 1) - 2)%nat with (length t) in E by lia.
      rewrite firstn_app, Nat.sub_diag, firstn_all in E. cbn [firstn] in E. rewrite app_nil_r in E.
      apply accepted_braced. assumption.
    + exfalso. pose proof (utf8_length_ge ([123] ++ t ++ [125])) as G. rewrite !app_length in G. cbn [length] in G.
      rewrite firstn_app, forallb_app in A. rewrite (firstn_all2 t) in A by lia. rewrite At in A. discriminate A.
  - unfold as_uuid. rewrite B. destruct (uuid_parse s) as [v|] eqn:E; [|congruence]. intros _. constructor. apply uuid_parse_spec. assumption.
Qed.

(** The text written. *)
Lemma hex_lower_length : forall n v, length (hex_lower n v) = n.
Proof. induction n as [|n IH]; intros v; cbn [hex_lower]; [reflexivity|]. rewrite app_length, IH. cbn. lia. Qed.
Lemma hex_lower_number : forall n v, v < 16 ^ N.of_nat n -> hex_number (hex_lower n v) v.
Proof.
  induction n as [|n IH]; intros v Hv; cbn [hex_lower].
  - cbn in Hv. replace v with 0 by lia. constructor.
  - assert (E : v = v / 16 * 16 + v mod 16) by lia.
    match goal with |- hex_number ?s _ => enough (hex_number s (v / 16 * 16 + v mod 16)) by congruence end.
    clear E. constructor.
    + apply IH. rewrite Nat2N.inj_succ, N.pow_succ_r' in Hv. apply N.div_lt_upper_bound; lia.
    + unfold hex_digit_of. cbv zeta. destruct (N.ltb_spec (v mod 16) 10); lia.
Qed.
Lemma uuid_string_plain : forall u, is_uuid u = true -> uuid_plain (uuid_string u) u.
Proof.
  intros u H. apply N.ltb_lt in H. unfold uuid_string. pose proof (hex_lower_length 32 u) as L.
  assert (N : hex_number (hex_lower 32 u) u) by (apply hex_lower_number; exact H).
  cbv zeta. remember (hex_lower 32 u) as h eqn:Eh. clear Eh.
  do 32 (destruct h as [|? h]; [discriminate L|]). destruct h; [|discriminate L].
  cbn [firstn skipn].
  apply (uuid_groups [_;_;_;_;_;_;_;_] [_;_;_;_] [_;_;_;_] [_;_;_;_] [_;_;_;_;_;_;_;_;_;_;_;_]); try reflexivity. exact N.
Qed.
