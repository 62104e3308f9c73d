From Verif Require Import Base TextModel TextProofs CodePairModel StreamModel StreamSpec ExtDataModel ExtDataSpec.
Set Default Goal Selector "!".
Ltac Zify.zify_post_hook ::= Z.div_mod_to_equations.

Section ExtInd.
  Variable P : ext_item -> Prop.
  Hypothesis HP : forall p, P (EPair p).
  Hypothesis HG : forall n l, Forall P l -> P (EGroup n l).
  Fixpoint ext_ind' (i : ext_item) : P i :=
    match i with
    | EPair p => HP p
    | EGroup n l => HG n l ((fix all l : Forall P l := match l with [] => Forall_nil _ | x :: r => Forall_cons x (ext_ind' x) (all r) end) l)
    end.
End ExtInd.

Lemma storable_group n l : storable (EGroup n l) <-> l <> [] /\ Forall storable l.
Proof.
  cbn [storable]. split; intros [H1 H2]; (split; [exact H1|]); clear H1.
  - induction l as [|x r IH]; [constructor|]. destruct H2. constructor; auto.
  - induction H2; [exact I|]. split; assumption.
Qed.

(** Soundness and completeness of the reader with respect to the grammar. *)
Lemma read_items_sound f : forall it items r, read_ext_items f it = Ok (items, r) ->
  exists ps, renders items ps /\ it = map Ok ps ++ Ok group_close :: r.
Proof.
  induction f as [|f IH]; intros it items r H; [discriminate H|].
  cbn [read_ext_items] in H. destruct it as [|[p|e] it]; [discriminate H| |discriminate H].
  destruct (p_code p =? 102)%Z eqn:E.
  - unfold assert_string in H. destruct p as [c v]. cbn [p_code p_value] in *. apply Z.eqb_eq in E. subst c.
    destruct v as [z|z|z|z|d|s|b]; cbn [bind] in H; try discriminate H.
    destruct (seqb s close_brace) eqn:E2.
    + apply seqb_eq in E2. subst s. injection H as <- <-. exists []. split; [constructor|reflexivity].
    + destruct s as [|c name]; [discriminate H|]. destruct (c =? open_brace)%N eqn:E3; [|discriminate H].
      apply N.eqb_eq in E3. subst c.
      destruct (read_ext_items f it) as [[sub r1]|] eqn:R1; cbn [bind] in H; [|discriminate H].
      destruct (read_ext_items f r1) as [[its r2]|] eqn:R2; cbn [bind] in H; [|discriminate H].
      injection H as <- <-.
      destruct (IH _ _ _ R1) as [ps [P1 P2]]. destruct (IH _ _ _ R2) as [qs [Q1 Q2]].
      exists (group_open name :: ps ++ group_close :: qs). split; [constructor; assumption|].
      cbn [map app]. rewrite map_app. cbn [map]. rewrite <- app_assoc. cbn [app]. rewrite <- Q2, <- P2. reflexivity.
  - destruct (read_ext_items f it) as [[its r1]|] eqn:R1; cbn [bind] in H; [|discriminate H].
    injection H as <- <-. destruct (IH _ _ _ R1) as [ps [P1 P2]].
    exists (p :: ps). split; [constructor; [lia|assumption]|]. cbn [map app]. rewrite <- P2. reflexivity.
Qed.

Lemma read_items_complete items ps : renders items ps -> forall f r, (length ps < f)%nat ->
  read_ext_items f (map Ok ps ++ Ok group_close :: r) = Ok (items, r).
Proof.
  induction 1 as [|p items ps Hp _ IH|name sub items ps qs _ IH1 _ IH2]; intros f r Hf.
  - destruct f as [|f]; [cbn in Hf; lia|]. reflexivity.
  - cbn [length] in Hf. destruct f as [|f]; [lia|]. cbn [map app read_ext_items].
    replace (p_code p =? 102)%Z with false by lia. rewrite IH by lia. reflexivity.
  - cbn [length] in Hf. rewrite app_length in Hf. cbn [length] in Hf. destruct f as [|f]; [lia|].
    cbn [map app]. rewrite map_app. cbn [map]. rewrite <- app_assoc. cbn [app read_ext_items].
    change (p_code (group_open name) =? 102)%Z with true.
    change (assert_string (group_open name)) with (@Ok rstring (open_brace :: name)). cbv iota. cbn [bind].
    replace (seqb (open_brace :: name) close_brace) with false by reflexivity.
    rewrite N.eqb_refl. rewrite IH1 by lia. cbn [bind]. rewrite IH2 by lia. reflexivity.
Qed.

Lemma read_group_spec name it g r : read_ext_group name it = Ok (g, r) <->
  exists ps, name = str "{" ++ eg_name g /\ renders (eg_items g) ps /\ it = map Ok ps ++ Ok group_close :: r.
Proof.
  unfold read_ext_group. split.
  - destruct name as [|c name]; [discriminate|]. destruct (c =? open_brace)%N eqn:E; [|discriminate].
    apply N.eqb_eq in E. subst c.
    destruct (read_ext_items (S (length it)) it) as [[items r']|] eqn:R; cbn [bind]; [|discriminate].
    intros H. injection H as <- <-. destruct (read_items_sound _ _ _ _ R) as [ps [P1 P2]].
    exists ps. repeat split; assumption.
  - intros [ps [H1 [H2 H3]]]. subst name it. cbn [str app].
    change (Ascii.N_of_ascii "{" =? open_brace)%N with true. cbv iota.
    rewrite (read_items_complete _ _ H2).
    + cbn [bind]. destruct g; reflexivity.
    + rewrite app_length, map_length. cbn [length]. lia.
Qed.

Lemma flat_renders l : Forall (fun i => storable i -> forall tl ps, renders tl ps -> renders (i :: tl) (write_ext_item i ++ ps)) l ->
  Forall storable l -> renders l (flat_map write_ext_item l).
Proof.
  induction l as [|i l IH]; intros H Hs; [constructor|].
  change (flat_map write_ext_item (i :: l)) with (write_ext_item i ++ flat_map write_ext_item l).
  inversion H; subst. inversion Hs; subst. auto.
Qed.
Lemma write_item_renders i : storable i -> forall tl ps, renders tl ps -> renders (i :: tl) (write_ext_item i ++ ps).
Proof.
  induction i as [p|n l IH] using ext_ind'; intros Hs tl ps Ht.
  - cbn [write_ext_item app]. constructor; [apply Hs|exact Ht].
  - apply storable_group in Hs. destruct Hs as [Hn Hs].
    assert (E : write_ext_item (EGroup n l) = group_open n :: flat_map write_ext_item l ++ [group_close])
      by (destruct l; [contradiction|reflexivity]).
    rewrite E. cbn [app]. rewrite <- app_assoc. cbn [app]. constructor; [|exact Ht].
    apply flat_renders; assumption.
Qed.
Lemma write_items_renders l : Forall storable l -> renders l (flat_map write_ext_item l).
Proof.
  intros Hs. apply flat_renders; [|exact Hs]. apply Forall_forall. intros i _. apply write_item_renders.
Qed.

Lemma renders_no_comments items ps : renders items ps -> Forall storable items -> Forall (fun p => p_code p <> 999%Z) ps.
Proof.
  induction 1 as [|p items ps Hp _ IH|name sub items ps qs _ IH1 _ IH2]; intros Hs; inversion Hs as [|? ? Hx Hr]; subst.
  - constructor.
  - constructor; [apply Hx|auto].
  - apply storable_group in Hx. constructor; [discriminate|]. apply Forall_app. split; [apply IH1, Hx|].
    constructor; [discriminate|auto].
Qed.

Lemma visible_app a b : visible (a ++ b) = visible a ++ visible b.
Proof. unfold visible. apply filter_app. Qed.
Lemma visible_ok ps : Forall (fun p => p_code p <> 999%Z) ps -> visible (map Ok ps) = map Ok ps.
Proof.
  induction 1 as [|p ps Hp _ IH]; [reflexivity|]. cbn [map visible filter is_comment].
  replace (p_code p =? 999)%Z with false by lia. cbn [negb]. unfold visible in IH. rewrite IH. reflexivity.
Qed.

Lemma ext_roundtrip g r : eg_items g <> [] -> Forall storable (eg_items g) ->
  exists ps, write_ext_group g = group_open (eg_name g) :: ps /\
    read_ext_group (str "{" ++ eg_name g) (visible (map Ok ps ++ r)) = Ok (g, visible r).
Proof.
  intros Hn Hs. exists (flat_map write_ext_item (eg_items g) ++ [group_close]). split.
  - destruct g as [n [|x l]]; [contradiction|reflexivity].
  - apply read_group_spec. exists (flat_map write_ext_item (eg_items g)). split; [reflexivity|].
    split; [apply write_items_renders; exact Hs|].
    rewrite visible_app, visible_ok.
    + rewrite map_app, <- app_assoc. reflexivity.
    + apply Forall_app. split; [|repeat constructor; discriminate].
      eapply renders_no_comments; [apply write_items_renders|]; exact Hs.
Qed.

Lemma ext_prefix_error name ps items cut rest : renders items ps ->
  map Ok ps ++ [Ok group_close] = cut ++ rest -> rest <> [] -> exists e, read_ext_group name cut = Err e.
Proof.
  intros Hr E Hn. destruct (read_ext_group name cut) as [[g r]|e] eqn:R; [exfalso|exists e; reflexivity].
  apply read_group_spec in R. destruct R as [qs [E1 [Hq E2]]]. subst cut.
  assert (A : read_ext_group (str "{" ++ []) (map Ok ps ++ [Ok group_close]) = Ok (mk_ext [] items, []))
    by (apply read_group_spec; exists ps; repeat split; assumption).
  assert (B : read_ext_group (str "{" ++ []) (map Ok ps ++ [Ok group_close]) = Ok (mk_ext [] (eg_items g), r ++ rest)).
  { apply read_group_spec. exists qs. rewrite E. repeat split; [assumption|]. rewrite <- app_assoc. reflexivity. }
  rewrite A in B. injection B as _ B. symmetry in B. apply app_eq_nil in B. destruct B. contradiction.
Qed.

Lemma ext_not_opened name it : (forall n, name <> str "{" ++ n) -> exists e, read_ext_group name it = Err e.
Proof.
  intros H. destruct (read_ext_group name it) as [[g r]|e] eqn:R; [|exists e; reflexivity].
  apply read_group_spec in R. destruct R as [_ [E _]]. contradiction (H _ E).
Qed.

Lemma ext_items_no_fuel f : forall it, (length it < f)%nat -> Forall (fun x => x <> Err OutOfFuel) it ->
  read_ext_items f it <> Err OutOfFuel.
Proof.
  induction f as [|f IH]; intros it Hl Hf; [lia|]. cbn [read_ext_items].
  destruct it as [|[p|e] it]; [discriminate| |].
  2: { inversion Hf as [|? ? H _]; subst. intros E. injection E as ->. contradiction H. reflexivity. }
  inversion Hf as [|? ? _ Hr]; subst. cbn [length] in Hl.
  assert (S : forall A B (m : res A) (k : A -> res B), m <> Err OutOfFuel -> (forall a, m = Ok a -> k a <> Err OutOfFuel) -> bind m k <> Err OutOfFuel).
  { intros A B [a|e] k H1 H2; cbn [bind]; [apply H2; reflexivity|]. intros E. injection E as ->. contradiction H1. reflexivity. }
  destruct (p_code p =? 102)%Z.
  - apply S; [unfold assert_string; destruct (p_value p); discriminate|]. intros s _.
    destruct (seqb s close_brace); [discriminate|]. destruct s as [|c name]; [discriminate|].
    destruct (c =? open_brace)%N; [|discriminate].
    apply S; [apply IH; [lia|exact Hr]|]. intros [sub r1] R1.
    destruct (read_items_sound _ _ _ _ R1) as [ps [_ E]].
    apply S.
    + apply IH.
      * subst it. rewrite app_length in Hl. cbn [length] in Hl. lia.
      * subst it. apply Forall_app in Hr. destruct Hr as [_ Hr]. inversion Hr; assumption.
    + intros [its r2] _. discriminate.
  - apply S; [apply IH; [lia|exact Hr]|]. intros [its r1] _. discriminate.
Qed.
Lemma ext_no_fuel name it : Forall (fun x => x <> Err OutOfFuel) it -> read_ext_group name it <> Err OutOfFuel.
Proof.
  intros H. unfold read_ext_group. destruct name as [|c n]; [discriminate|]. destruct (c =? open_brace)%N; [|discriminate].
  pose proof (ext_items_no_fuel (S (length it)) it (Nat.lt_succ_diag_r _) H) as N.
  destruct (read_ext_items (S (length it)) it) as [[items r]|e]; cbn [bind]; [discriminate|].
  intros E. injection E as ->. contradiction N. reflexivity.
Qed.

(** Extended data. *)
Section XInd.
  Variable P : xitem -> Prop.
  Hypothesis HC : forall l, Forall P l -> P (XControl l).
  Hypothesis HO : forall i, (forall l, i <> XControl l) -> P i.
  Fixpoint x_ind' (i : xitem) : P i.
  Proof.
    destruct i; try (apply HO; discriminate).
    apply HC. induction items; constructor; [apply x_ind'|assumption].
  Defined.
End XInd.

Lemma x_wf_control l : x_wf (XControl l) <-> Forall x_wf l.
Proof.
  cbn [x_wf]. split; intros H.
  - induction l as [|x r IH]; [constructor|]. destruct H. constructor; auto.
  - induction H; [exact I|]. split; assumption.
Qed.

Lemma write_x_cons i : exists p ps, write_xitem i = p :: ps /\ (1000 <= p_code p)%Z /\ p_code p <> 1001%Z /\
  (p_code p = 1002%Z -> p_value p = VStr [open_brace]).
Proof.
  destruct i; do 2 eexists; split; try reflexivity; cbn; repeat split; try lia; try discriminate; reflexivity.
Qed.

Definition reads_x (i : xitem) : Prop := x_wf i -> forall f p ps r, write_xitem i = p :: ps ->
  (2 * length (p :: ps) <= f)%nat -> read_xitem f p (map Ok ps ++ r) = Ok (i, r).

Lemma read_group_write l : Forall reads_x l -> Forall x_wf l -> forall f r,
  (2 * length (flat_map write_xitem l) + 1 <= f)%nat ->
  read_xgroup f (map Ok (flat_map write_xitem l) ++ Ok (new_str 1002 close_brace) :: r) = Ok (l, r).
Proof.
  induction l as [|i l IH]; intros H Hw f r Hf.
  - destruct f as [|f]; [cbn in Hf; lia|]. reflexivity.
  - inversion H as [|? ? Hi Hl]; subst. inversion Hw as [|? ? Wi Wl]; subst.
    change (flat_map write_xitem (i :: l)) with (write_xitem i ++ flat_map write_xitem l) in *.
    destruct (write_x_cons i) as [p [ps [E [C1 [C2 C3]]]]]. rewrite E in *. rewrite app_length in Hf. cbn [length] in Hf.
    destruct f as [|f]; [lia|]. cbn [app map read_xgroup]. replace (p_code p <? 1000)%Z with false by lia.
    assert (S : (if (p_code p =? 1002)%Z then let? s := assert_string p in Ok (seqb s close_brace) else Ok false) = Ok false).
    { destruct (p_code p =? 1002)%Z eqn:E2; [|reflexivity]. unfold assert_string. rewrite C3 by lia. reflexivity. }
    rewrite S. cbn [bind]. rewrite map_app, <- app_assoc. rewrite (Hi Wi f p ps _ E) by (cbn [length]; lia).
    cbn [bind]. rewrite IH by (assumption || lia). reflexivity.
Qed.

Lemma reads_all i : reads_x i.
Proof.
  induction i as [l IH|i Hi] using x_ind'; intros Hw f p ps r E Hf.
  - apply x_wf_control in Hw. cbn [write_xitem] in E. injection E as <- <-.
    cbn [length] in Hf. rewrite app_length in Hf. cbn [length] in Hf.
    destruct f as [|f]; [lia|]. rewrite map_app, <- app_assoc. cbn [map app read_xitem p_code new_str].
    change (1002 =? 1000)%Z with false. change (1002 =? 1002)%Z with true. cbv iota.
    rewrite read_group_write by (assumption || lia). reflexivity.
  - destruct f as [|f]; [cbn [length] in Hf; lia|].
    destruct i; cbn [write_xitem write_three] in E; injection E as <- <-; cbn [map app read_xitem p_code new_str new_f64 new_i16 new_i32];
      try reflexivity.
    + contradiction (Hi items eq_refl).
    + cbn [x_wf] in Hw. cbn -[parse_hex_string show_binary]. rewrite binary_text_roundtrip; [reflexivity|].
      eapply Forall_impl; [|exact Hw]. intros x Hx. apply N.ltb_lt. exact Hx.
    + cbn [x_wf] in Hw. unfold as_handle, assert_string. cbn -[handle_of_string handle_as_string]. rewrite handle_roundtrip; [reflexivity|].
      unfold is_u64. lia.
Qed.

Lemma read_xitems_write l : Forall x_wf l -> forall f r, (length (flat_map write_xitem l) < f)%nat -> outside_xdata r ->
  read_xitems f (map Ok (flat_map write_xitem l) ++ r) = Ok (l, r).
Proof.
  induction l as [|i l IH]; intros Hw f r Hf Hr.
  - destruct f as [|f]; [cbn in Hf; lia|]. cbn [flat_map map app read_xitems]. destruct r as [|[p|e] r]; [reflexivity| |contradiction].
    cbn [outside_xdata] in Hr. replace ((p_code p =? 0) || (p_code p =? 1001) || (p_code p <? 1000))%Z with true by lia. reflexivity.
  - inversion Hw as [|? ? Wi Wl]; subst.
    change (flat_map write_xitem (i :: l)) with (write_xitem i ++ flat_map write_xitem l) in *.
    destruct (write_x_cons i) as [p [ps [E [C1 [C2 C3]]]]]. rewrite E in *. rewrite app_length in Hf. cbn [length] in Hf.
    destruct f as [|f]; [lia|]. cbn [app map read_xitems].
    replace ((p_code p =? 0) || (p_code p =? 1001) || (p_code p <? 1000))%Z with false by lia.
    rewrite map_app, <- app_assoc. rewrite (reads_all i Wi _ p ps _ E).
    + cbn [bind]. rewrite IH by (assumption || lia). reflexivity.
    + rewrite app_length, map_length. cbn [length]. lia.
Qed.

Lemma xdata_codes i : Forall (fun p => xdata_code (p_code p) = true /\ p_code p <> 1001%Z) (write_xitem i).
Proof.
  induction i as [l IH|i Hi] using x_ind'.
  - cbn [write_xitem]. constructor; [split; [reflexivity|discriminate]|]. apply Forall_app. split.
    + induction IH; [constructor|]. apply Forall_app. split; assumption.
    + repeat constructor; discriminate.
  - destruct i; try (repeat constructor; discriminate). contradiction (Hi items eq_refl).
Qed.

Lemma xdata_roundtrip v x r : version_leb R2000 v = true -> Forall x_wf (xd_items x) -> outside_xdata r ->
  exists ps, write_xdata v x = mk_pair 1001 (VStr (xd_name x)) :: ps /\ read_xdata (xd_name x) (map Ok ps ++ r) = Ok (x, r).
Proof.
  intros Hv Hw Hr. exists (flat_map write_xitem (xd_items x)). unfold write_xdata. rewrite Hv. split; [reflexivity|].
  unfold read_xdata. rewrite read_xitems_write; [cbn [bind]; destruct x; reflexivity|exact Hw| |exact Hr].
  rewrite app_length, map_length. lia.
Qed.

Lemma xdata_old v x : version_leb R2000 v = false -> write_xdata v x = [].
Proof. unfold write_xdata. intros ->. reflexivity. Qed.

(** Reading further input does not change what has been read. *)
Lemma read_double_app it t c d r : read_double it c = Ok (d, r) -> read_double (it ++ t) c = Ok (d, r ++ t).
Proof.
  unfold read_double. destruct it as [|[p|e] it]; try discriminate. cbn [app].
  destruct (p_code p =? c)%Z; [|discriminate]. destruct (assert_f64 p); cbn [bind]; [|discriminate].
  intros H. injection H as <- <-. reflexivity.
Qed.
Lemma read_three_app x it t c q r : read_three x it c = Ok (q, r) -> read_three x (it ++ t) c = Ok (q, r ++ t).
Proof.
  unfold read_three. destruct (read_double it (c + 10)) as [[y r1]|] eqn:E1; cbn [bind]; [|discriminate].
  rewrite (read_double_app _ _ _ _ _ E1). cbn [bind].
  destruct (read_double r1 (c + 20)) as [[z r2]|] eqn:E2; cbn [bind]; [|discriminate].
  rewrite (read_double_app _ _ _ _ _ E2). cbn [bind]. intros H. injection H as <- <-. reflexivity.
Qed.

Lemma read_x_app f :
  (forall g p it i r t, (f <= g)%nat -> read_xitem f p it = Ok (i, r) -> read_xitem g p (it ++ t) = Ok (i, r ++ t)) /\
  (forall g it i r t, (f <= g)%nat -> read_xgroup f it = Ok (i, r) -> read_xgroup g (it ++ t) = Ok (i, r ++ t)).
Proof.
  induction f as [|f [IH1 IH2]]; [split; intros; discriminate|]. split.
  - intros [|g] p it i r t Hg; [lia|]. cbn [read_xitem]. cbv zeta.
    repeat match goal with |- context [(?c =? ?n)%Z] => destruct (c =? n)%Z end;
    try discriminate;
    try (match goal with |- context [read_three] =>
           destruct (assert_f64 p); cbn [bind]; [|discriminate];
           match goal with |- context [read_three ?a ?b ?c] => destruct (read_three a b c) as [[[[x y] z] r1]|] eqn:E end; cbn [bind]; [|discriminate];
           rewrite (read_three_app _ _ _ _ _ _ E); cbn [bind]; intros H; injection H as <- <-; reflexivity end);
    try (match goal with |- context [read_xgroup] =>
           destruct (read_xgroup f it) as [[its r1]|] eqn:E; cbn [bind]; [|discriminate];
           rewrite (IH2 g _ _ _ t (le_S_n _ _ Hg) E); cbn [bind]; intros H; injection H as <- <-; reflexivity end);
    try (match goal with |- context [bind ?m _] => destruct m; cbn [bind] end; try discriminate;
         try (match goal with |- context [bind ?m _] => destruct m; cbn [bind] end; try discriminate);
         intros H; injection H as <- <-; reflexivity).
  - intros [|g] it i r t Hg; [lia|]. cbn [read_xgroup]. destruct it as [|[p|e] it]; try discriminate. cbn [app].
    destruct (p_code p <? 1000)%Z; [discriminate|].
    destruct (if (p_code p =? 1002)%Z then _ else _) as [[|]|]; cbn [bind]; [| |discriminate].
    + intros H. injection H as <- <-. reflexivity.
    + destruct (read_xitem f p it) as [[j r1]|] eqn:E1; cbn [bind]; [|discriminate].
      rewrite (IH1 g _ _ _ _ t (le_S_n _ _ Hg) E1). cbn [bind].
      destruct (read_xgroup f r1) as [[js r2]|] eqn:E2; cbn [bind]; [|discriminate].
      rewrite (IH2 g _ _ _ t (le_S_n _ _ Hg) E2). cbn [bind]. intros H. injection H as <- <-. reflexivity.
Qed.

Lemma x_cut i f p ps cut rest : x_wf i -> write_xitem i = p :: ps -> map Ok ps = cut ++ rest -> rest <> [] ->
  exists e, read_xitem f p cut = Err e.
Proof.
  intros Hw E1 E2 Hn. destruct (read_xitem f p cut) as [[j r]|e] eqn:R; [exfalso|exists e; reflexivity].
  pose proof (proj1 (read_x_app f) (f + 2 * length (p :: ps))%nat _ _ _ _ rest (Nat.le_add_r _ _) R) as A.
  pose proof (reads_all i Hw (f + 2 * length (p :: ps))%nat p ps [] E1 ltac:(lia)) as B.
  rewrite app_nil_r, E2, A in B. injection B as _ B. apply app_eq_nil in B. destruct B. contradiction.
Qed.

Lemma read_xitems_prefix a : Forall x_wf a -> forall f it, (length (flat_map write_xitem a) < f)%nat ->
  read_xitems f (map Ok (flat_map write_xitem a) ++ it) =
  let? (items, r) := read_xitems (f - length a) it in Ok (a ++ items, r).
Proof.
  induction a as [|i l IH]; intros Hw f it Hf.
  - cbn [flat_map map app length]. rewrite Nat.sub_0_r. destruct (read_xitems f it) as [[? ?]|]; reflexivity.
  - inversion Hw as [|? ? Wi Wl]; subst.
    change (flat_map write_xitem (i :: l)) with (write_xitem i ++ flat_map write_xitem l) in *.
    destruct (write_x_cons i) as [p [ps [E [C1 [C2 C3]]]]]. rewrite E in *. rewrite app_length in Hf. cbn [length] in Hf.
    destruct f as [|f]; [lia|]. cbn [app map read_xitems].
    replace ((p_code p =? 0) || (p_code p =? 1001) || (p_code p <? 1000))%Z with false by lia.
    rewrite map_app, <- app_assoc. rewrite (reads_all i Wi _ p ps _ E).
    + cbn [bind]. rewrite IH by (assumption || lia). cbn [length Nat.sub].
      destruct (read_xitems (f - length l) it) as [[? ?]|]; reflexivity.
    + rewrite app_length, map_length. cbn [length]. lia.
Qed.

Lemma xdata_cut name a i p cut rest : Forall x_wf a -> x_wf i ->
  map Ok (write_xitem i) = Ok p :: cut ++ rest -> rest <> [] ->
  exists e, read_xdata name (map Ok (flat_map write_xitem a) ++ Ok p :: cut) = Err e.
Proof.
  intros Ha Hi E Hn. destruct (write_x_cons i) as [q [ps [Ei [C1 [C2 C3]]]]]. rewrite Ei in E. cbn [map] in E. injection E as -> E.
  unfold read_xdata. rewrite read_xitems_prefix by (try assumption; rewrite app_length, map_length; lia).
  destruct (S _ - length a)%nat as [|f]; [eexists; reflexivity|]. cbn [read_xitems].
  replace ((p_code p =? 0) || (p_code p =? 1001) || (p_code p <? 1000))%Z with false by lia.
  destruct (x_cut i (2 * length cut + 2)%nat p ps cut rest Hi Ei E Hn) as [e He]. rewrite He. eexists. reflexivity.
Qed.
