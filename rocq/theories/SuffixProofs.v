(** Readers consume a prefix of their input, and end: what they leave is a suffix of what they were given, and an error is either one of the
    input or an error of its own that satisfies [E]. With [E := fun e => e <> OutOfFuel] this says that the fuel of the model never runs out; with
    [genuine] also that nothing panics. *)
From Verif Require Import Base CodePairModel CodePairProofs ReaderProofs VersionModel ExtDataModel SpecModel CustomModel.
Open Scope Z_scope.
Set Default Goal Selector "!".

(** [r] is left of [it] after some pairs, none of them malformed, have been taken. *)
Definition suffix (r it : feed) : Prop := exists pre, it = map Ok pre ++ r.
Lemma suffix_refl it : suffix it it.
Proof. exists []. reflexivity. Qed.
Lemma suffix_cons p r it : suffix r it -> suffix r (Ok p :: it).
Proof. intros [pre ->]. exists (p :: pre). reflexivity. Qed.
Lemma suffix_trans a b c : suffix a b -> suffix b c -> suffix a c.
Proof. intros [p ->] [q ->]. exists (q ++ p). rewrite map_app. apply app_assoc. Qed.
Lemma suffix_length a b : suffix a b -> (length a <= length b)%nat.
Proof. intros [p ->]. rewrite app_length. lia. Qed.
(** The first malformed pair. *)
Fixpoint first_error (it : feed) : option dxf_error :=
  match it with [] => None | Ok _ :: r => first_error r | Err e :: _ => Some e end.
Lemma suffix_first a b : suffix a b -> first_error b = first_error a.
Proof. intros [p ->]. induction p as [|x p IH]; [reflexivity|exact IH]. Qed.
Lemma first_error_In it e : first_error it = Some e -> In (Err e) it.
Proof. induction it as [|[p|x] it IH]; cbn [first_error]; [discriminate|right; apply IH; assumption|intros X; injection X as ->; left; reflexivity]. Qed.
Lemma suffix_In x a b : suffix a b -> In x a -> In x b.
Proof. intros [p ->] H. apply in_or_app. right. exact H. Qed.

Definition rests {A} (E : dxf_error -> Prop) (it : feed) (m : res (A * feed)) : Prop :=
  match m with Ok (_, r) => suffix r it | Err e => E e \/ first_error it = Some e end.
Lemma rests_bind {A B} E it (m : res (A * feed)) (k : A * feed -> res (B * feed)) :
  rests E it m -> (forall a r, m = Ok (a, r) -> suffix r it -> rests E r (k (a, r))) -> rests E it (bind m k).
Proof.
  intros Hm Hk. destruct m as [[a r]|e]; cbn [bind rests] in *; [|exact Hm]. specialize (Hk a r eq_refl Hm).
  destruct (k (a, r)) as [[b r']|e]; cbn [rests] in *; [eapply suffix_trans; eassumption|]. destruct Hk as [H|H]; [left; exact H|right; rewrite (suffix_first _ _ Hm); exact H].
Qed.
Lemma rests_plain {A B} (E : dxf_error -> Prop) it (m : res A) (k : A -> res (B * feed)) :
  (forall e, m = Err e -> E e) -> (forall a, m = Ok a -> rests E it (k a)) -> rests E it (bind m k).
Proof. intros Hm Hk. destruct m as [a|e]; cbn [bind]; [apply Hk; reflexivity|]. left. apply Hm. reflexivity. Qed.
Lemma rests_cons {A} (E : dxf_error -> Prop) p it (m : res (A * feed)) : rests E it m -> rests E (Ok p :: it) m.
Proof. destruct m as [[a r]|e]; cbn [rests]; [apply suffix_cons|]. intros [H|H]; [left; exact H|right; exact H]. Qed.
Lemma rests_suffix {A} (E : dxf_error -> Prop) r it (m : res (A * feed)) : suffix r it -> rests E r m -> rests E it m.
Proof. intros [pre ->]. induction pre as [|x pre IH]; intros H; [exact H|]. cbn [map app]. apply rests_cons, IH, H. Qed.

Section Ends.
  Variable E : dxf_error -> Prop.
  Hypothesis Eok : forall e, genuine e -> E e.

  Lemma gen e : e <> OutOfFuel -> e <> Panic -> E e.
  Proof. intros H1 H2. apply Eok. split; assumption. Qed.
  Ltac own := intros ? Hown; apply gen; intros ->; discriminate Hown.
  Lemma string_E p e : assert_string p = Err e -> E e.
  Proof. unfold assert_string. destruct (p_value p); intros H; try discriminate H; injection H as <-; apply gen; discriminate. Qed.
  Lemma f64_E p e : assert_f64 p = Err e -> E e.
  Proof. unfold assert_f64. destruct (p_value p); intros H; try discriminate H; injection H as <-; apply gen; discriminate. Qed.
  Lemma i16_E p e : assert_i16 p = Err e -> E e.
  Proof. unfold assert_i16. destruct (p_value p); intros H; try discriminate H; injection H as <-; apply gen; discriminate. Qed.
  Lemma i32_E p e : assert_i32 p = Err e -> E e.
  Proof. unfold assert_i32. destruct (p_value p); intros H; try discriminate H; injection H as <-; apply gen; discriminate. Qed.
  Lemma i64_E p e : assert_i64 p = Err e -> E e.
  Proof. unfold assert_i64. destruct (p_value p); intros H; try discriminate H; injection H as <-; apply gen; discriminate. Qed.
  Lemma bool_E p e : assert_bool p = Err e -> E e.
  Proof. unfold assert_bool. destruct (p_value p); intros H; try discriminate H; injection H as <-; apply gen; discriminate. Qed.
  Lemma bin_E p e : assert_binary p = Err e -> E e.
  Proof. unfold assert_binary. destruct (p_value p); intros H; try discriminate H; injection H as <-; apply gen; discriminate. Qed.
  Lemma bind_E {A B} (m : res A) (k : A -> res B) e :
    (forall e, m = Err e -> E e) -> (forall a e, m = Ok a -> k a = Err e -> E e) -> bind m k = Err e -> E e.
  Proof. intros Hm Hk H. destruct m as [a|e']; cbn [bind] in H; [exact (Hk a e eq_refl H)|]. injection H as ->. apply Hm. reflexivity. Qed.
  Lemma parse_hex_E s o e : parse_hex_string s o = Err e -> E e.
  Proof. intros H. apply Eok. exact (parse_hex_loop_genuine _ _ _ _ _ H). Qed.
  Lemma handle_E p e : as_handle p = Err e -> E e.
  Proof.
    unfold as_handle. apply bind_E; [apply string_E|]. intros s e' _. unfold handle_of_string. apply bind_E; [intros e'' H; exact (parse_hex_E _ _ _ H)|].
    intros bs e'' _ H. discriminate H.
  Qed.

  Lemma ext_items_rests : forall f it, (length it < f)%nat -> rests E it (read_ext_items f it).
  Proof.
    induction f as [|f IH]; intros it Hl; [lia|]. cbn [read_ext_items].
    destruct it as [|[p|e] it]; [left; apply gen; discriminate| |right; reflexivity]. cbn [length] in Hl. apply rests_cons.
    destruct (p_code p =? 102).
    - apply rests_plain; [apply string_E|]. intros s _. destruct (seqb s close_brace); [apply suffix_refl|].
      destruct s as [|c name]; [left; apply gen; discriminate|]. destruct (c =? open_brace)%N; [|left; apply gen; discriminate].
      apply rests_bind; [apply IH; lia|]. intros sub r1 _ S1. apply rests_bind; [apply IH; pose proof (suffix_length _ _ S1); lia|].
      intros items r2 _ _. apply suffix_refl.
    - apply rests_bind; [apply IH; lia|]. intros items r1 _ _. apply suffix_refl.
  Qed.
  Lemma ext_rests name it : rests E it (read_ext_group name it).
  Proof.
    unfold read_ext_group. destruct name as [|c n]; [left; apply gen; discriminate|]. destruct (c =? open_brace)%N; [|left; apply gen; discriminate].
    apply rests_bind; [apply ext_items_rests; lia|]. intros items r _ _. apply suffix_refl.
  Qed.
  Lemma double_rests it c : rests E it (read_double it c).
  Proof.
    unfold read_double. destruct it as [|[p|e] it]; [left; apply gen; discriminate| |right; reflexivity]. apply rests_cons.
    destruct (p_code p =? c); [|left; apply gen; discriminate]. apply rests_plain; [apply f64_E|]. intros. apply suffix_refl.
  Qed.
  Lemma three_rests d it c : rests E it (read_three d it c).
  Proof.
    unfold read_three. apply rests_bind; [apply double_rests|]. intros y r1 _ _. apply rests_bind; [apply double_rests|]. intros z r2 _ _. apply suffix_refl.
  Qed.
  Lemma xitem_rests : forall f, (forall p it, (2 * length it + 2 <= f)%nat -> rests E it (read_xitem f p it)) /\
    (forall it, (2 * length it + 1 <= f)%nat -> rests E it (read_xgroup f it)).
  Proof.
    induction f as [|f [IH1 IH2]]; [split; intros; lia|]. split.
    - intros p it Hl. cbn [read_xitem].
      repeat match goal with |- rests _ _ (if ?c =? ?z then _ else _) => destruct (c =? z) end;
        try (apply rests_plain; [first [apply string_E|apply f64_E|apply i16_E|apply i32_E|apply handle_E]|]; intros ? _; try apply suffix_refl).
      all: try (apply rests_bind; [apply three_rests|]; intros [[x y] z] r _ _; apply suffix_refl).
      + apply rests_bind; [apply IH2; lia|]. intros items r _ _. apply suffix_refl.
      + apply rests_plain; [intros e H; exact (parse_hex_E _ _ _ H)|]. intros. apply suffix_refl.
      + left. apply gen; discriminate.
    - intros it Hl. cbn [read_xgroup]. destruct it as [|[p|e] it]; [left; apply gen; discriminate| |right; reflexivity].
      cbn [length] in Hl. apply rests_cons. destruct (p_code p <? 1000); [left; apply gen; discriminate|].
      apply rests_plain.
      { intros e. destruct (p_code p =? 1002); [|discriminate]. apply bind_E; [apply string_E|]. intros s e' _ H. discriminate H. }
      intros [|] _; [apply suffix_refl|]. apply rests_bind; [apply IH1; lia|]. intros i r1 _ S1.
      apply rests_bind; [apply IH2; pose proof (suffix_length _ _ S1); lia|]. intros items r2 _ _. apply suffix_refl.
  Qed.
  Lemma xitems_rests : forall f it, (length it < f)%nat -> rests E it (read_xitems f it).
  Proof.
    induction f as [|f IH]; intros it Hl; [lia|]. cbn [read_xitems].
    destruct it as [|[p|e] it]; [apply suffix_refl| |right; reflexivity]. cbn [length] in Hl.
    destruct ((p_code p =? 0) || (p_code p =? 1001) || (p_code p <? 1000)); [apply suffix_refl|]. apply rests_cons.
    apply rests_bind; [apply xitem_rests; lia|]. intros i r1 _ S1. apply rests_bind; [apply IH; pose proof (suffix_length _ _ S1); lia|].
    intros items r2 _ _. apply suffix_refl.
  Qed.
  Lemma xdata_rests name it : rests E it (read_xdata name it).
  Proof. unfold read_xdata. apply rests_bind; [apply xitems_rests; lia|]. intros items r _ _. apply suffix_refl. Qed.

  (** * The interpreter *)
  Lemma apply_r_E r p e : apply_r r p = Err e -> E e.
  Proof.
    destruct r; cbn [apply_r]; apply bind_E; try (intros ? ? _ Hx; discriminate Hx);
      first [apply string_E|apply f64_E|apply i16_E|apply i32_E|apply i64_E|apply bool_E|apply bin_E|apply handle_E].
  Qed.
  (** The only conversion that may panic is that of a layer's colour. [Q] is what is known of every pair of the input. *)
  Variable Q : pair -> Prop.
  Definition all_pairs (it : feed) : Prop := forall p, In (Ok p) it -> Q p.
  Lemma all_suffix a b : suffix a b -> all_pairs b -> all_pairs a.
  Proof. intros S H p Hp. apply H. exact (suffix_In _ _ _ S Hp). Qed.
  Definition action_ok (code : Z) (a : action) : Prop :=
    match a with AMulti _ m => forall p e, p_code p = code -> Q p -> apply_mr m p = Err e -> E e | _ => True end.
  Lemma act_rests a p st regs it : Q p -> action_ok (p_code p) a -> rests E it (act a p st regs it).
  Proof.
    intros HQ Ha. destruct a; cbn [act].
    - apply rests_plain; [apply apply_r_E|]. intros. apply suffix_refl.
    - apply rests_plain; [apply apply_r_E|]. intros. apply suffix_refl.
    - apply rests_plain; [apply apply_r_E|]. intros. apply suffix_refl.
    - apply rests_plain; [apply apply_r_E|]. intros x _. apply rests_plain; [|intros; apply suffix_refl].
      unfold set_last. intros e H. destruct (rev (as_list (st s))); [injection H as <-; apply gen; discriminate|discriminate H].
    - apply rests_plain; [intros e; apply Ha; [reflexivity|exact HQ]|]. intros. apply suffix_refl.
    - apply rests_plain; [apply string_E|]. intros name _. apply rests_bind; [apply ext_rests|]. intros. apply suffix_refl.
    - apply rests_plain; [apply string_E|]. intros name _. apply rests_bind; [apply xdata_rests|]. intros. apply suffix_refl.
    - apply suffix_refl.
    - apply suffix_refl.
    - apply rests_plain; [apply string_E|]. intros name _. destruct (mark _ _ _); apply suffix_refl.
    - left. apply gen; discriminate.
  Qed.
  Lemma acts_rests l p : Q p -> Forall (action_ok (p_code p)) l -> forall st regs it, rests E it (acts l p st regs it).
  Proof.
    intros HQ. induction 1 as [|a l Ha Hl IH]; intros st regs it; cbn [acts]; [apply suffix_refl|].
    apply rests_bind; [apply act_rests; assumption|]. intros [st' regs'] r _ _. apply IH.
  Qed.
  Definition arms_ok (arms : list arm) : Prop := Forall (fun a => Forall (action_ok (a_code a)) (a_actions a)) arms.
  Lemma find_arm_ok arms code regs l : arms_ok arms -> find_arm arms code regs = Some l -> Forall (action_ok code) l.
  Proof.
    intros H. induction H as [|a arms Ha Hr IH]; cbn [find_arm]; [discriminate|].
    destruct (Z.eqb_spec (a_code a) code) as [<-|]; cbn [andb]; [|exact IH].
    destruct (forallb (guard_ok regs) (a_guards a)); [intros X; injection X as <-; exact Ha|exact IH].
  Qed.
  Lemma step_rests arms p st regs it : arms_ok arms -> Q p -> rests E it (step arms p st regs it).
  Proof.
    intros H HQ. unfold step. destruct (find_arm arms (p_code p) regs) as [l|] eqn:F; [|apply suffix_refl].
    apply acts_rests; [exact HQ|]. exact (find_arm_ok _ _ _ _ H F).
  Qed.
  Lemma run_rests arms eof : arms_ok arms -> forall fuel it st regs, all_pairs it -> (length it < fuel)%nat -> rests E it (run arms eof fuel it st regs).
  Proof.
    intros Ha. induction fuel as [|f IH]; intros it st regs HQ Hl; [lia|]. cbn [run].
    destruct it as [|[p|e] it]; [destruct eof; [apply suffix_refl|left; apply gen; discriminate]| |right; reflexivity].
    cbn [length] in Hl. destruct (p_code p =? 0); [apply suffix_refl|]. apply rests_cons.
    assert (HQ' : all_pairs it) by (intros q Hq; apply HQ; right; exact Hq).
    apply rests_bind; [apply step_rests; [exact Ha|apply HQ; left; reflexivity]|].
    intros x r _ S. apply IH; [exact (all_suffix _ _ S HQ')|]. pose proof (suffix_length _ _ S). lia.
  Qed.
  Lemma read_item_rests sp it : all_pairs it -> arms_ok (sp_arms sp) -> rests E it (read_item sp it).
  Proof.
    intros HQ Ha. unfold read_item. apply rests_bind; [apply run_rests; [exact Ha|exact HQ|lia]|]. intros [st regs] r _ _.
    destruct (forallb _ _); apply suffix_refl.
  Qed.
  Lemma next_loop_rests {A} (body : pair -> A -> feed -> res (A * feed)) : (forall p a it, Q p -> all_pairs it -> rests E it (body p a it)) ->
    forall fuel it a, all_pairs it -> (length it < fuel)%nat -> rests E it (next_loop body fuel it a).
  Proof.
    intros Hb. induction fuel as [|f IH]; intros it a HQ Hl; [lia|]. cbn [next_loop].
    destruct it as [|[p|e] it]; [apply suffix_refl| |right; reflexivity].
    cbn [length] in Hl. destruct (p_code p =? 0); [apply suffix_refl|]. apply rests_cons.
    assert (HQ' : all_pairs it) by (intros q Hq; apply HQ; right; exact Hq).
    apply rests_bind; [apply Hb; [apply HQ; left; reflexivity|exact HQ']|]. intros a' r _ S.
    apply IH; [exact (all_suffix _ _ S HQ')|]. pose proof (suffix_length _ _ S). lia.
  Qed.
End Ends.
