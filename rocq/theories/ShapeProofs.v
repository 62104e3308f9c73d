(** Which codes and value types the writers produce. *)
From Verif Require Import Base CodePairModel CodePairSpec CodePairProofs VersionModel StreamModel ExtDataModel ExtDataProofs SpecModel SpecSpec SpecCheck EntityData EntityProps ObjectData ObjectProps
  SectionData HeaderModel HeaderData CustomModel ThumbnailModel DrawingModel FileModel StructureSpec.
Open Scope string_scope.
Open Scope list_scope.
Open Scope Z_scope.
Set Default Goal Selector "!".

(** * Commands *)
Definition shape : Type := Z * vtype.
Definition shape_of (p : pair) : shape := (p_code p, value_type (p_value p)).
Definition conv_type (w : wconv) : vtype :=
  match w with
  | WBool | WBoolI16 => TBool | WI16 | WAsI16 | WNotI16 => TShort | WI32 | WI32ofF64 => TInt | WI64 => TLong | WF64 | WF64ofInt => TDouble
  | WStr | WHandle => TStr | WBin => TBin
  end.
Definition length_type (l : lconv) : vtype := match l with LI16 | LPos16 => TShort | LI32 | LUtf8 => TInt | LF64 => TDouble end.
(** The conditions that depend on the version only. *)
Definition at_version (v : version) (c : cond) : bool := match c with CMin m => version_leb m v | CMax m => version_leb v m | _ => true end.
Definition part_at (v : version) (c : rcond) : bool := match c with RcMin m => version_leb m v | _ => true end.
Definition body_shapes (v : version) (c : cmd) : list shape :=
  match c with
  | WPair _ k _ w | WEach _ k _ w => [(k, conv_type w)]
  | WConst _ p => [shape_of p]
  | WLen _ k _ l => [(k, length_type l)]
  | WEachRec _ _ body => map (fun b => (pt_code b, conv_type (pt_conv b))) (filter (fun b => forallb (part_at v) (pt_conds b)) body)
  | WPick _ k _ _ => [(k, TDouble)]
  | WMulti _ k _ _ => [(k, TShort)]
  | WExts _ _ | WXdatas _ _ => []
  end.
Definition cmd_fine (S : shape -> bool) (v : version) (c : cmd) : bool :=
  negb (forallb (at_version v) (cmd_conds c)) ||
  (forallb S (body_shapes v c) && match c with WExts _ s => version_leb R14 v && memb s group_slots | _ => true end).
Definition fine (S : shape -> bool) (v : version) (l : list cmd) : bool := forallb (cmd_fine S v) l.

(** What a pair can be: one of the shapes, part of an extension group, or extended data. *)
Definition good (S : shape -> bool) (v : version) (sup : pair -> Prop) (p : pair) : Prop :=
  S (shape_of p) = true \/
  version_leb R14 v = true /\ (shape_of p = (102, TStr) \/ sup p) \/
  version_leb R2000 v = true /\ typed p /\ 1000 <= p_code p <= 1071.

Lemma apply_w_type w x y : apply_w w x = Ok y -> value_type y = conv_type w.
Proof. destruct w, x; cbn [apply_w]; intros H; try discriminate H; injection H as <-; reflexivity. Qed.
Lemma write_one_shape k w x p : write_one k w x = Ok p -> shape_of p = (k, conv_type w).
Proof.
  unfold write_one. destruct (apply_w w x) as [y|] eqn:E; cbn [bind]; intros H; [|discriminate H]. injection H as <-. unfold shape_of. cbn [p_code p_value].
  rewrite (apply_w_type _ _ _ E). reflexivity.
Qed.
Lemma apply_mw_type m l y : apply_mw m l = Ok y -> value_type y = TShort.
Proof.
  destruct m; cbn [apply_mw]; intros H; repeat match type of H with context [match ?x with _ => _ end] => destruct x; try discriminate H end.
  - destruct (writable_color_value _ _); cbn [bind] in H; [|discriminate H]. injection H as <-. reflexivity.
  - injection H as <-. reflexivity.
Qed.
Lemma apply_l_type l x : value_type (apply_l l x) = length_type l.
Proof. destruct l; reflexivity. Qed.
Lemma map_res_all {A B} (f : A -> res B) (P : B -> Prop) : (forall a b, f a = Ok b -> P b) -> forall l l', map_res f l = Ok l' -> Forall P l'.
Proof.
  intros H. induction l as [|a l IH]; cbn [map_res]; intros l' E; [injection E as <-; constructor|]. destruct (f a) as [b|] eqn:F; cbn [bind] in E; [|discriminate E].
  destruct (map_res f l) as [l0|]; cbn [bind] in E; [|discriminate E]. injection E as <-. constructor; [exact (H _ _ F)|apply IH; reflexivity].
Qed.
Lemma parts_shapes v body : forall el ps, write_parts v body el = Ok ps ->
  Forall (fun p => In (shape_of p) (map (fun b => (pt_code b, conv_type (pt_conv b))) (filter (fun b => forallb (part_at v) (pt_conds b)) body))) ps.
Proof.
  induction body as [|b body IH]; cbn [write_parts]; intros el ps H; [injection H as <-; constructor|]. destruct (write_parts v body el) as [qs|] eqn:E; cbn [bind] in H; [|discriminate H].
  specialize (IH _ _ E). destruct (forallb (rholds v el) (pt_conds b)) eqn:C.
  - destruct (write_one _ _ _) as [p|] eqn:W; cbn [bind] in H; [|discriminate H]. injection H as <-.
    assert (F : forallb (part_at v) (pt_conds b) = true).
    { apply forallb_forall. intros c Hc. apply (proj1 (forallb_forall _ _)) with (x := c) in C; [|exact Hc]. destruct c; [exact C|reflexivity]. }
    cbn [filter]. rewrite F. cbn [map]. constructor; [left; symmetry; apply (write_one_shape _ _ _ _ W)|]. eapply Forall_impl; [|exact IH]. intros q Hq. right. exact Hq.
  - injection H as <-. eapply Forall_impl; [|exact IH]. intros q Hq. cbn [filter]. destruct (forallb (part_at v) (pt_conds b)); [right|]; exact Hq.
Qed.

(** * Extension groups and extended data *)
Lemma ext_item_pairs i : Forall (fun p => shape_of p = (102, TStr) \/ In p (pairs_in i)) (write_ext_item i).
Proof.
  induction i as [p|n l IH] using ext_ind'; cbn [write_ext_item pairs_in]; [constructor; [right; left; reflexivity|constructor]|].
  assert (F : Forall (fun p => shape_of p = (102, TStr) \/ In p (flat_map pairs_in l)) (flat_map write_ext_item l)).
  { induction IH as [|i l Hi Hl IHl]; [constructor|]. cbn [flat_map]. apply Forall_app. split.
    - eapply Forall_impl; [|exact Hi]. intros p [H|H]; [left; exact H|right; apply in_or_app; left; exact H].
    - eapply Forall_impl; [|exact IHl]. intros p [H|H]; [left; exact H|right; apply in_or_app; right; exact H]. }
  destruct l; [constructor|]. constructor; [left; reflexivity|]. apply Forall_app. split; [exact F|]. constructor; [left; reflexivity|constructor].
Qed.
Lemma ext_group_pairs g : Forall (fun p => shape_of p = (102, TStr) \/ In p (flat_map pairs_in (eg_items g))) (write_ext_group g).
Proof. unfold write_ext_group. exact (ext_item_pairs (EGroup (eg_name g) (eg_items g))). Qed.
Definition plain_typed (p : pair) : bool := match expected_type (p_code p) with Some t => vtype_eqb t (value_type (p_value p)) | None => false end.
Lemma plain_typed_ok p : plain_typed p = true -> typed p.
Proof.
  unfold plain_typed. intros H. apply typed_expected. destruct (expected_type (p_code p)); [|discriminate H]. f_equal. apply vtype_eqb_eq. exact H.
Qed.
Lemma xitem_pairs i : Forall (fun p => typed p /\ 1000 <= p_code p <= 1071) (write_xitem i).
Proof.
  induction i as [l IH|i Hi] using x_ind'.
  - cbn [write_xitem]. constructor; [split; [apply plain_typed_ok; reflexivity|cbn; lia]|]. apply Forall_app. split; [|constructor; [split; [apply plain_typed_ok; reflexivity|cbn; lia]|constructor]].
    induction IH; [constructor|]. cbn [flat_map]. apply Forall_app. split; assumption.
  - destruct i; cbn [write_xitem]; try (exfalso; eapply Hi; reflexivity); unfold write_three; repeat constructor; try (apply plain_typed_ok; reflexivity); cbn; lia.
Qed.
Lemma xdata_pairs v x : Forall (fun p => version_leb R2000 v = true /\ typed p /\ 1000 <= p_code p <= 1071) (write_xdata v x).
Proof.
  unfold write_xdata. destruct (version_leb R2000 v); [|constructor]. constructor; [split; [reflexivity|split; [apply plain_typed_ok; reflexivity|cbn; lia]]|].
  induction (xd_items x) as [|i l IH]; [constructor|]. cbn [flat_map]. apply Forall_app. split; [|exact IH]. eapply Forall_impl; [|apply xitem_pairs]. intros p H. split; [reflexivity|exact H].
Qed.
Lemma xdatas_good S v sup l : Forall (good S v sup) (flat_map (fun x => match x with FXd d => write_xdata v d | _ => [] end) l).
Proof.
  induction l as [|x l IH]; [constructor|]. cbn [flat_map]. apply Forall_app. split; [|exact IH]. destruct x; try constructor. eapply Forall_impl; [|apply xdata_pairs].
  intros p H. right. right. exact H.
Qed.

(** * Items *)
Lemma cmd_good S v wh st (sup : pair -> Prop) c ps : (forall p, in_groups st p -> sup p) -> cmd_fine S v c = true -> write_cmd v wh st c = Ok ps -> Forall (good S v sup) ps.
Proof.
  intros Hs Hf Hw. unfold write_cmd in Hw. destruct (all_hold v wh st (cmd_conds c)) eqn:C; [|injection Hw as <-; constructor].
  assert (A : forallb (at_version v) (cmd_conds c) = true).
  { apply forallb_forall. intros k Hk. apply (proj1 (forallb_forall _ _)) with (x := k) in C; [|exact Hk]. destruct k; try reflexivity; exact C. }
  unfold cmd_fine in Hf. rewrite A in Hf. cbn [negb orb] in Hf. apply andb_true_iff in Hf as [Hf He]. pose proof (proj1 (forallb_forall _ _) Hf) as F. clear Hf C A.
  assert (G : (forall qs, write_body v st c = Ok qs -> Forall (fun p => In (shape_of p) (body_shapes v c)) qs) -> Forall (good S v sup) ps).
  { intros H. eapply Forall_impl; [|exact (H _ Hw)]. intros p Hp. left. apply F. exact Hp. }
  destruct c; cbn [write_body body_shapes] in *.
  - apply G. intros qs Hq. destruct (write_one code w (st s)) as [p|] eqn:W; cbn [bind] in Hq; [|discriminate Hq]. injection Hq as <-. constructor; [|constructor]. left. symmetry. exact (write_one_shape _ _ _ _ W).
  - apply G. intros qs Hq. injection Hq as <-. constructor; [left; reflexivity|constructor].
  - apply G. intros qs Hq. injection Hq as <-. constructor; [left|constructor]. unfold shape_of. cbn [p_code p_value]. rewrite apply_l_type. reflexivity.
  - apply G. intros qs Hq. eapply map_res_all; [|exact Hq]. intros a b W. left. symmetry. exact (write_one_shape _ _ _ _ W).
  - apply G. intros qs Hq. destruct (map_res _ _) as [ls|] eqn:M; cbn [bind] in Hq; [|discriminate Hq]. injection Hq as <-.
    apply map_res_all with (P := Forall (fun p => In (shape_of p) (map (fun b => (pt_code b, conv_type (pt_conv b))) (filter (fun b => forallb (part_at v) (pt_conds b)) body)))) in M.
    + apply Forall_concat. exact M.
    + intros a b W. exact (parts_shapes _ _ _ _ W).
  - apply G. intros qs Hq. eapply map_res_all; [|exact Hq]. intros a b W. left. symmetry. exact (write_one_shape _ _ _ _ W).
  - apply G. intros qs Hq. destruct (apply_mw _ _) as [x|] eqn:W; cbn [bind] in Hq; [|discriminate Hq]. injection Hq as <-. constructor; [left|constructor]. unfold shape_of. cbn [p_code p_value].
    rewrite (apply_mw_type _ _ _ W). reflexivity.
  - injection Hw as <-. apply andb_true_iff in He as [V He]. apply existsb_exists in He as [s' [Hi E]]. apply String.eqb_eq in E. subst s'.
    assert (K : forall l, incl l (as_list (st s)) -> Forall (good S v sup) (flat_map (fun x => match x with FExt g => write_ext_group g | _ => [] end) l)).
    { induction l as [|x l IH]; intros Hl; [constructor|]. cbn [flat_map]. apply Forall_app. split; [|apply IH; intros y Hy; apply Hl; right; exact Hy]. destruct x; try constructor.
      eapply Forall_impl; [|apply ext_group_pairs]. intros p Hp. right. left. split; [exact V|]. destruct Hp as [Hp|Hp]; [left; exact Hp|right; apply Hs]. do 2 eexists. split; [exact Hi|]. split; [|exact Hp].
      apply Hl. left. reflexivity. }
    apply K. apply incl_refl.
  - injection Hw as <-. apply xdatas_good.
Qed.
Lemma cmds_good S v wh st (sup : pair -> Prop) l : (forall p, in_groups st p -> sup p) -> fine S v l = true -> forall ps, write_cmds v wh st l = Ok ps -> Forall (good S v sup) ps.
Proof.
  intros Hs. induction l as [|c l IH]; cbn [fine forallb write_cmds]; intros Hf ps H; [injection H as <-; constructor|]. apply andb_true_iff in Hf as [Hc Hl].
  destruct (write_cmd v wh st c) as [a|] eqn:A; cbn [bind] in H; [|discriminate H]. destruct (write_cmds v wh st l) as [b|] eqn:B; cbn [bind] in H; [|discriminate H]. injection H as <-.
  apply Forall_app. split; [exact (cmd_good _ _ _ _ _ _ _ Hs Hc A)|apply IH; [exact Hl|reflexivity]].
Qed.
Lemma concat_res_all (P : pair -> Prop) l : (forall x ps, In x l -> x = Ok ps -> Forall P ps) -> forall ps, concat_res l = Ok ps -> Forall P ps.
Proof.
  induction l as [|x l IH]; cbn [concat_res]; intros H ps E; [injection E as <-; constructor|]. destruct x as [a|]; cbn [bind] in E; [|discriminate E].
  destruct (concat_res l) as [b|]; cbn [bind] in E; [|discriminate E]. injection E as <-. apply Forall_app. split; [apply (H (Ok a)); [left; reflexivity|reflexivity]|].
  apply IH; [intros y ps Hy; apply H; right; exact Hy|reflexivity].
Qed.
