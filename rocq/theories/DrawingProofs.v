(** Lemmas about drawings: handles are counted, tables only grow. *)
From Verif Require Import Base F64Model SpecModel SpecSpec TableData ObjectData DrawingModel DrawingSpec.
From Coq Require Import Permutation Sorted.
Open Scope N_scope.
Set Default Goal Selector "!".

(** * Access *)

Lemma tget_tset_same : forall k l d, tget k (tset k l d) = l.
Proof. intros k l d. destruct d, k; reflexivity. Qed.
Lemma tget_tset_other : forall k k' l d, k <> k' -> tget k' (tset k l d) = tget k' d.
Proof. intros k k' l d H. destruct d, k, k'; try reflexivity; contradiction H; reflexivity. Qed.
Lemma tset_tget : forall k d, tset k (tget k d) d = d.
Proof. intros k d. destruct d, k; reflexivity. Qed.
Lemma tkind_dec : forall a b : tkind, {a = b} + {a <> b}.
Proof. decide equality. Qed.

(** * Counting handles *)

Notation cn := (count_occ N.eq_dec).
Definition btw (a b h : N) : nat := if (a <=? h) && (h <? b) then 1%nat else 0%nat.

Lemma count_tset : forall k l d h,
  (cn (handles (tset k l d)) h + cn (map ti_handle (tget k d)) h = cn (handles d) h + cn (map ti_handle l) h)%nat.
Proof.
  intros k l d h. destruct d as [hh cc aa bb di la lt ss uu vv vp bl ee oo tt], k; unfold handles, table_handles; cbn [tset tget dr_app_ids dr_block_records dr_dim_styles dr_layers dr_line_types
    dr_styles dr_ucss dr_views dr_view_ports dr_blocks dr_entities dr_objects]; rewrite ?map_app, ?count_occ_app; lia.
Qed.
Lemma count_blocks : forall l d h,
  (cn (handles (set_blocks l d)) h + cn (flat_map block_handles (dr_blocks d)) h = cn (handles d) h + cn (flat_map block_handles l) h)%nat.
Proof.
  intros l d h. destruct d as [hh cc aa bb di la lt ss uu vv vp bl ee oo tt]; unfold handles, table_handles; cbn [set_blocks dr_app_ids dr_block_records dr_dim_styles dr_layers dr_line_types
    dr_styles dr_ucss dr_views dr_view_ports dr_blocks dr_entities dr_objects]; rewrite ?map_app, ?count_occ_app; lia.
Qed.
Lemma count_entities : forall l d h,
  (cn (handles (set_entities l d)) h + cn (flat_map entity_handles (dr_entities d)) h = cn (handles d) h + cn (flat_map entity_handles l) h)%nat.
Proof.
  intros l d h. destruct d as [hh cc aa bb di la lt ss uu vv vp bl ee oo tt]; unfold handles, table_handles; cbn [set_entities dr_app_ids dr_block_records dr_dim_styles dr_layers dr_line_types
    dr_styles dr_ucss dr_views dr_view_ports dr_blocks dr_entities dr_objects]; rewrite ?map_app, ?count_occ_app; lia.
Qed.
Lemma count_objects : forall l d h,
  (cn (handles (set_objects l d)) h + cn (map ob_handle (dr_objects d)) h = cn (handles d) h + cn (map ob_handle l) h)%nat.
Proof.
  intros l d h. destruct d as [hh cc aa bb di la lt ss uu vv vp bl ee oo tt]; unfold handles, table_handles; cbn [set_objects dr_app_ids dr_block_records dr_dim_styles dr_layers dr_line_types
    dr_styles dr_ucss dr_views dr_view_ports dr_blocks dr_entities dr_objects]; rewrite ?map_app, ?count_occ_app; lia.
Qed.
Lemma handles_header : forall h d, handles (set_header h d) = handles d.
Proof. intros h d. destruct d. reflexivity. Qed.
Lemma next_tset : forall k l d, next_of (tset k l d) = next_of d.
Proof. intros k l d. destruct d, k; reflexivity. Qed.
Lemma next_set_blocks : forall l d, next_of (set_blocks l d) = next_of d.
Proof. intros l d. destruct d; reflexivity. Qed.
Lemma next_set_entities : forall l d, next_of (set_entities l d) = next_of d.
Proof. intros l d. destruct d; reflexivity. Qed.
Lemma next_set_objects : forall l d, next_of (set_objects l d) = next_of d.
Proof. intros l d. destruct d; reflexivity. Qed.
Lemma next_handle_next : forall d, next_of (snd (next_handle d)) = next_of d + 1.
Proof. intros d. destruct d as [h]; destruct h; reflexivity. Qed.
Lemma next_handle_handles : forall d, handles (snd (next_handle d)) = handles d.
Proof. intros d. destruct d; reflexivity. Qed.
Lemma next_handle_fst : forall d, fst (next_handle d) = next_of d.
Proof. reflexivity. Qed.

(** Between two drawings only handles from the counter have been added, each at most once. *)
Definition grew (d d' : drawing) : Prop :=
  next_of d <= next_of d' /\ forall h, (cn (handles d') h <= cn (handles d) h + btw (next_of d) (next_of d') h)%nat.

Ltac btw_lia := unfold btw in *; repeat match goal with |- context [if ?b then _ else _] => destruct b eqn:? | H : context [if ?b then _ else _] |- _ => destruct b eqn:? end; lia.

Lemma btw_split : forall a b c h, a <= b -> b <= c -> (btw a b h + btw b c h = btw a c h)%nat.
Proof. intros a b c h Hab Hbc. btw_lia. Qed.
Lemma btw_one : forall a h, btw a (a + 1) h = (if N.eq_dec a h then 1 else 0)%nat.
Proof. intros a h. unfold btw. destruct (N.eq_dec a h); destruct ((a <=? h) && (h <? a + 1)) eqn:E; lia. Qed.

Lemma grew_refl : forall d, grew d d.
Proof. intros d. split; [lia|]. intros h. lia. Qed.
Lemma grew_trans : forall a b c, grew a b -> grew b c -> grew a c.
Proof.
  intros a b c [N1 H1] [N2 H2]. split; [lia|]. intros h. specialize (H1 h). specialize (H2 h).
  rewrite <- (btw_split (next_of a) (next_of b) (next_of c) h N1 N2). lia.
Qed.
Lemma grew_alloc : forall d d2 d3 extra,
  grew (snd (next_handle d)) d2 -> next_of d3 = next_of d2 ->
  (forall h, cn (handles d3) h = cn (handles d2) h + cn extra h)%nat ->
  (forall h, cn extra h = (if N.eq_dec (next_of d) h then 1 else 0))%nat -> grew d d3.
Proof.
  intros d d2 d3 extra [N1 H1] N2 H2 H3. rewrite next_handle_next in N1. split; [rewrite N2; lia|].
  intros h. specialize (H1 h). specialize (H2 h). specialize (H3 h). rewrite next_handle_next, next_handle_handles in H1.
  rewrite N2. rewrite <- (btw_split (next_of d) (next_of d + 1) (next_of d2) h) by lia. rewrite btw_one. lia.
Qed.
Lemma count_one : forall a h, cn [a] h = (if N.eq_dec a h then 1 else 0)%nat.
Proof. intros a h. cbn. destruct (N.eq_dec a h); reflexivity. Qed.

(** * Ensuring *)

(** What ensuring an entry may do: append default entries to tables, take handles, and nothing else. *)
Definition rest_same (d d' : drawing) : Prop :=
  dr_classes d' = dr_classes d /\ dr_blocks d' = dr_blocks d /\ dr_entities d' = dr_entities d /\
  dr_thumbnail d' = dr_thumbnail d /\ dr_header d' = set_next (next_of d') (dr_header d).
Definition ext (d d' : drawing) : Prop :=
  grew d d' /\ (forall k, appended k d d') /\ rest_same d d' /\ dr_objects d' = dr_objects d.

Lemma set_next_twice : forall a b h, set_next a (set_next b h) = set_next a h.
Proof. intros a b h. destruct h; reflexivity. Qed.
Lemma set_next_same : forall h, set_next (hd_next h) h = h.
Proof. intros h. destruct h; reflexivity. Qed.
Lemma hd_next_set : forall a h, hd_next (set_next a h) = a.
Proof. intros a h. destruct h; reflexivity. Qed.
Lemma rest_refl : forall d, rest_same d d.
Proof. intros d. repeat split. unfold next_of. now rewrite set_next_same. Qed.
Lemma rest_trans : forall a b c, rest_same a b -> rest_same b c -> rest_same a c.
Proof.
  intros a b c (A1 & A2 & A3 & A4 & A5) (B1 & B2 & B3 & B4 & B5). repeat split; try congruence.
  rewrite B5, A5, set_next_twice. reflexivity.
Qed.
Lemma appended_refl : forall k d, appended k d d.
Proof. intros k d. exists []. rewrite app_nil_r. split; [reflexivity|]. split; [constructor|]. intros x []. Qed.
Lemma appended_trans : forall k a b c, appended k a b -> appended k b c -> appended k a c.
Proof.
  intros k a b c (n1 & E1 & D1 & P1) (n2 & E2 & D2 & P2). exists (n1 ++ n2)%list. split; [rewrite E2, E1, app_assoc; reflexivity|].
  assert (X : forall x, In x n2 -> ~ exists_in k (ti_name x) a /\ ~ In (ti_name x) (names n1)).
  { intros x Hx. destruct (P2 x Hx) as [P _]. unfold exists_in in P. rewrite E1 in P. unfold names in *. rewrite map_app in P.
    split; intros C; apply P; apply in_or_app; [left|right]; exact C. }
  split.
  - unfold names. rewrite map_app. fold (names n1) (names n2). clear E1 E2 P1 P2.
    induction n1 as [|y n1 IH]; [exact D2|]. cbn. inversion D1; subst. constructor.
    + intros C. apply in_app_or in C. destruct C as [C|C]; [contradiction|]. apply in_map_iff in C. destruct C as (x & Hn & Hx).
      destruct (X x Hx) as [_ Y]. apply Y. left. symmetry. exact Hn.
    + apply IH; [exact H2|]. intros x Hx. destruct (X x Hx) as [Y Z]. split; [exact Y|]. intros C. apply Z. right. exact C.
  - intros x Hx. apply in_app_or in Hx. destruct Hx as [Hx|Hx]; [exact (P1 x Hx)|]. split; [exact (proj1 (X x Hx))|exact (proj2 (P2 x Hx))].
Qed.
Lemma ext_refl : forall d, ext d d.
Proof. intros d. split; [apply grew_refl|]. split; [intros k; apply appended_refl|]. split; [apply rest_refl|reflexivity]. Qed.
Lemma ext_trans : forall a b c, ext a b -> ext b c -> ext a c.
Proof.
  intros a b c (A1 & A2 & A3 & A4) (B1 & B2 & B3 & B4). split; [exact (grew_trans a b c A1 B1)|]. split.
  - intros k. exact (appended_trans k a b c (A2 k) (B2 k)).
  - split; [exact (rest_trans a b c A3 B3)|congruence].
Qed.

Lemma has_name_exists : forall k n d, has_name k n d = true <-> exists_in k n d.
Proof.
  intros k n d. unfold has_name, exists_in, names. rewrite existsb_exists, in_map_iff. split.
  - intros (x & Hx & E). apply seqb_eq in E. exists x. auto.
  - intros (x & E & Hx). exists x. split; [exact Hx|]. apply seqb_eq. exact E.
Qed.
Lemma exists_appended : forall k n d d', appended k d d' -> exists_in k n d -> exists_in k n d'.
Proof. intros k n d d' (new & E & _) H. unfold exists_in, names in *. rewrite E, map_app. apply in_or_app. left. exact H. Qed.

Lemma next_handle_tget : forall k d, tget k (snd (next_handle d)) = tget k d.
Proof. intros k d. destruct d, k; reflexivity. Qed.
Lemma next_handle_rest : forall d, rest_same d (snd (next_handle d)) /\ dr_objects (snd (next_handle d)) = dr_objects d.
Proof. intros d. destruct d as [h]. repeat split; try reflexivity. destruct h; reflexivity. Qed.
Lemma tset_rest : forall k l d, rest_same d (tset k l d) /\ dr_objects (tset k l d) = dr_objects d.
Proof. intros k l d. destruct d as [h]. destruct k; repeat split; try reflexivity; destruct h; reflexivity. Qed.

(** One default entry for a name that is not there. *)
Lemma add_default_ext : forall k n d d1,
  ~ exists_in k n d -> ext (snd (next_handle d)) d1 -> tget k d1 = tget k d ->
  ext d (push_item k (give (next_of d) (default_item k n)) d1).
Proof.
  intros k n d d1 Hn (G & A & R & O) Ek. unfold push_item. set (x := give (next_of d) (default_item k n)).
  split; [|split].
  - apply (grew_alloc d d1 (tset k (tget k d1 ++ [x]) d1) [next_of d] G).
    + apply next_tset.
    + intros h. pose proof (count_tset k (tget k d1 ++ [x])%list d1 h) as C. rewrite map_app, count_occ_app in C. change (map ti_handle [x]) with [next_of d] in C. lia.
    + intros h. apply count_one.
  - intros k'. destruct (tkind_dec k k') as [E|E].
    + subst k'. exists [x]. rewrite tget_tset_same, Ek. split; [reflexivity|]. split; [repeat constructor; intros []|].
      intros y [Hy|[]]. subst y. split; [exact Hn|]. exists (next_of d). reflexivity.
    + destruct (A k') as (new & E1 & D1 & P1). exists new. rewrite tget_tset_other by exact E. rewrite E1, next_handle_tget. split; [reflexivity|].
      split; [exact D1|]. intros y Hy. destruct (P1 y Hy) as [Q1 Q2]. split; [|exact Q2]. unfold exists_in in *. rewrite next_handle_tget in Q1. exact Q1.
  - destruct (next_handle_rest d) as [R0 O0]. destruct (tset_rest k (tget k d1 ++ [x]) d1) as [R2 O2].
    split; [|rewrite O2, O, O0; reflexivity]. exact (rest_trans _ _ _ (rest_trans _ _ _ R0 R) R2).
Qed.

Lemma next_handle_pair : forall d, next_handle d = (next_of d, snd (next_handle d)).
Proof. reflexivity. Qed.
Lemma ensure_plain_ext : forall k n d, ext d (ensure_plain k n d) /\ exists_in k n (ensure_plain k n d).
Proof.
  intros k n d. unfold ensure_plain. destruct (has_name k n d) eqn:E.
  - split; [apply ext_refl|apply has_name_exists; exact E].
  - assert (Hn : ~ exists_in k n d) by (intros C; apply has_name_exists in C; congruence).
    unfold add_plain. rewrite next_handle_pair. split.
    + apply add_default_ext; [exact Hn|apply ext_refl|apply next_handle_tget].
    + unfold push_item, exists_in, names. rewrite tget_tset_same, map_app. apply in_or_app. right. left. reflexivity.
Qed.
Lemma appended_same : forall k d d', tget k d' = tget k d -> appended k d d'.
Proof. intros k d d' E. exists []. rewrite app_nil_r. split; [exact E|]. split; [constructor|]. intros x []. Qed.
Lemma ensure_plain_other : forall k k' n d, k <> k' -> tget k' (ensure_plain k n d) = tget k' d.
Proof.
  intros k k' n d H. unfold ensure_plain. destruct (has_name k n d); [reflexivity|]. unfold add_plain. rewrite next_handle_pair. unfold push_item.
  rewrite tget_tset_other by exact H. apply next_handle_tget.
Qed.
Lemma ensure_layer_ext : forall n d, ext d (ensure_layer n d) /\ exists_in TLayer n (ensure_layer n d).
Proof.
  intros n d. unfold ensure_layer. destruct (has_name TLayer n d) eqn:E.
  - split; [apply ext_refl|apply has_name_exists; exact E].
  - assert (Hn : ~ exists_in TLayer n d) by (intros C; apply has_name_exists in C; congruence).
    unfold add_layer. rewrite next_handle_pair. unfold push_layer. split.
    + apply add_default_ext; [exact Hn|apply ensure_plain_ext|]. rewrite ensure_plain_other by discriminate. apply next_handle_tget.
    + unfold push_item, exists_in, names. rewrite tget_tset_same, map_app. apply in_or_app. right. left. reflexivity.
Qed.
Lemma ensure_ext : forall k n d, ext d (ensure k n d) /\ exists_in k n (ensure k n d).
Proof. intros k n d. destruct k; try apply ensure_plain_ext. apply ensure_layer_ext. Qed.
Lemma ensure_all_ext : forall k l d, ext d (ensure_all k l d) /\ (forall n, In n l -> exists_in k n (ensure_all k l d)).
Proof.
  intros k l. induction l as [|m l IH]; intros d.
  - split; [apply ext_refl|]. intros n [].
  - change (ensure_all k (m :: l) d) with (ensure_all k l (ensure k m d)). destruct (ensure_ext k m d) as [X Y].
    destruct (IH (ensure k m d)) as [Z W]. split; [exact (ext_trans _ _ _ X Z)|]. intros n [E|Hn]; [|exact (W n Hn)]. subst n.
    apply (exists_appended k m (ensure k m d)); [apply Z|exact Y].
Qed.
(** Ensuring what is there does nothing. *)
Lemma ensure_present : forall k n d, exists_in k n d -> ensure k n d = d.
Proof.
  intros k n d H. apply has_name_exists in H. destruct k; cbn [ensure]; unfold ensure_plain, ensure_layer; rewrite H; reflexivity.
Qed.
Lemma ensure_all_present : forall k l d, (forall n, In n l -> exists_in k n d) -> ensure_all k l d = d.
Proof.
  intros k l. induction l as [|m l IH]; intros d H; [reflexivity|].
  change (ensure_all k (m :: l) d) with (ensure_all k l (ensure k m d)). rewrite ensure_present by (apply H; left; reflexivity).
  apply IH. intros n Hn. apply H. right. exact Hn.
Qed.
(** The names of new entries are those asked for (or CONTINUOUS, for the line type of a new layer). *)
Definition new_names (k : tkind) (d d' : drawing) (l : list rstring) : Prop :=
  forall n, exists_in k n d' -> exists_in k n d \/ In n l.
Lemma add_plain_tget : forall k k' x d, tget k' (add_plain k x d) = if tkind_eqb k k' then (tget k' d ++ [give (next_of d) x])%list else tget k' d.
Proof.
  intros k k' x d. unfold add_plain. rewrite next_handle_pair. unfold push_item. destruct (tkind_dec k k') as [E|E].
  - subst k'. rewrite tget_tset_same, next_handle_tget. destruct k; reflexivity.
  - rewrite tget_tset_other by exact E. rewrite next_handle_tget. destruct k, k'; try reflexivity; contradiction E; reflexivity.
Qed.
Lemma ensure_plain_names : forall k n k' d, new_names k' d (ensure_plain k n d) (if tkind_eqb k k' then [n] else []).
Proof.
  intros k n k' d m H. unfold ensure_plain in H. destruct (has_name k n d); [left; exact H|]. unfold exists_in in H. rewrite add_plain_tget in H.
  destruct (tkind_eqb k k'); [|left; exact H]. unfold names in H. rewrite map_app in H. apply in_app_or in H. destruct H as [H|H]; [left; exact H|right; exact H].
Qed.
Lemma tkind_eqb_eq : forall a b, tkind_eqb a b = true <-> a = b.
Proof. intros a b. destruct a, b; cbn; split; congruence. Qed.
Lemma tkind_eqb_refl : forall a, tkind_eqb a a = true.
Proof. intros a. destruct a; reflexivity. Qed.
Lemma ensure_names : forall k n k' d,
  new_names k' d (ensure k n d) (if tkind_eqb k k' then [n] else if tkind_eqb k TLayer && tkind_eqb k' TLineType then [str "CONTINUOUS"] else []).
Proof.
  intros k n k' d m H. destruct (tkind_dec k TLayer) as [E|E].
  - subst k. cbn [ensure] in H. unfold ensure_layer in H. destruct (has_name TLayer n d); [left; exact H|].
    unfold add_layer in H. rewrite next_handle_pair in H. unfold push_layer, push_item in H.
    destruct (tkind_dec TLayer k') as [E|E].
    + subst k'. unfold exists_in, names in *. rewrite tget_tset_same, map_app, ensure_plain_other, next_handle_tget in H by discriminate.
      apply in_app_or in H. destruct H as [H|[H|[]]]; [left; exact H|right; left; exact H].
    + unfold exists_in in H. rewrite tget_tset_other in H by exact E. apply ensure_plain_names in H.
      destruct H as [H|H]; [left; unfold exists_in in *; rewrite next_handle_tget in H; exact H|]. right.
      destruct k'; try (destruct H; fail). exact H.
  - assert (X : ensure k n d = ensure_plain k n d) by (destruct k; try reflexivity; contradiction E; reflexivity). rewrite X in H.
    apply ensure_plain_names in H. destruct H as [H|H]; [left; exact H|]. right. destruct (tkind_eqb k k'); [exact H|destruct H].
Qed.
Lemma new_names_refl : forall k d l, new_names k d d l.
Proof. intros k d l n H. left. exact H. Qed.
Lemma new_names_trans : forall k a b c l m, new_names k a b l -> new_names k b c m -> new_names k a c (l ++ m).
Proof.
  intros k a b c l m H1 H2 n H. destruct (H2 n H) as [H3|H3]; [|right; apply in_or_app; right; exact H3].
  destruct (H1 n H3) as [H4|H4]; [left; exact H4|right; apply in_or_app; left; exact H4].
Qed.
Lemma new_names_incl : forall k a b l m, new_names k a b l -> incl l m -> new_names k a b m.
Proof. intros k a b l m H I n Hn. destruct (H n Hn) as [X|X]; [left; exact X|right; apply I; exact X]. Qed.
Lemma ensure_all_names : forall k l k' d,
  new_names k' d (ensure_all k l d) (if tkind_eqb k k' then l else if tkind_eqb k TLayer && tkind_eqb k' TLineType then [str "CONTINUOUS"] else []).
Proof.
  intros k l k'. induction l as [|m l IH]; intros d; [apply new_names_refl|].
  change (ensure_all k (m :: l) d) with (ensure_all k l (ensure k m d)).
  apply (new_names_incl _ _ _ _ _ (new_names_trans _ _ _ _ _ _ (ensure_names k m k' d) (IH (ensure k m d)))).
  destruct (tkind_eqb k k'); [apply incl_refl|]. intros n Hn. apply in_app_or in Hn. destruct Hn; assumption.
Qed.

(** * Adding *)

Lemma grew_fields : forall d d', grew d d' -> next_of d <= next_of d'.
Proof. intros d d' [H _]. exact H. Qed.
Lemma push_object_spec : forall o d, exists d1,
  ext d d1 /\ push_object o d = set_objects (dr_objects d1 ++ [o]) d1 /\
  match ob_specific o with
  | OLayerFilter l | OLayerIndex l => forall n, In n l -> exists_in TLayer n d1
  | OMLineStyle n => exists_in TLineType n d1 /\ exists_in TStyle n d1
  | OPlotSettings v => exists_in TView v d1
  | OCustom _ => True
  | OOther _ => True
  end.
Proof.
  intros o d. unfold push_object. destruct (ob_specific o) as [n|l|l|v|c|t]; eexists; (split; [|split; [reflexivity|]]).
  - exact (ext_trans _ _ _ (proj1 (ensure_ext TLineType n d)) (proj1 (ensure_ext TStyle n (ensure TLineType n d)))).
  - split; [|apply ensure_ext]. apply (exists_appended _ _ (ensure TLineType n d)); [apply ensure_ext|apply ensure_ext].
  - apply ensure_all_ext.
  - apply ensure_all_ext.
  - apply ensure_all_ext.
  - apply ensure_all_ext.
  - apply ensure_ext.
  - apply ensure_ext.
  - apply ext_refl.
  - exact Logic.I.
  - apply ext_refl.
  - exact Logic.I.
Qed.
Lemma tget_set_objects : forall k l d, tget k (set_objects l d) = tget k d.
Proof. intros k l d. destruct d, k; reflexivity. Qed.
Lemma tget_set_entities : forall k l d, tget k (set_entities l d) = tget k d.
Proof. intros k l d. destruct d, k; reflexivity. Qed.
Lemma tget_set_blocks : forall k l d, tget k (set_blocks l d) = tget k d.
Proof. intros k l d. destruct d, k; reflexivity. Qed.
Lemma tget_set_header : forall k h d, tget k (set_header h d) = tget k d.
Proof. intros k h d. destruct d, k; reflexivity. Qed.
Lemma objects_set_objects : forall l d, dr_objects (set_objects l d) = l.
Proof. intros l d. destruct d. reflexivity. Qed.
Lemma rest_set_objects : forall l d, rest_same d (set_objects l d).
Proof. intros l d. destruct d as [h]. repeat split; try reflexivity; destruct h; reflexivity. Qed.

Lemma appended_via : forall k a b a' b', appended k a b -> tget k a' = tget k a -> tget k b' = tget k b -> appended k a' b'.
Proof.
  intros k a b a' b' (new & E & D & P) Ha Hb. exists new. rewrite Hb, E, Ha. split; [reflexivity|]. split; [exact D|].
  intros x Hx. destruct (P x Hx) as [Q R]. split; [|exact R]. unfold exists_in in *. rewrite Ha. exact Q.
Qed.

Lemma add_object_spec : forall o d, exists d1,
  add_object o d = set_objects (dr_objects d ++ [mk_object (next_of d) (ob_specific o) (ob_fields o)]) d1 /\
  grew d (add_object o d) /\ (forall k, appended k d d1) /\ rest_same d d1 /\
  match ob_specific o with
  | OLayerFilter l | OLayerIndex l => forall n, In n l -> exists_in TLayer n d1
  | OMLineStyle n => exists_in TLineType n d1 /\ exists_in TStyle n d1
  | OPlotSettings v => exists_in TView v d1
  | OCustom _ => True
  | OOther _ => True
  end.
Proof.
  intros o d. unfold add_object. rewrite next_handle_pair. set (x := mk_object (next_of d) (ob_specific o) (ob_fields o)).
  destruct (push_object_spec x (snd (next_handle d))) as (d1 & (G & A & R & O) & E & M). rewrite E.
  destruct (next_handle_rest d) as [R0 O0]. exists d1. rewrite O, O0. split; [reflexivity|]. split; [|split; [|split; [exact (rest_trans _ _ _ R0 R)|exact M]]].
  - apply (grew_alloc d d1 _ [next_of d] G).
    + apply next_set_objects.
    + intros h. pose proof (count_objects (dr_objects d ++ [x])%list d1 h) as C. rewrite O, O0, map_app, count_occ_app in C. change (map ob_handle [x]) with [next_of d] in C. lia.
    + intros h. apply count_one.
  - intros k. apply (appended_via k (snd (next_handle d)) d1); [apply A|symmetry; apply next_handle_tget|reflexivity].
Qed.

Lemma ensure_mline_style_spec : forall n d,
  let d1 := ensure_mline_style n d in
  grew d d1 /\ (forall k, appended k d d1) /\ rest_same d d1 /\
  (exists new, dr_objects d1 = (dr_objects d ++ new)%list) /\
  existsb (is_mline_style n) (dr_objects d1) = true.
Proof.
  intros n d. unfold ensure_mline_style. destruct (existsb (is_mline_style n) (dr_objects d)) eqn:E; cbv zeta.
  - split; [apply grew_refl|]. split; [intros k; apply appended_refl|]. split; [apply rest_refl|]. split; [exists []; rewrite app_nil_r; reflexivity|exact E].
  - destruct (add_object_spec (default_mline_style n) d) as (d1 & X & G & A & R & _). rewrite X in *. split; [exact G|].
    split; [intros k; apply (appended_via k d d1); [apply A|reflexivity|apply tget_set_objects]|].
    split; [exact (rest_trans _ _ _ R (rest_set_objects _ d1))|]. rewrite objects_set_objects. split; [eexists; reflexivity|].
    rewrite existsb_app. cbn [existsb is_mline_style default_mline_style ob_specific]. rewrite seqb_refl. rewrite orb_true_r. reflexivity.
Qed.

Lemma push_entity_spec : forall e d, exists d1,
  push_entity e d = set_entities (dr_entities d ++ [e]) d1 /\ grew d d1 /\ (forall k, appended k d d1) /\ rest_same d d1 /\
  (exists new, dr_objects d1 = (dr_objects d ++ new)%list) /\ refs_exist e d1.
Proof.
  intros e d. unfold push_entity.
  set (d1 := match en_specific e with EMLine s => ensure_mline_style s d | _ => d end).
  assert (X1 : grew d d1 /\ (forall k, appended k d d1) /\ rest_same d d1 /\ (exists new, dr_objects d1 = (dr_objects d ++ new)%list) /\
               match en_specific e with EMLine s => exists o, In o (dr_objects d1) /\ ob_specific o = OMLineStyle s | _ => True end).
  { unfold d1. destruct (en_specific e) as [q l|q l|s|t s|t s|t];
      try (split; [apply grew_refl|]; split; [intros k; apply appended_refl|]; split; [apply rest_refl|]; split; [exists []; rewrite app_nil_r; reflexivity|exact Logic.I]).
    destruct (ensure_mline_style_spec s d) as (A & B & C & D & E). repeat (split; [assumption|]).
    apply existsb_exists in E. destruct E as (o & Ho & Eo). exists o. split; [exact Ho|]. unfold is_mline_style in Eo.
    destruct (ob_specific o); try discriminate Eo. apply seqb_eq in Eo. congruence. }
  clearbody d1. destruct X1 as (G1 & A1 & R1 & O1 & M1).
  set (d2 := match en_specific e with EDimStyled _ s => ensure TDimStyle s d1 | _ => d1 end).
  assert (X2 : ext d1 d2 /\ match en_specific e with EDimStyled _ s => exists_in TDimStyle s d2 | _ => True end).
  { unfold d2. destruct (en_specific e); try (split; [apply ext_refl|exact Logic.I]). apply ensure_ext. }
  clearbody d2. destruct X2 as [X2 M2].
  set (d3 := ensure TLayer (en_layer e) d2). destruct (ensure_ext TLayer (en_layer e) d2) as [X3 M3]. fold d3 in X3, M3. clearbody d3.
  set (d4 := ensure TLineType (en_line_type e) d3). destruct (ensure_ext TLineType (en_line_type e) d3) as [X4 M4]. fold d4 in X4, M4. clearbody d4.
  set (d5 := match en_specific e with ETextStyled _ s => ensure TStyle s d4 | _ => d4 end).
  assert (X5 : ext d4 d5 /\ match en_specific e with ETextStyled _ s => exists_in TStyle s d5 | _ => True end).
  { unfold d5. destruct (en_specific e); try (split; [apply ext_refl|exact Logic.I]). apply ensure_ext. }
  clearbody d5. destruct X5 as [X5 M5].
  pose proof (ext_trans _ _ _ X2 (ext_trans _ _ _ X3 (ext_trans _ _ _ X4 X5))) as X25.
  pose proof (ext_trans _ _ _ X3 (ext_trans _ _ _ X4 X5)) as X35. pose proof (ext_trans _ _ _ X4 X5) as X45.
  destruct X25 as (G & A & R & O). exists d5. destruct (rest_trans _ _ _ R1 R) as (_ & _ & E5 & _). rewrite E5. split; [reflexivity|].
  split; [exact (grew_trans _ _ _ G1 G)|]. split; [intros k; exact (appended_trans _ _ _ _ (A1 k) (A k))|].
  split; [exact (rest_trans _ _ _ R1 R)|]. split; [rewrite O; exact O1|].
  split; [|split].
  - apply (exists_appended _ _ d3); [apply X45|exact M3].
  - apply (exists_appended _ _ d4); [apply X5|exact M4].
  - destruct (en_specific e); try exact Logic.I.
    + rewrite O. exact M1.
    + apply (exists_appended _ _ d2); [apply X35|exact M2].
    + exact M5.
Qed.

(** The handles given to children that have none. *)
Lemma give_children_spec : forall l d l' d', give_children l d = (l', d') ->
  handles d' = handles d /\ (forall k, tget k d' = tget k d) /\ rest_same d d' /\ dr_objects d' = dr_objects d /\ next_of d <= next_of d' /\
  map fst l' = map fst l /\
  (forall h, cn (map snd l') h <= cn (filter (fun x => negb (x =? auto_replace)%N) (map snd l)) h + btw (next_of d) (next_of d') h)%nat.
Proof.
  induction l as [|[f n] l IH]; intros d l' d' E; cbn [give_children] in E.
  - injection E as E1 E2; subst. split; [reflexivity|]. split; [reflexivity|]. split; [apply rest_refl|]. split; [reflexivity|]. split; [lia|].
    split; [reflexivity|]. intros h. cbn. lia.
  - destruct (n =? auto_replace) eqn:En.
    + rewrite next_handle_pair in E. destruct (give_children l (snd (next_handle d))) as [r d2] eqn:E2. injection E as E3 E4; subst l' d'.
      destruct (IH _ _ _ E2) as (H1 & H2 & H3 & H4 & H5 & H6 & H7). rewrite next_handle_next in *. rewrite next_handle_handles in H1.
      destruct (next_handle_rest d) as [R0 O0]. split; [exact H1|]. split; [intros k; rewrite H2; apply next_handle_tget|].
      split; [exact (rest_trans _ _ _ R0 H3)|]. split; [congruence|]. split; [lia|]. split; [cbn; rewrite H6; reflexivity|].
      intros h. specialize (H7 h). cbn [map snd filter]. rewrite En. cbn [negb]. cbn [count_occ].
      rewrite <- (btw_split (next_of d) (next_of d + 1) (next_of d2) h) by lia. rewrite btw_one. destruct (N.eq_dec (next_of d) h); lia.
    + destruct (give_children l d) as [r d2] eqn:E2. injection E as E3 E4; subst l' d'.
      destruct (IH _ _ _ E2) as (H1 & H2 & H3 & H4 & H5 & H6 & H7). repeat (split; [assumption|]). split; [cbn; rewrite H6; reflexivity|].
      intros h. specialize (H7 h). cbn [map snd filter]. rewrite En. cbn [negb]. cbn [count_occ]. destruct (N.eq_dec n h); lia.
Qed.
(** The handles of an entity after it has been numbered. *)
Lemma number_entity_spec : forall e d e' d', number_entity e d = (e', d') ->
  handles d' = handles d /\ (forall k, tget k d' = tget k d) /\ rest_same d d' /\ dr_objects d' = dr_objects d /\ next_of d < next_of d' /\
  en_handle e' = next_of d /\ en_layer e' = en_layer e /\ en_line_type e' = en_line_type e /\ en_fields e' = en_fields e /\
  entity_type (en_specific e') = entity_type (en_specific e) /\ map fst (children (en_specific e')) = map fst (children (en_specific e)) /\
  match en_specific e with EInsert _ _ | EPolyline _ _ => True | s => en_specific e' = s end /\
  (forall h, cn (entity_handles e') h <= cn (numbered e) h + btw (next_of d) (next_of d') h)%nat.
Proof.
  intros e d e' d' E. unfold number_entity in E. rewrite next_handle_pair in E. set (d0 := snd (next_handle d)) in E.
  pose proof (next_handle_next d) as N0. pose proof (next_handle_handles d) as H0. destruct (next_handle_rest d) as [R0 O0].
  assert (T0 : forall k, tget k d0 = tget k d) by (intros k; apply next_handle_tget). fold d0 in N0, H0, R0, O0.
  destruct (en_specific e) as [q l|q l|s|t s|t s|t] eqn:Es; cbn [entity_type children].
  1, 2: rewrite next_handle_pair in E; set (d1 := snd (next_handle d0)) in E; pose proof (next_handle_next d0) as N1; pose proof (next_handle_handles d0) as H1;
    destruct (next_handle_rest d0) as [R1 O1]; assert (T1 : forall k, tget k d1 = tget k d0) by (intros k; apply next_handle_tget);
    fold d1 in N1, H1, R1, O1; destruct (give_children l d1) as [l2 d2] eqn:E2; injection E as E3 E4; subst e' d';
    destruct (give_children_spec _ _ _ _ E2) as (G1 & G2 & G3 & G4 & G5 & G6 & G7);
    cbn [en_handle en_layer en_line_type en_fields en_specific entity_type children];
    (split; [congruence|]); (split; [intros k; rewrite G2, T1; apply T0|]); (split; [exact (rest_trans _ _ _ R0 (rest_trans _ _ _ R1 G3))|]);
    (split; [congruence|]); (split; [lia|]); repeat (split; [first [reflexivity|assumption|exact Logic.I]|]);
    intros h; specialize (G7 h); unfold entity_handles, numbered; cbn [en_handle en_specific]; rewrite Es; cbn [children]; cbn [count_occ];
    change 18446744073709551615 with auto_replace;
    rewrite <- (btw_split (next_of d) (next_of d0) (next_of d2) h) by lia; rewrite <- (btw_split (next_of d0) (next_of d1) (next_of d2) h) by lia;
    rewrite N0 in *; rewrite N1 in *; rewrite !btw_one; destruct (N.eq_dec (next_of d) h), (N.eq_dec (next_of d + 1) h); lia.
  all: injection E as E3 E4; subst e' d'; cbn [en_handle en_layer en_line_type en_fields en_specific entity_type children];
    (split; [congruence|]); (split; [exact T0|]); (split; [exact R0|]); (split; [exact O0|]); (split; [lia|]);
    repeat (split; [reflexivity|]); intros h; unfold entity_handles; cbn [en_handle en_specific count_occ]; rewrite N0, btw_one;
    destruct (N.eq_dec (next_of d) h); lia.
Qed.

Lemma add_entity_spec : forall e d, exists e' d1,
  add_entity e d = set_entities (dr_entities d ++ [e']) d1 /\ next_of d < next_of d1 /\ (forall k, appended k d d1) /\ rest_same d d1 /\
  (exists new, dr_objects d1 = (dr_objects d ++ new)%list) /\ refs_exist e' d1 /\
  en_handle e' = next_of d /\ en_layer e' = en_layer e /\ en_line_type e' = en_line_type e /\ en_fields e' = en_fields e /\
  entity_type (en_specific e') = entity_type (en_specific e) /\ map fst (children (en_specific e')) = map fst (children (en_specific e)) /\
  match en_specific e with EInsert _ _ | EPolyline _ _ => True | s => en_specific e' = s end /\
  (forall h, cn (handles (add_entity e d)) h <= cn (handles d) h + cn (numbered e) h + btw (next_of d) (next_of d1) h)%nat.
Proof.
  intros e d. unfold add_entity. destruct (number_entity e d) as [e' d0] eqn:E.
  destruct (number_entity_spec _ _ _ _ E) as (H & T & R & O & N & X1 & X2 & X3 & X4 & X5 & X6 & X7 & C).
  destruct (push_entity_spec e' d0) as (d1 & P & [NG G] & A & R1 & O1 & F). exists e', d1. rewrite P.
  destruct R as (R1' & R2' & R3' & R4' & R5'). rewrite R3'. split; [reflexivity|]. split; [lia|].
  split; [intros k; apply (appended_via k d0 d1); [apply A|symmetry; apply T|reflexivity]|].
  split; [apply (rest_trans d d0 d1); [repeat split; assumption|exact R1]|]. rewrite <- O. split; [exact O1|]. split; [exact F|].
  repeat (split; [assumption|]). intros h. specialize (C h). specialize (G h).
  pose proof (count_entities (dr_entities d ++ [e'])%list d1 h) as Q. rewrite flat_map_app, count_occ_app in Q. cbn [flat_map] in Q. rewrite app_nil_r in Q.
  destruct R1 as (_ & _ & R3 & _). rewrite R3, R3' in Q. rewrite H in G. rewrite <- (btw_split (next_of d) (next_of d0) (next_of d1) h) by lia. lia.
Qed.

(** * Blocks *)

Lemma number_members_spec : forall l d l' d', number_members l d = (l', d') ->
  handles d' = handles d /\ (forall k, tget k d' = tget k d) /\ rest_same d d' /\ dr_objects d' = dr_objects d /\ next_of d <= next_of d' /\
  Forall2 (fun a b => en_layer b = en_layer a /\ en_line_type b = en_line_type a /\ en_specific b = en_specific a /\ en_fields b = en_fields a) l l' /\
  (forall h, cn (map en_handle l') h <= btw (next_of d) (next_of d') h)%nat.
Proof.
  induction l as [|e l IH]; intros d l' d' E; cbn [number_members] in E.
  - injection E as E1 E2; subst. split; [reflexivity|]. split; [reflexivity|]. split; [apply rest_refl|]. split; [reflexivity|]. split; [lia|].
    split; [constructor|]. intros h. cbn. lia.
  - rewrite next_handle_pair in E. destruct (number_members l (snd (next_handle d))) as [r d2] eqn:E2. injection E as E3 E4; subst l' d'.
    destruct (IH _ _ _ E2) as (H1 & H2 & H3 & H4 & H5 & H6 & H7). rewrite next_handle_next in *. rewrite next_handle_handles in H1.
    destruct (next_handle_rest d) as [R0 O0]. split; [exact H1|]. split; [intros k; rewrite H2; apply next_handle_tget|].
    split; [exact (rest_trans _ _ _ R0 H3)|]. split; [congruence|]. split; [lia|]. split; [constructor; [repeat split|exact H6]|].
    intros h. specialize (H7 h). cbn [map en_handle count_occ].
    rewrite <- (btw_split (next_of d) (next_of d + 1) (next_of d2) h) by lia. rewrite btw_one. destruct (N.eq_dec (next_of d) h); lia.
Qed.
Lemma add_plain_grew : forall k x d, grew d (add_plain k x d).
Proof.
  intros k x d. unfold add_plain. rewrite next_handle_pair. set (d1 := snd (next_handle d)). unfold push_item.
  apply (grew_alloc d d1 _ [next_of d] (grew_refl _)).
  - apply next_tset.
  - intros h. pose proof (count_tset k (tget k d1 ++ [give (next_of d) x])%list d1 h) as C. rewrite map_app, count_occ_app in C. change (map ti_handle [give (next_of d) x]) with [next_of d] in C. lia.
  - intros h. apply count_one.
Qed.
Lemma add_plain_rest : forall k x d, rest_same d (add_plain k x d) /\ dr_objects (add_plain k x d) = dr_objects d.
Proof.
  intros k x d. unfold add_plain. rewrite next_handle_pair. unfold push_item. destruct (next_handle_rest d) as [R0 O0].
  destruct (tset_rest k (tget k (snd (next_handle d)) ++ [give (next_of d) x]) (snd (next_handle d))) as [R1 O1].
  split; [exact (rest_trans _ _ _ R0 R1)|congruence].
Qed.

Lemma ensure_all_records : forall k l d, k <> TBlockRecord -> tget TBlockRecord (ensure_all k l d) = tget TBlockRecord d.
Proof.
  intros k l. induction l as [|n l IH]; intros d H; [reflexivity|]. change (ensure_all k (n :: l) d) with (ensure_all k l (ensure k n d)).
  rewrite IH by exact H. destruct k; cbn [ensure]; try (apply ensure_plain_other; exact H).
  unfold ensure_layer. destruct (has_name TLayer n d); [reflexivity|]. unfold add_layer. rewrite next_handle_pair. unfold push_layer, push_item.
  rewrite tget_tset_other, ensure_plain_other by discriminate. apply next_handle_tget.
Qed.
Lemma push_block_spec : forall b d, exists b' d1,
  push_block b d = set_blocks (dr_blocks d ++ [b']) d1 /\ bl_handle b' = bl_handle b /\ bl_layer b' = bl_layer b /\ bl_name b' = bl_name b /\
  bl_fields b' = bl_fields b /\
  Forall2 (fun x y => en_layer y = en_layer x /\ en_line_type y = en_line_type x /\ en_specific y = en_specific x /\ en_fields y = en_fields x)
    (bl_entities b) (bl_entities b') /\
  next_of d <= next_of d1 /\ rest_same d d1 /\ dr_objects d1 = dr_objects d /\
  (forall k, k <> TBlockRecord -> appended k d d1) /\
  (exists h, tget TBlockRecord d1 = (tget TBlockRecord d ++ [mk_ti h (bl_name b) (ti_fields (default_item TBlockRecord (bl_name b)))])%list) /\
  exists_in TLayer (bl_layer b) d1 /\
  (forall e, In e (bl_entities b) -> exists_in TLayer (en_layer e) d1 /\ exists_in TLineType (en_line_type e) d1) /\
  (forall h, cn (handles d1) h + cn (map en_handle (bl_entities b')) h <= cn (handles d) h + btw (next_of d) (next_of d1) h)%nat.
Proof.
  intros b d. unfold push_block.
  set (d1 := ensure_all TLayer (bl_layer b :: map en_layer (bl_entities b)) d).
  destruct (ensure_all_ext TLayer (bl_layer b :: map en_layer (bl_entities b)) d) as [X1 M1].
  assert (B1 : tget TBlockRecord d1 = tget TBlockRecord d).
  { apply ensure_all_records; discriminate. }
  fold d1 in X1, M1. clearbody d1.
  set (d2 := ensure_all TLineType (map en_line_type (bl_entities b)) d1).
  destruct (ensure_all_ext TLineType (map en_line_type (bl_entities b)) d1) as [X2 M2].
  assert (B2 : tget TBlockRecord d2 = tget TBlockRecord d1).
  { apply ensure_all_records; discriminate. }
  fold d2 in X2, M2. clearbody d2. pose proof (ext_trans _ _ _ X1 X2) as X12.
  set (d3 := add_plain TBlockRecord (default_item TBlockRecord (bl_name b)) d2).
  pose proof (add_plain_grew TBlockRecord (default_item TBlockRecord (bl_name b)) d2) as G3.
  destruct (add_plain_rest TBlockRecord (default_item TBlockRecord (bl_name b)) d2) as [R3 O3].
  assert (T3 : forall k, tget k d3 = if tkind_eqb TBlockRecord k then (tget k d2 ++ [give (next_of d2) (default_item TBlockRecord (bl_name b))])%list else tget k d2)
    by (intros k; apply add_plain_tget).
  fold d3 in G3, R3, O3. clearbody d3.
  destruct (number_members (bl_entities b) d3) as [es d4] eqn:E4.
  destruct (number_members_spec _ _ _ _ E4) as (H4 & T4 & R4 & O4 & N4 & F4 & C4).
  destruct X12 as (G12 & A12 & R12 & O12). pose proof (grew_trans _ _ _ G12 G3) as [N3 G].
  exists (mk_block (bl_handle b) (bl_layer b) (bl_name b) es (bl_fields b)), d4.
  pose proof (rest_trans _ _ _ R12 (rest_trans _ _ _ R3 R4)) as RR. destruct RR as (RR1 & RR2 & RR3 & RR4 & RR5).
  cbn [bl_handle bl_layer bl_name bl_entities bl_fields]. rewrite RR2.
  repeat (split; [reflexivity|]). split; [exact F4|]. split; [lia|]. split; [repeat split; assumption|]. split; [congruence|].
  assert (T : forall k, k <> TBlockRecord -> tget k d4 = tget k d2).
  { intros k Hk. rewrite T4, T3. destruct (tkind_eqb TBlockRecord k) eqn:Ek; [|reflexivity]. apply tkind_eqb_eq in Ek. congruence. }
  split; [intros k Hk; apply (appended_via k d d2); [apply A12|reflexivity|apply T; exact Hk]|].
  split; [exists (next_of d2); rewrite T4, T3; cbn [tkind_eqb]; rewrite B2, B1; reflexivity|].
  assert (L : forall n, In n (bl_layer b :: map en_layer (bl_entities b)) -> exists_in TLayer n d4).
  { intros n Hn. unfold exists_in. rewrite T by discriminate. apply (exists_appended TLayer n d1); [apply X2|]. apply M1. exact Hn. }
  split; [apply L; left; reflexivity|]. split.
  - intros e He. split; [apply L; right; apply in_map; exact He|]. unfold exists_in. rewrite T by discriminate. apply M2. apply in_map. exact He.
  - intros h. specialize (G h). specialize (C4 h). rewrite H4. rewrite <- (btw_split (next_of d) (next_of d3) (next_of d4) h) by lia. lia.
Qed.

Lemma add_block_spec : forall b d, exists b' d1,
  add_block b d = set_blocks (dr_blocks d ++ [b']) d1 /\ bl_handle b' = next_of d /\ bl_layer b' = bl_layer b /\ bl_name b' = bl_name b /\
  bl_fields b' = bl_fields b /\
  Forall2 (fun x y => en_layer y = en_layer x /\ en_line_type y = en_line_type x /\ en_specific y = en_specific x /\ en_fields y = en_fields x)
    (bl_entities b) (bl_entities b') /\
  rest_same d d1 /\ dr_objects d1 = dr_objects d /\
  (forall k, k <> TBlockRecord -> appended k d d1) /\
  (exists h, tget TBlockRecord d1 = (tget TBlockRecord d ++ [mk_ti h (bl_name b) (ti_fields (default_item TBlockRecord (bl_name b)))])%list) /\
  exists_in TLayer (bl_layer b) d1 /\
  (forall e, In e (bl_entities b) -> exists_in TLayer (en_layer e) d1 /\ exists_in TLineType (en_line_type e) d1) /\
  grew d (add_block b d).
Proof.
  intros b d. unfold add_block. rewrite next_handle_pair.
  destruct (push_block_spec (mk_block (next_of d) (bl_layer b) (bl_name b) (bl_entities b) (bl_fields b)) (snd (next_handle d)))
    as (b' & d1 & P & B1 & B2 & B3 & B4 & B5 & N & R & O & A & BR & L1 & L2 & C).
  cbn [bl_handle bl_layer bl_name bl_entities bl_fields] in *. destruct (next_handle_rest d) as [R0 O0].
  exists b', d1. rewrite P. destruct R0 as (R0a & R0b & R0c & R0d & R0e). rewrite R0b.
  split; [reflexivity|]. repeat (split; [assumption|]). split; [apply (rest_trans d (snd (next_handle d))); [repeat split; assumption|exact R]|]. split; [congruence|].
  split; [intros k Hk; apply (appended_via k (snd (next_handle d)) d1); [apply A; exact Hk|symmetry; apply next_handle_tget|reflexivity]|].
  split; [destruct BR as [h BR]; exists h; rewrite BR, next_handle_tget; reflexivity|]. split; [exact L1|]. split; [exact L2|].
  rewrite next_handle_next in *. split; [rewrite next_set_blocks; lia|]. intros h. specialize (C h). rewrite next_set_blocks, next_handle_handles in *.
  pose proof (count_blocks (dr_blocks d ++ [b'])%list d1 h) as Q. rewrite flat_map_app, count_occ_app in Q. cbn [flat_map] in Q. rewrite app_nil_r in Q.
  change (block_handles b') with (bl_handle b' :: map en_handle (bl_entities b')) in Q. cbn [count_occ] in Q. rewrite B1 in Q. destruct R as (_ & R2 & _). rewrite R2, R0b in Q.
  rewrite <- (btw_split (next_of d) (next_of d + 1) (next_of d1) h) by lia. rewrite btw_one. destruct (N.eq_dec (next_of d) h); lia.
Qed.

(** * Table entries *)

Lemma add_layer_spec : forall x d, exists d1,
  add_layer x d = push_item TLayer (give (next_of d) x) d1 /\ ext (snd (next_handle d)) d1 /\ tget TLayer d1 = tget TLayer d /\
  exists_in TLineType (field_string "line_type_name" (ti_fields x)) (add_layer x d).
Proof.
  intros x d. unfold add_layer. rewrite next_handle_pair. unfold push_layer. eexists. split; [reflexivity|]. split; [apply ensure_plain_ext|].
  split; [rewrite ensure_plain_other by discriminate; apply next_handle_tget|]. unfold push_item, exists_in. rewrite tget_tset_other by discriminate.
  apply ensure_plain_ext.
Qed.
Lemma add_table_grew : forall k x d, grew d (add_table k x d).
Proof.
  intros k x d. destruct k; try apply add_plain_grew. cbn [add_table]. destruct (add_layer_spec x d) as (d1 & E & (G & _) & _). rewrite E. unfold push_item.
  apply (grew_alloc d d1 _ [next_of d] G).
  - apply next_tset.
  - intros h. pose proof (count_tset TLayer (tget TLayer d1 ++ [give (next_of d) x])%list d1 h) as C. rewrite map_app, count_occ_app in C. change (map ti_handle [give (next_of d) x]) with [next_of d] in C. lia.
  - intros h. apply count_one.
Qed.
Lemma add_table_last : forall k x d, tget k (add_table k x d) = (tget k d ++ [mk_ti (next_of d) (ti_name x) (ti_fields x)])%list.
Proof.
  intros k x d. destruct k; cbn [add_table]; try (rewrite add_plain_tget; reflexivity).
  destruct (add_layer_spec x d) as (d1 & E & _ & T & _). rewrite E. unfold push_item. rewrite tget_tset_same, T. reflexivity.
Qed.

(** * Removing *)

Lemma remove_item_spec : forall A (l : list A) i, removed l i (fst (remove_item l i)) (snd (remove_item l i)).
Proof.
  intros A l i. unfold remove_item. destruct (Nat.ltb i (length l)) eqn:E.
  - left. apply Nat.ltb_lt in E. revert i E. induction l as [|x l IH]; intros i E; [cbn in E; lia|]. destruct i as [|i].
    + exists [], x, l. repeat split.
    + cbn in E. destruct (IH i ltac:(lia)) as (a & y & b & E1 & E2 & E3 & E4). exists (x :: a), y, b. cbn in *. subst l. rewrite E2. repeat split; [exact E3|].
      rewrite E4. reflexivity.
  - right. apply Nat.ltb_ge in E. repeat split; exact E.
Qed.
Lemma removed_count : forall A (f : A -> list N) l i r l' h, removed l i r l' -> (cn (flat_map f l') h <= cn (flat_map f l) h)%nat.
Proof.
  intros A f l i r l' h [(a & x & b & E1 & _ & _ & E2)|(_ & _ & E)]; subst; [|lia]. rewrite !flat_map_app. cbn [flat_map]. rewrite !count_occ_app. lia.
Qed.
Lemma map_flat : forall A (f : A -> N) l, map f l = flat_map (fun x => [f x]) l.
Proof. intros A f l. induction l as [|x l IH]; [reflexivity|]. cbn. rewrite IH. reflexivity. Qed.
Lemma remove_table_grew : forall k i d, grew d (snd (remove_table k i d)).
Proof.
  intros k i d. unfold remove_table. pose proof (remove_item_spec _ (tget k d) i) as H. destruct (remove_item (tget k d) i) as [r l]. cbn [fst snd] in *.
  split; [rewrite next_tset; lia|]. intros h. pose proof (count_tset k l d h) as C. pose proof (removed_count _ (fun x => [ti_handle x]) _ _ _ _ h H) as Q.
  rewrite <- !map_flat in Q. lia.
Qed.
Lemma remove_block_grew : forall i d, grew d (snd (remove_block i d)).
Proof.
  intros i d. unfold remove_block. pose proof (remove_item_spec _ (dr_blocks d) i) as H. destruct (remove_item (dr_blocks d) i) as [r l]. cbn [fst snd] in *.
  split; [rewrite next_set_blocks; lia|]. intros h. pose proof (count_blocks l d h) as C. pose proof (removed_count _ block_handles _ _ _ _ h H) as Q. lia.
Qed.
Lemma remove_entity_grew : forall i d, grew d (snd (remove_entity i d)).
Proof.
  intros i d. unfold remove_entity. pose proof (remove_item_spec _ (dr_entities d) i) as H. destruct (remove_item (dr_entities d) i) as [r l]. cbn [fst snd] in *.
  split; [rewrite next_set_entities; lia|]. intros h. pose proof (count_entities l d h) as C. pose proof (removed_count _ entity_handles _ _ _ _ h H) as Q. lia.
Qed.
Lemma remove_object_grew : forall i d, grew d (snd (remove_object i d)).
Proof.
  intros i d. unfold remove_object. pose proof (remove_item_spec _ (dr_objects d) i) as H. destruct (remove_item (dr_objects d) i) as [r l]. cbn [fst snd] in *.
  split; [rewrite next_set_objects; lia|]. intros h. pose proof (count_objects l d h) as C. pose proof (removed_count _ (fun x => [ob_handle x]) _ _ _ _ h H) as Q.
  rewrite <- !map_flat in Q. lia.
Qed.
