(** Lemmas about normalizing, histories and looking up. *)
From Verif Require Import Base F64Model SpecModel SpecSpec TableData ObjectData DrawingModel DrawingSpec DrawingProofs.
From Coq Require Import Permutation Sorted.
Open Scope N_scope.
Set Default Goal Selector "!".

(** * Sorting *)

Lemma insert_perm : forall x l, Permutation (x :: l) (insert_sorted x l).
Proof.
  intros x l. induction l as [|y l IH]; [apply Permutation_refl|]. cbn [insert_sorted]. destruct (name_leb (ti_name x) (ti_name y)); [apply Permutation_refl|].
  apply (Permutation_trans (perm_swap y x l)). apply perm_skip. exact IH.
Qed.
Lemma sort_perm : forall l, Permutation l (sort_items l).
Proof.
  induction l as [|x l IH]; [apply Permutation_refl|]. cbn [sort_items]. apply (Permutation_trans (perm_skip x IH)). apply insert_perm.
Qed.
Lemma name_leb_spec : forall a b, name_leb a b = true <-> a = b \/ name_lt a b.
Proof.
  intros a b. split.
  - revert b. induction a as [|x a IH]; intros [|y b] H; cbn [name_leb] in H.
    + left. reflexivity.
    + right. apply (lt_prefix [] y b).
    + discriminate H.
    + destruct (x <? y) eqn:E1; [right; apply (lt_differ [] x y a b); lia|]. destruct (y <? x) eqn:E2; [discriminate H|].
      assert (x = y) by lia. subst y. destruct (IH b H) as [E|E]; [left; congruence|]. right. inversion E; subst.
      * apply (lt_prefix (x :: a)).
      * apply (lt_differ (x :: p)). assumption.
  - intros [E|E].
    + subst b. induction a as [|x a IH]; [reflexivity|]. cbn [name_leb]. rewrite N.ltb_irrefl. exact IH.
    + inversion E as [a0 x0 b0|p x0 y0 a0 b0 Hlt]; subst.
      * clear E. induction a as [|x a IH]; [reflexivity|]. cbn [app name_leb]. rewrite N.ltb_irrefl. exact IH.
      * clear E. induction p as [|x p IH]; cbn [app name_leb].
        -- replace (x0 <? y0) with true by lia. reflexivity.
        -- rewrite N.ltb_irrefl. exact IH.
Qed.
Lemma name_leb_total : forall a b, name_leb a b = false -> name_leb b a = true.
Proof.
  induction a as [|x a IH]; intros [|y b] H; cbn [name_leb] in *; try discriminate H; try reflexivity.
  destruct (x <? y) eqn:E1; [discriminate H|]. destruct (y <? x); [reflexivity|]. apply IH. exact H.
Qed.
Lemma name_leb_trans : forall a b c, name_leb a b = true -> name_leb b c = true -> name_leb a c = true.
Proof.
  induction a as [|x a IH]; intros [|y b] [|z c] H1 H2; cbn [name_leb] in *; try discriminate; try reflexivity.
  destruct (x <? y) eqn:E1, (y <? x) eqn:E2, (y <? z) eqn:E3, (z <? y) eqn:E4; try discriminate;
    destruct (x <? z) eqn:E5, (z <? x) eqn:E6; try lia; try reflexivity. apply (IH b); assumption.
Qed.
Definition item_le (x y : titem) : Prop := name_leb (ti_name x) (ti_name y) = true.
Lemma insert_sorted_ok : forall x l, StronglySorted item_le l -> StronglySorted item_le (insert_sorted x l).
Proof.
  intros x l H. induction H as [|y l H IH F]; [repeat constructor|]. cbn [insert_sorted]. destruct (name_leb (ti_name x) (ti_name y)) eqn:E.
  - constructor; [constructor; assumption|]. constructor; [exact E|]. rewrite Forall_forall in *. intros z Hz. exact (name_leb_trans _ _ _ E (F z Hz)).
  - constructor; [exact IH|]. rewrite Forall_forall in *. intros z Hz. apply (Permutation_in _ (Permutation_sym (insert_perm x l))) in Hz.
    destruct Hz as [Hz|Hz]; [subst z; exact (name_leb_total _ _ E)|exact (F z Hz)].
Qed.
Lemma sort_sorted : forall l, StronglySorted item_le (sort_items l).
Proof. induction l as [|x l IH]; [constructor|]. cbn [sort_items]. apply insert_sorted_ok. exact IH. Qed.
Lemma sort_id : forall l, StronglySorted item_le l -> sort_items l = l.
Proof.
  intros l H. induction H as [|x l H IH F]; [reflexivity|]. cbn [sort_items]. rewrite IH. destruct l as [|y l]; [reflexivity|]. cbn [insert_sorted].
  inversion F as [|? ? Q]; subst. unfold item_le in Q. rewrite Q. reflexivity.
Qed.
Lemma sorted_spec : forall l, StronglySorted item_le l -> sorted_by_name l.
Proof.
  intros l H. induction H as [|x l H IH F]; [constructor|]. constructor; [exact IH|]. rewrite Forall_forall in *. intros y Hy. apply name_leb_spec. exact (F y Hy).
Qed.

(** The names alone decide whether a list is sorted. *)
Lemma sorted_names : forall l l', names l' = names l -> StronglySorted item_le l -> StronglySorted item_le l'.
Proof.
  intros l l' E H. revert l' E. induction H as [|x l H IH F]; intros [|y l'] E; try discriminate E; [constructor|]. injection E as E1 E2.
  constructor; [apply IH; exact E2|]. rewrite Forall_forall in *. intros z Hz. unfold item_le in *. rewrite E1.
  assert (Hn : In (ti_name z) (names l)) by (rewrite <- E2; apply in_map; exact Hz). apply in_map_iff in Hn. destruct Hn as (w & Ew & Hw). rewrite <- Ew. exact (F w Hw).
Qed.

(** * The parts of normalizing *)

Definition prepared (d : drawing) : drawing :=
  let d := set_header (norm_header (dr_header d)) d in
  let d := set_blocks (map norm_block (dr_blocks d)) d in
  set_entities (map norm_entity (dr_entities d)) d.
Definition before_rules (d : drawing) : drawing :=
  let d := ensure_all TAppId (mandatory TAppId) d in
  let d := ensure_all TBlockRecord (mandatory TBlockRecord) d in
  ensure TLayer (hd_current_layer (dr_header d)) d.
Definition rules (d : drawing) : drawing := norm_table TView (norm_table TViewPort (norm_table TStyle (norm_table TLayer d))).
Definition after_rules (order : list rstring) (d : drawing) : drawing :=
  let d := ensure_all TDimStyle (mandatory TDimStyle) d in
  let d := ensure_all TLayer (mandatory TLayer) d in
  let d := ensure_all TLineType (mandatory TLineType) d in
  let d := ensure_all TStyle (mandatory TStyle) d in
  let d := ensure_all TViewPort (mandatory TViewPort) d in
  ensure_ucs order d.
Definition sort_all (d : drawing) : drawing := fold_left (fun d k => sort_table k d) all_tables d.
Lemma normalize_parts : forall order d, normalize order d = sort_all (after_rules order (rules (before_rules (prepared d)))).
Proof. intros order d. unfold normalize, sort_all, after_rules, rules, before_rules, prepared. cbv zeta. cbn [mandatory]. reflexivity. Qed.

Lemma sort_all_tget : forall k d, tget k (sort_all d) = sort_items (tget k d).
Proof. intros k d. destruct d as [hh cc aa bb di la lt ss uu vv vp bl ee oo tt]. destruct k; reflexivity. Qed.
Lemma sort_all_eq : forall d, sort_all d =
  mk_drawing (dr_header d) (dr_classes d) (sort_items (dr_app_ids d)) (sort_items (dr_block_records d)) (sort_items (dr_dim_styles d))
    (sort_items (dr_layers d)) (sort_items (dr_line_types d)) (sort_items (dr_styles d)) (sort_items (dr_ucss d)) (sort_items (dr_views d))
    (sort_items (dr_view_ports d)) (dr_blocks d) (dr_entities d) (dr_objects d) (dr_thumbnail d).
Proof. intros d. destruct d as [hh cc aa bb di la lt ss uu vv vp bl ee oo tt]. reflexivity. Qed.
Lemma norm_fields_none : forall l, norm_fields [] l = l.
Proof. intros l. induction l as [|[n v] l IH]; [reflexivity|]. unfold norm_fields in *. cbn [map]. rewrite IH. reflexivity. Qed.
Lemma norm_item_none : forall k x, field_rules k = [] -> norm_item k x = x.
Proof. intros k x E. unfold norm_item. rewrite E, norm_fields_none. destruct x; reflexivity. Qed.
Lemma map_norm_none : forall k l, field_rules k = [] -> map (norm_item k) l = l.
Proof. intros k l E. rewrite (map_ext _ (fun x => x)); [apply map_id|]. intros x. apply norm_item_none. exact E. Qed.
Lemma rules_tget : forall k d, tget k (rules d) = map (norm_item k) (tget k d).
Proof.
  intros k d. unfold rules, norm_table. destruct d as [hh cc aa bb di la lt ss uu vv vp bl ee oo tt].
  destruct k; cbn [tget tset dr_app_ids dr_block_records dr_dim_styles dr_layers dr_line_types dr_styles dr_ucss dr_views dr_view_ports];
    try reflexivity; symmetry; apply map_norm_none; reflexivity.
Qed.
Lemma rules_rest : forall d, rest_same d (rules d) /\ dr_objects (rules d) = dr_objects d /\ dr_header (rules d) = dr_header d.
Proof. intros d. destruct d as [hh cc aa bb di la lt ss uu vv vp bl ee oo tt]. repeat split. destruct hh; reflexivity. Qed.
Lemma sort_all_rest : forall d, rest_same d (sort_all d) /\ dr_objects (sort_all d) = dr_objects d /\ dr_header (sort_all d) = dr_header d.
Proof. intros d. rewrite sort_all_eq. destruct d as [hh cc aa bb di la lt ss uu vv vp bl ee oo tt]. repeat split. destruct hh; reflexivity. Qed.
Lemma prepared_tget : forall k d, tget k (prepared d) = tget k d.
Proof. intros k d. unfold prepared. rewrite tget_set_entities, tget_set_blocks, tget_set_header. reflexivity. Qed.
Lemma prepared_parts : forall d,
  dr_header (prepared d) = norm_header (dr_header d) /\ dr_blocks (prepared d) = map norm_block (dr_blocks d) /\
  dr_entities (prepared d) = map norm_entity (dr_entities d) /\ dr_objects (prepared d) = dr_objects d /\ dr_classes (prepared d) = dr_classes d /\
  dr_thumbnail (prepared d) = dr_thumbnail d.
Proof. intros d. destruct d as [hh cc aa bb di la lt ss uu vv vp bl ee oo tt]. repeat split. Qed.

Lemma norm_item_handle : forall k x, ti_handle (norm_item k x) = ti_handle x.
Proof. reflexivity. Qed.
Lemma norm_item_name : forall k x, ti_name (norm_item k x) = ti_name x.
Proof. reflexivity. Qed.
Lemma names_norm : forall k l, names (map (norm_item k) l) = names l.
Proof. intros k l. unfold names. rewrite map_map. apply map_ext. intros x. reflexivity. Qed.

(** ** Ensuring, in bulk *)
Lemma ensure_ucs_ext : forall order d, ext d (ensure_ucs order d) /\
  (forall n, In n order -> n <> [] -> exists_in TUcs n (ensure_ucs order d)) /\
  forall k, new_names k d (ensure_ucs order d) (if tkind_eqb TUcs k then filter (fun n => match n with [] => false | _ => true end) order else []).
Proof.
  intros order d. unfold ensure_ucs. set (l := filter _ order). destruct (ensure_all_ext TUcs l d) as [X M]. split; [exact X|]. split.
  - intros n Hn Hne. apply M. apply filter_In. split; [exact Hn|]. destruct n; [contradiction Hne; reflexivity|reflexivity].
  - intros k. pose proof (ensure_all_names TUcs l k d) as H. destruct k; exact H.
Qed.

Lemma set_next_layer : forall n h, hd_current_layer (set_next n h) = hd_current_layer h.
Proof. intros n h. destruct h; reflexivity. Qed.
Lemma rest_layer : forall d d', rest_same d d' -> hd_current_layer (dr_header d') = hd_current_layer (dr_header d).
Proof. intros d d' (_ & _ & _ & _ & E). rewrite E. apply set_next_layer. Qed.
Lemma rest_ucs : forall d d', rest_same d d' -> hd_ucs (dr_header d') = hd_ucs (dr_header d).
Proof. intros d d' (_ & _ & _ & _ & E). rewrite E. destruct (dr_header d); reflexivity. Qed.

Definition first_names (d : drawing) (k : tkind) : list rstring :=
  match k with
  | TAppId | TBlockRecord => mandatory k
  | TLayer => [hd_current_layer (dr_header d)]
  | _ => []
  end.
Lemma before_rules_ext : forall d, ext d (before_rules d) /\
  (forall k n, In n (first_names d k) -> exists_in k n (before_rules d)) /\
  (forall k, new_names k d (before_rules d) (first_names d k ++ if tkind_eqb k TLineType then [str "CONTINUOUS"] else [])).
Proof.
  intros d. unfold before_rules. set (d1 := ensure_all TAppId (mandatory TAppId) d). destruct (ensure_all_ext TAppId (mandatory TAppId) d) as [X1 M1].
  pose proof (fun k => ensure_all_names TAppId (mandatory TAppId) k d) as N1. fold d1 in X1, M1, N1. clearbody d1.
  set (d2 := ensure_all TBlockRecord (mandatory TBlockRecord) d1). destruct (ensure_all_ext TBlockRecord (mandatory TBlockRecord) d1) as [X2 M2].
  pose proof (fun k => ensure_all_names TBlockRecord (mandatory TBlockRecord) k d1) as N2. fold d2 in X2, M2, N2. clearbody d2.
  pose proof (ext_trans _ _ _ X1 X2) as X12. rewrite (rest_layer d d2) by apply X12.
  set (cl := hd_current_layer (dr_header d)). destruct (ensure_ext TLayer cl d2) as [X3 M3]. pose proof (fun k => ensure_names TLayer cl k d2) as N3.
  split; [exact (ext_trans _ _ _ X12 X3)|]. split.
  - intros k n Hn. destruct k; try (destruct Hn; fail).
    + apply (exists_appended _ _ d1); [apply (ext_trans _ _ _ X2 X3)|]. apply M1. exact Hn.
    + apply (exists_appended _ _ d2); [apply X3|]. apply M2. exact Hn.
    + destruct Hn as [E|[]]. subst n. exact M3.
  - intros k. apply (new_names_incl _ _ _ _ _ (new_names_trans _ _ _ _ _ _ (N1 k) (new_names_trans _ _ _ _ _ _ (N2 k) (N3 k)))).
    destruct k; cbn [tkind_eqb andb first_names app]; try apply incl_refl; rewrite ?app_nil_r; apply incl_refl.
Qed.
Definition last_names (order : list rstring) (k : tkind) : list rstring :=
  match k with
  | TAppId | TBlockRecord | TView => []
  | TUcs => filter (fun n => match n with [] => false | _ => true end) order
  | _ => mandatory k
  end.
Lemma after_rules_ext : forall order d, ext d (after_rules order d) /\
  (forall k n, In n (last_names order k) -> exists_in k n (after_rules order d)) /\
  (forall k, new_names k d (after_rules order d) (last_names order k)).
Proof.
  intros order d. unfold after_rules.
  set (d1 := ensure_all TDimStyle (mandatory TDimStyle) d). destruct (ensure_all_ext TDimStyle (mandatory TDimStyle) d) as [X1 M1].
  pose proof (fun k => ensure_all_names TDimStyle (mandatory TDimStyle) k d) as N1. fold d1 in X1, M1, N1. clearbody d1.
  set (d2 := ensure_all TLayer (mandatory TLayer) d1). destruct (ensure_all_ext TLayer (mandatory TLayer) d1) as [X2 M2].
  pose proof (fun k => ensure_all_names TLayer (mandatory TLayer) k d1) as N2. fold d2 in X2, M2, N2. clearbody d2.
  set (d3 := ensure_all TLineType (mandatory TLineType) d2). destruct (ensure_all_ext TLineType (mandatory TLineType) d2) as [X3 M3].
  pose proof (fun k => ensure_all_names TLineType (mandatory TLineType) k d2) as N3. fold d3 in X3, M3, N3. clearbody d3.
  set (d4 := ensure_all TStyle (mandatory TStyle) d3). destruct (ensure_all_ext TStyle (mandatory TStyle) d3) as [X4 M4].
  pose proof (fun k => ensure_all_names TStyle (mandatory TStyle) k d3) as N4. fold d4 in X4, M4, N4. clearbody d4.
  set (d5 := ensure_all TViewPort (mandatory TViewPort) d4). destruct (ensure_all_ext TViewPort (mandatory TViewPort) d4) as [X5 M5].
  pose proof (fun k => ensure_all_names TViewPort (mandatory TViewPort) k d4) as N5. fold d5 in X5, M5, N5. clearbody d5.
  destruct (ensure_ucs_ext order d5) as (X6 & M6 & N6).
  pose proof (ext_trans _ _ _ X5 X6) as X56. pose proof (ext_trans _ _ _ X4 X56) as X46. pose proof (ext_trans _ _ _ X3 X46) as X36.
  pose proof (ext_trans _ _ _ X2 X36) as X26. split; [exact (ext_trans _ _ _ X1 X26)|]. split.
  - intros k n Hn. destruct k; cbn [last_names] in Hn; try (destruct Hn; fail).
    + apply (exists_appended _ _ d1); [apply X26|]. apply M1. exact Hn.
    + apply (exists_appended _ _ d2); [apply X36|]. apply M2. exact Hn.
    + apply (exists_appended _ _ d3); [apply X46|]. apply M3. exact Hn.
    + apply (exists_appended _ _ d4); [apply X56|]. apply M4. exact Hn.
    + apply filter_In in Hn. destruct Hn as [Hn Hne]. apply M6; [exact Hn|]. intros C. subst n. discriminate Hne.
    + apply (exists_appended _ _ d5); [apply X6|]. apply M5. exact Hn.
  - intros k.
    apply (new_names_incl _ _ _ _ _ (new_names_trans _ _ _ _ _ _ (N1 k) (new_names_trans _ _ _ _ _ _ (N2 k) (new_names_trans _ _ _ _ _ _ (N3 k)
      (new_names_trans _ _ _ _ _ _ (N4 k) (new_names_trans _ _ _ _ _ _ (N5 k) (N6 k))))))).
    destruct k; cbn [tkind_eqb andb last_names app]; rewrite ?app_nil_r; try apply incl_refl.
    intros x Hx. cbn in *. intuition.
Qed.

(** ** What a normalized table consists of *)

Lemma norm_item_normalized : forall k x, normalized k x (norm_item k x).
Proof.
  intros k x. unfold normalized. cbn [norm_item ti_handle ti_name ti_fields]. split; [reflexivity|]. split; [reflexivity|].
  unfold norm_fields. induction (ti_fields x) as [|[n v] l IH]; [constructor|]. cbn [map]. constructor; [|exact IH]. cbn [fst snd]. split; [reflexivity|].
  assert (NP : forall d, f64_le0 d = true <-> not_positive d).
  { intros d. unfold f64_le0, f64_is_nan, not_positive. generalize (d mod 2 ^ 63). intros m. lia. }
  set (r := assoc_slot n (field_rules k)).
  assert (R : forall w, repaired k n v w -> match r with Some f => f v | None => v end = w).
  { intros w H. subst r. inversion H; subst.
    - reflexivity.
    - cbn. destruct H0; subst; reflexivity.
    - apply NP in H0. cbn [In] in H1. repeat (destruct H1 as [H1|H1]; [injection H1 as E1 E2 E3; subst; cbn; unfold ensure_positive; rewrite H0; reflexivity|]). destruct H1.
    - cbn [In] in H1. repeat (destruct H1 as [H1|H1]; [injection H1 as E1 E2; subst; cbn; replace (z <=? 0)%Z with true by lia; reflexivity|]). destruct H1. }
  assert (Q : repaired k n v (match r with Some f => f v | None => v end) \/ match r with Some f => f v | None => v end = v).
  { subst r. destruct (assoc_slot n (field_rules k)) as [f|] eqn:E; [|right; reflexivity].
    assert (I : In (n, f) (field_rules k)).
    { revert E. generalize (field_rules k). clear. induction l as [|[m g] l IH]; cbn [assoc_slot]; [discriminate|]. destruct (String.eqb n m) eqn:En.
      - apply String.eqb_eq in En. intros E. injection E as E. subst. left. reflexivity.
      - intros E. right. apply IH. exact E. }
    assert (F : forall dflt, In (k, n, dflt) [(TStyle, "text_height", 0); (TStyle, "width_factor", 4607182418800017408);
                  (TView, "view_height", 4607182418800017408); (TView, "view_width", 4607182418800017408); (TView, "lens_length", 4607182418800017408);
                  (TViewPort, "snap_spacing.x", 4607182418800017408); (TViewPort, "snap_spacing.y", 4607182418800017408);
                  (TViewPort, "snap_spacing.z", 4607182418800017408); (TViewPort, "grid_spacing.x", 4607182418800017408);
                  (TViewPort, "grid_spacing.y", 4607182418800017408); (TViewPort, "grid_spacing.z", 4607182418800017408);
                  (TViewPort, "view_height", 4607182418800017408); (TViewPort, "view_port_aspect_ratio", 4607182418800017408);
                  (TViewPort, "lens_length", 4632233691727265792)]%string -> repaired k n v (positive_field dflt v) \/ positive_field dflt v = v).
    { intros dflt Hd. destruct v as [b|z|d|s|b|m|g|x0|l0]; try (right; reflexivity). cbn [positive_field]. unfold ensure_positive.
      destruct (f64_le0 d) eqn:Ed; [left|right; reflexivity]. apply NP in Ed. exact (rep_f64 k n d dflt Ed Hd). }
    assert (G : forall dflt, k = TViewPort -> In (n, dflt) [("ucs_icon"%string, 3%Z); ("circle_sides"%string, 1000%Z)] ->
                  repaired k n v (positive_int_field dflt v) \/ positive_int_field dflt v = v).
    { intros dflt Hk Hd. subst k. destruct v as [b|z|d|s|b|m|g|x0|l0]; try (right; reflexivity). cbn [positive_int_field].
      destruct (z <=? 0)%Z eqn:Ez; [left|right; reflexivity]. apply rep_int; [lia|exact Hd]. }
    clear E R NP. destruct k; cbn [field_rules In] in I; try contradiction.
    - destruct I as [I|[I|[]]]; injection I as E1 E2; subst n f.
      + destruct v as [b|z|d|s|b|m|g|x0|l0]; try (right; reflexivity). destruct s as [|a s]; [left; apply rep_line_type|right; reflexivity].
      + destruct v as [b|z|d|s|b|m|g|x0|l0]; try (right; reflexivity).
        destruct ((z =? 0)%Z || (z =? 256)%Z) eqn:Ez; [|right; reflexivity]. left. apply rep_color. lia.
    - repeat (destruct I as [I|I]; [injection I as E1 E2; subst n f; apply F; cbn [In]; repeat (try (left; reflexivity); right)|]). contradiction.
    - repeat (destruct I as [I|I]; [injection I as E1 E2; subst n f; apply F; cbn [In]; repeat (try (left; reflexivity); right)|]). contradiction.
    - do 9 (destruct I as [I|I]; [injection I as E1 E2; subst n f; apply F; cbn [In]; repeat (try (left; reflexivity); right)|]).
      repeat (destruct I as [I|I]; [injection I as E1 E2; subst n f; apply G; [reflexivity|cbn [In]; repeat (try (left; reflexivity); right)]|]). contradiction. }
  destruct Q as [Q|Q]; [left; exact Q|]. right. split; [exact Q|]. intros w H. rewrite <- (R w H). exact Q.
Qed.

(** ** What normalizing does to the handles *)

Lemma same_handles_grew : forall d d', next_of d' = next_of d -> (forall h, cn (handles d') h = cn (handles d) h) -> grew d d'.
Proof. intros d d' N H. split; [lia|]. intros h. rewrite H. lia. Qed.
Lemma prepared_grew : forall d, grew d (prepared d).
Proof.
  intros d. apply same_handles_grew.
  - unfold prepared. rewrite next_set_entities, next_set_blocks. destruct d as [hh cc aa bb di la lt ss uu vv vp bl ee oo tt]. reflexivity.
  - intros h. f_equal. unfold handles, table_handles. destruct d as [hh cc aa bb di la lt ss uu vv vp bl ee oo tt].
    cbn [prepared set_header set_blocks set_entities dr_app_ids dr_block_records dr_dim_styles dr_layers dr_line_types dr_styles dr_ucss dr_views
      dr_view_ports dr_blocks dr_entities dr_objects]. do 2 f_equal; [|f_equal].
    + induction bl as [|b bl IH]; [reflexivity|]. cbn [map flat_map]. rewrite IH. reflexivity.
    + induction ee as [|e ee IH]; [reflexivity|]. cbn [map flat_map]. rewrite IH. reflexivity.
Qed.
Lemma map_handle_norm : forall k l, map ti_handle (map (norm_item k) l) = map ti_handle l.
Proof. intros k l. rewrite map_map. apply map_ext. reflexivity. Qed.
Lemma norm_table_grew : forall k d, grew d (norm_table k d).
Proof.
  intros k d. unfold norm_table. apply same_handles_grew; [apply next_tset|]. intros h. pose proof (count_tset k (map (norm_item k) (tget k d)) d h) as C.
  rewrite map_handle_norm in C. lia.
Qed.
Lemma sort_table_grew : forall k d, grew d (sort_table k d).
Proof.
  intros k d. unfold sort_table. apply same_handles_grew; [apply next_tset|]. intros h. pose proof (count_tset k (sort_items (tget k d)) d h) as C.
  pose proof (proj1 (Permutation_count_occ N.eq_dec _ _) (Permutation_map ti_handle (sort_perm (tget k d))) h) as Q. lia.
Qed.
Lemma sort_all_grew : forall d, grew d (sort_all d).
Proof.
  intros d. unfold sort_all. generalize all_tables. intros l. revert d. induction l as [|k l IH]; intros d; [apply grew_refl|]. cbn [fold_left].
  exact (grew_trans _ _ _ (sort_table_grew k d) (IH _)).
Qed.
Lemma rules_grew : forall d, grew d (rules d).
Proof.
  intros d. unfold rules. apply (grew_trans _ (norm_table TLayer d)); [apply norm_table_grew|].
  apply (grew_trans _ (norm_table TStyle (norm_table TLayer d))); [apply norm_table_grew|].
  apply (grew_trans _ (norm_table TViewPort (norm_table TStyle (norm_table TLayer d)))); apply norm_table_grew.
Qed.
Lemma normalize_grew : forall order d, grew d (normalize order d).
Proof.
  intros order d. rewrite normalize_parts. apply (grew_trans _ _ _ (prepared_grew d)).
  apply (grew_trans _ _ _ (proj1 (proj1 (before_rules_ext (prepared d))))).
  apply (grew_trans _ _ _ (rules_grew _)). apply (grew_trans _ _ _ (proj1 (proj1 (after_rules_ext order _)))). apply sort_all_grew.
Qed.

(** ** What normalizing does to the tables *)

Lemma NoDup_app_intro : forall A (a b : list A), NoDup a -> NoDup b -> (forall x, In x a -> ~ In x b) -> NoDup (a ++ b).
Proof.
  intros A a b Ha Hb H. induction Ha as [|x a Hx Ha IH]; [exact Hb|]. cbn. constructor.
  - intros C. apply in_app_or in C. destruct C as [C|C]; [contradiction|]. exact (H x (or_introl eq_refl) C).
  - apply IH. intros y Hy. apply H. right. exact Hy.
Qed.
Lemma incl_first : forall d k, incl (first_names (prepared d) k ++ if tkind_eqb k TLineType then [str "CONTINUOUS"] else []) (required d k).
Proof.
  intros d k. destruct (prepared_parts d) as (H & _). destruct k; cbn [first_names tkind_eqb required]; rewrite ?H; intros x Hx; cbn in *; intuition.
Qed.
Lemma incl_last : forall order d k, possible_order order d -> incl (last_names order k) (required d k).
Proof.
  intros order d k [_ P] x Hx. unfold required. apply in_or_app. destruct k; cbn [last_names] in Hx; try (left; exact Hx); try destruct Hx.
  right. apply filter_In. apply filter_In in Hx. destruct Hx as [Hx Hne]. split; [apply P; exact Hx|exact Hne].
Qed.

Lemma normalize_table : forall order d k, possible_order order d ->
  exists new, Permutation (tget k (normalize order d)) (map (norm_item k) (tget k d) ++ new) /\ NoDup (names new) /\
    (forall x, In x new -> ~ exists_in k (ti_name x) d /\ In (ti_name x) (required d k) /\
       exists y, made_for k (ti_name x) y /\ (x = norm_item k y \/ x = y /\ In (ti_name x) (last_names order k))).
Proof.
  intros order d k PO. rewrite normalize_parts. set (da := before_rules (prepared d)). set (dz := after_rules order (rules da)).
  destruct (before_rules_ext (prepared d)) as ((_ & A1 & _) & _ & N1). fold da in A1, N1.
  destruct (after_rules_ext order (rules da)) as ((_ & A2 & _) & _ & N2). fold dz in A2, N2.
  destruct (A1 k) as (new1 & E1 & D1 & P1). destruct (A2 k) as (new2 & E2 & D2 & P2). rewrite prepared_tget in E1. rewrite rules_tget, E1, map_app in E2.
  exists (map (norm_item k) new1 ++ new2)%list. rewrite sort_all_tget, E2. split; [rewrite app_assoc; apply Permutation_sym; apply sort_perm|].
  assert (X : forall n, exists_in k n (rules da) <-> exists_in k n d \/ In n (names new1)).
  { intros n. unfold exists_in. rewrite rules_tget, names_norm, E1. unfold names. rewrite map_app. split; [apply in_app_or|apply in_or_app]. }
  split.
  - unfold names at 1. rewrite map_app. fold (names (map (norm_item k) new1)) (names new2). rewrite names_norm.
    apply NoDup_app_intro; [exact D1|exact D2|]. intros n H1 H2. apply in_map_iff in H2. destruct H2 as (x & En & Hx). destruct (P2 x Hx) as [Q _].
    apply Q. apply X. right. rewrite En. exact H1.
  - intros x Hx. apply in_app_or in Hx. destruct Hx as [Hx|Hx].
    + apply in_map_iff in Hx. destruct Hx as (y & Ey & Hy). subst x. cbn [ti_name norm_item]. destruct (P1 y Hy) as [Q M].
      assert (Q' : ~ exists_in k (ti_name y) d) by (unfold exists_in in *; rewrite prepared_tget in Q; exact Q).
      split; [exact Q'|]. split; [|exists y; split; [exact M|left; reflexivity]].
      assert (Hin : exists_in k (ti_name y) da) by (unfold exists_in, names; rewrite E1, map_app; apply in_or_app; right; apply in_map; exact Hy).
      destruct (N1 k _ Hin) as [C|C]; [contradiction|]. exact (incl_first d k _ C).
    + destruct (P2 x Hx) as [Q M]. split; [intros C; apply Q; apply X; left; exact C|].
      assert (Hin : exists_in k (ti_name x) dz) by (unfold exists_in, names; rewrite E2, map_app; apply in_or_app; right; apply in_map; exact Hx).
      destruct (N2 k _ Hin) as [C|C]; [contradiction|]. split; [exact (incl_last order d k PO _ C)|]. exists x. split; [exact M|right; split; [reflexivity|exact C]].
Qed.

Lemma exists_perm : forall k n d l, Permutation (tget k d) l -> In n (names l) -> exists_in k n d.
Proof. intros k n d l P H. unfold exists_in. apply (Permutation_in _ (Permutation_sym (Permutation_map ti_name P))). exact H. Qed.
Lemma exists_sort_all : forall k n d, exists_in k n (sort_all d) <-> exists_in k n d.
Proof.
  intros k n d. unfold exists_in, names. rewrite sort_all_tget. pose proof (Permutation_map ti_name (sort_perm (tget k d))) as P.
  split; apply Permutation_in; [apply Permutation_sym|]; exact P.
Qed.
Lemma exists_rules : forall k n d, exists_in k n (rules d) <-> exists_in k n d.
Proof. intros k n d. unfold exists_in. rewrite rules_tget, names_norm. reflexivity. Qed.
Lemma normalize_has : forall order d k n, possible_order order d -> In n (required d k) -> exists_in k n (normalize order d).
Proof.
  intros order d k n [_ PO] H. rewrite normalize_parts. apply exists_sort_all.
  destruct (before_rules_ext (prepared d)) as (_ & M1 & _). destruct (after_rules_ext order (rules (before_rules (prepared d)))) as ((_ & A2 & _) & M2 & _).
  assert (F : In n (first_names (prepared d) k) -> exists_in k n (after_rules order (rules (before_rules (prepared d))))).
  { intros Hn. apply (exists_appended k n (rules (before_rules (prepared d)))); [apply A2|]. apply exists_rules. apply M1. exact Hn. }
  unfold required in H. apply in_app_or in H. destruct (prepared_parts d) as (PH & _). destruct k; destruct H as [H|H]; try (destruct H; fail); try (apply F; exact H); try (apply M2; exact H).
  - apply F. cbn [first_names]. rewrite PH. exact H.
  - apply M2. cbn [last_names]. apply filter_In. apply filter_In in H. destruct H as [H1 H2]. split; [apply PO; exact H1|exact H2].
Qed.
Lemma normalize_rest : forall order d,
  exists n, dr_header (normalize order d) = set_next n (norm_header (dr_header d)) /\ dr_blocks (normalize order d) = map norm_block (dr_blocks d) /\
  dr_entities (normalize order d) = map norm_entity (dr_entities d) /\ dr_objects (normalize order d) = dr_objects d /\
  dr_classes (normalize order d) = dr_classes d /\ dr_thumbnail (normalize order d) = dr_thumbnail d.
Proof.
  intros order d. rewrite normalize_parts. destruct (prepared_parts d) as (P1 & P2 & P3 & P4 & P5 & P6).
  destruct (before_rules_ext (prepared d)) as ((_ & _ & R1 & O1) & _). set (da := before_rules (prepared d)) in *.
  destruct (rules_rest da) as (R2 & O2 & _). destruct (after_rules_ext order (rules da)) as ((_ & _ & R3 & O3) & _). set (dz := after_rules order (rules da)) in *.
  destruct (sort_all_rest dz) as (R4 & O4 & _). pose proof (rest_trans _ _ _ R1 (rest_trans _ _ _ R2 (rest_trans _ _ _ R3 R4))) as (A1 & A2 & A3 & A4 & A5).
  exists (next_of (sort_all dz)). rewrite A5, A2, A3, A1, A4, P1, P2, P3, P5, P6. repeat split. congruence.
Qed.
Lemma normalize_sorted : forall order d k, StronglySorted item_le (tget k (normalize order d)).
Proof. intros order d k. rewrite normalize_parts, sort_all_tget. apply sort_sorted. Qed.

(** ** Normalizing again *)

Lemma drawing_eq : forall d d', dr_header d = dr_header d' -> dr_classes d = dr_classes d' -> (forall k, tget k d = tget k d') -> dr_blocks d = dr_blocks d' ->
  dr_entities d = dr_entities d' -> dr_objects d = dr_objects d' -> dr_thumbnail d = dr_thumbnail d' -> d = d'.
Proof.
  intros d d' H1 H2 H3 H4 H5 H6 H7.
  pose proof (H3 TAppId) as T1. pose proof (H3 TBlockRecord) as T2. pose proof (H3 TDimStyle) as T3. pose proof (H3 TLayer) as T4. pose proof (H3 TLineType) as T5.
  pose proof (H3 TStyle) as T6. pose proof (H3 TUcs) as T7. pose proof (H3 TView) as T8. pose proof (H3 TViewPort) as T9. clear H3.
  destruct d as [hh cc aa bb di la lt ss uu vv vp bl ee oo tt], d' as [hh' cc' aa' bb' di' la' lt' ss' uu' vv' vp' bl' ee' oo' tt'].
  cbn in *. subst. reflexivity.
Qed.
(** A drawing to which normalizing only applies the rules. *)
Definition settled (order : list rstring) (d : drawing) : Prop :=
  norm_header (dr_header d) = dr_header d /\ map norm_block (dr_blocks d) = dr_blocks d /\ map norm_entity (dr_entities d) = dr_entities d /\
  (forall k n, In n (first_names d k) -> exists_in k n d) /\ (forall k n, In n (last_names order k) -> exists_in k n d) /\
  (forall k, StronglySorted item_le (tget k d)).
Lemma normalize_settled : forall order d, settled order d -> normalize order d = rules d.
Proof.
  intros order d (H1 & H2 & H3 & H4 & H5 & H6). rewrite normalize_parts.
  assert (P : prepared d = d).
  { destruct (prepared_parts d) as (P1 & P2 & P3 & P4 & P5 & P6). apply drawing_eq; try congruence. intros k. apply prepared_tget. }
  rewrite P.
  assert (B : before_rules d = d).
  { unfold before_rules. rewrite (ensure_all_present TAppId) by (intros n Hn; apply (H4 TAppId); exact Hn).
    rewrite (ensure_all_present TBlockRecord) by (intros n Hn; apply (H4 TBlockRecord); exact Hn). apply ensure_present. apply (H4 TLayer). left. reflexivity. }
  rewrite B.
  assert (A : after_rules order (rules d) = rules d).
  { assert (H5' : forall k n, In n (last_names order k) -> exists_in k n (rules d)) by (intros k n Hn; apply exists_rules; apply H5; exact Hn).
    unfold after_rules.
    rewrite (ensure_all_present TDimStyle) by (intros n Hn; apply (H5' TDimStyle); exact Hn).
    rewrite (ensure_all_present TLayer) by (intros n Hn; apply (H5' TLayer); exact Hn).
    rewrite (ensure_all_present TLineType) by (intros n Hn; apply (H5' TLineType); exact Hn).
    rewrite (ensure_all_present TStyle) by (intros n Hn; apply (H5' TStyle); exact Hn).
    rewrite (ensure_all_present TViewPort) by (intros n Hn; apply (H5' TViewPort); exact Hn).
    unfold ensure_ucs. apply ensure_all_present. intros n Hn. apply (H5' TUcs). exact Hn. }
  rewrite A. destruct (sort_all_rest (rules d)) as ((S1 & S2 & S3 & S4 & S5) & S6 & S7). apply drawing_eq; try assumption.
  intros k. rewrite sort_all_tget. apply sort_id. rewrite rules_tget. apply (sorted_names (tget k d)); [apply names_norm|apply H6].
Qed.

Lemma or_else_same : forall s t, t <> [] -> default_if_empty (default_if_empty s t) t = default_if_empty s t.
Proof. intros [|a s] t H; [|reflexivity]. cbn. destruct t; [contradiction H; reflexivity|reflexivity]. Qed.
Lemma ensure_positive_same : forall d t, f64_le0 t = false \/ t = 0 -> ensure_positive (ensure_positive d t) t = ensure_positive d t.
Proof.
  intros d t H. unfold ensure_positive. destruct (f64_le0 d) eqn:E; [|rewrite E; reflexivity]. destruct (f64_le0 t) eqn:Et; reflexivity.
Qed.
Lemma norm_header_same : forall n h, norm_header (set_next n (norm_header h)) = set_next n (norm_header h).
Proof.
  intros n h. unfold norm_header. cbn [set_next hd_next hd_text_height hd_trace_width hd_text_style hd_current_layer hd_line_type hd_dim_style hd_file_name hd_ucs hd_fields].
  rewrite !or_else_same by discriminate. rewrite !ensure_positive_same by (left; reflexivity). reflexivity.
Qed.
Lemma map_idem : forall A (f : A -> A) l, (forall x, f (f x) = f x) -> map f (map f l) = map f l.
Proof. intros A f l H. rewrite map_map. apply map_ext. exact H. Qed.
Lemma assoc_in : forall A n (l : list (string * A)) f, assoc_slot n l = Some f -> In (n, f) l.
Proof.
  intros A n l f. induction l as [|[m g] l IH]; cbn [assoc_slot]; [discriminate|]. destruct (String.eqb n m) eqn:En.
  - apply String.eqb_eq in En. intros E. injection E as E. subst. left. reflexivity.
  - intros E. right. apply IH. exact E.
Qed.
Lemma rule_idem : forall k n f v, In (n, f) (field_rules k) -> f (f v) = f v.
Proof.
  assert (P : forall t v, f64_le0 t = false \/ t = 0 -> positive_field t (positive_field t v) = positive_field t v).
  { intros t v H. destruct v; try reflexivity. cbn [positive_field]. rewrite ensure_positive_same by exact H. reflexivity. }
  assert (Q : forall t v, positive_int_field t (positive_int_field t v) = positive_int_field t v).
  { intros t v. destruct v; try reflexivity. cbn [positive_int_field]. destruct (z <=? 0)%Z eqn:E; [|rewrite E; reflexivity]. destruct (t <=? 0)%Z; reflexivity. }
  intros k n f v I. destruct k; cbn [field_rules In] in I; try contradiction.
  - destruct I as [I|[I|[]]]; injection I as E1 E2; subst n f; destruct v; try reflexivity.
    + destruct s; reflexivity.
    + destruct ((z =? 0)%Z || (z =? 256)%Z) eqn:E; [reflexivity|rewrite E; reflexivity].
  - repeat (destruct I as [I|I]; [injection I as E1 E2; subst n f; apply P; first [left; reflexivity|right; reflexivity]|]). contradiction.
  - repeat (destruct I as [I|I]; [injection I as E1 E2; subst n f; apply P; first [left; reflexivity|right; reflexivity]|]). contradiction.
  - do 9 (destruct I as [I|I]; [injection I as E1 E2; subst n f; apply P; first [left; reflexivity|right; reflexivity]|]).
    repeat (destruct I as [I|I]; [injection I as E1 E2; subst n f; apply Q|]). contradiction.
Qed.
Lemma norm_item_idem : forall k x, norm_item k (norm_item k x) = norm_item k x.
Proof.
  intros k x. unfold norm_item. cbn [ti_handle ti_name ti_fields]. f_equal. unfold norm_fields. rewrite map_map. apply map_ext. intros [n v].
  destruct (assoc_slot n (field_rules k)) as [f|] eqn:E; [|reflexivity]. f_equal. exact (rule_idem k n f v (assoc_in _ _ _ _ E)).
Qed.
Lemma rules_idem : forall d, rules (rules d) = rules d.
Proof.
  intros d. destruct (rules_rest (rules d)) as ((A1 & A2 & A3 & A4 & _) & O & H). apply drawing_eq; try congruence.
  intros k. rewrite !rules_tget. apply map_idem. intros x. apply norm_item_idem.
Qed.

Lemma hd_ucs_normalize : forall order d, hd_ucs (dr_header (normalize order d)) = hd_ucs (dr_header d).
Proof. intros order d. destruct (normalize_rest order d) as (n & E & _). rewrite E. reflexivity. Qed.
Lemma hd_layer_normalize : forall order d, hd_current_layer (dr_header (normalize order d)) = or_else (hd_current_layer (dr_header d)) (str "0").
Proof. intros order d. destruct (normalize_rest order d) as (n & E & _). rewrite E. reflexivity. Qed.
Lemma norm_block_same : forall b, norm_block (norm_block b) = norm_block b.
Proof. intros [h [|a l] n e f]; reflexivity. Qed.
Lemma norm_entity_same : forall e, norm_entity (norm_entity e) = norm_entity e.
Proof. intros [h [|a l] n e f]; reflexivity. Qed.
Lemma normalize_settles : forall o1 o2 d, possible_order o1 d -> possible_order o2 d -> settled o2 (normalize o1 d).
Proof.
  intros o1 o2 d P1 P2. destruct (normalize_rest o1 d) as (n & E1 & E2 & E3 & _). unfold settled. rewrite E1, E2, E3.
  split; [apply norm_header_same|]. split; [apply map_idem; apply norm_block_same|]. split; [apply map_idem; apply norm_entity_same|].
  split; [|split; [|intros k; apply normalize_sorted]].
  - intros k m Hm. apply (normalize_has o1 d k m P1). unfold required. apply in_or_app.
    destruct k; cbn [first_names] in Hm; try (destruct Hm; fail); try (left; exact Hm). right. rewrite hd_layer_normalize in Hm. exact Hm.
  - intros k m Hm. apply (normalize_has o1 d k m P1). exact (incl_last o2 d k P2 m Hm).
Qed.
Lemma normalize_twice : forall o1 o2 d, possible_order o1 d -> possible_order o2 d -> normalize o2 (normalize o1 d) = rules (normalize o1 d).
Proof. intros o1 o2 d P1 P2. apply normalize_settled. apply normalize_settles; assumption. Qed.
Lemma order_normalize : forall o o' d, possible_order o d -> possible_order o (normalize o' d).
Proof. intros o o' d [H1 H2]. split; [exact H1|]. rewrite hd_ucs_normalize. exact H2. Qed.
Lemma normalize_thrice : forall o1 o2 o3 d, possible_order o1 d -> possible_order o2 d -> possible_order o3 d ->
  normalize o3 (normalize o2 (normalize o1 d)) = normalize o2 (normalize o1 d).
Proof.
  intros o1 o2 o3 d P1 P2 P3. rewrite (normalize_twice o2 o3); [|apply order_normalize; exact P2|apply order_normalize; exact P3].
  rewrite (normalize_twice o1 o2 d P1 P2). apply rules_idem.
Qed.

(** The entries made by normalizing are normal, except for the view port. *)
Lemma default_norm : forall k h n, k <> TViewPort -> norm_item k (mk_ti h n (ti_fields (default_item k n))) = mk_ti h n (ti_fields (default_item k n)).
Proof.
  intros k h n H. unfold norm_item. cbn [ti_handle ti_name ti_fields default_item]. f_equal. destruct k; try (contradiction H; reflexivity); vm_compute; reflexivity.
Qed.
Lemma default_norm_port : forall h n, norm_item TViewPort (mk_ti h n (ti_fields (default_item TViewPort n))) = third_spacing (mk_ti h n (ti_fields (default_item TViewPort n))).
Proof. intros h n. unfold norm_item, third_spacing. cbn [ti_handle ti_name ti_fields default_item]. f_equal. Qed.
Lemma normalize_second : forall o1 o2 d k, possible_order o1 d -> possible_order o2 d ->
  Forall2 (fun x y => y = x \/ k = TViewPort /\ ~ exists_in TViewPort (str "*ACTIVE") d /\ ti_name x = str "*ACTIVE" /\ y = third_spacing x)
    (tget k (normalize o1 d)) (tget k (normalize o2 (normalize o1 d))).
Proof.
  intros o1 o2 d k P1 P2. rewrite (normalize_twice o1 o2 d P1 P2), rules_tget.
  destruct (normalize_table o1 d k P1) as (new & P & _ & Q).
  assert (X : forall x, In x (tget k (normalize o1 d)) -> norm_item k x = x \/
     k = TViewPort /\ ~ exists_in TViewPort (str "*ACTIVE") d /\ ti_name x = str "*ACTIVE" /\ norm_item k x = third_spacing x).
  { intros x Hx. apply (Permutation_in _ P) in Hx. apply in_app_or in Hx. destruct Hx as [Hx|Hx].
    - apply in_map_iff in Hx. destruct Hx as (y & E & _). subst x. left. apply norm_item_idem.
    - destruct (Q x Hx) as (Q1 & Q2 & y & (h & Ey) & [E|[E L]]).
      + subst x. left. apply norm_item_idem.
      + rewrite E in *. clear E. destruct (tkind_dec k TViewPort) as [Ek|Ek].
        * subst k. right. cbn [last_names mandatory In] in L. destruct L as [L|[]]. split; [reflexivity|]. split; [rewrite L; exact Q1|]. split; [symmetry; exact L|].
          rewrite Ey. apply default_norm_port.
        * left. rewrite Ey. apply default_norm. exact Ek. }
  clear P Q. induction (tget k (normalize o1 d)) as [|x l IH]; [constructor|]. cbn [map]. constructor; [apply X; left; reflexivity|].
  apply IH. intros y Hy. apply X. right. exact Hy.
Qed.
Lemma forall2_eq : forall A (l l' : list A), Forall2 (fun x y => y = x) l l' -> l' = l.
Proof. intros A l l' H. induction H as [|x y l l' E H IH]; [reflexivity|]. subst. reflexivity. Qed.
Lemma forall2_weak : forall A B (P Q : A -> B -> Prop) l l', (forall x y, P x y -> Q x y) -> Forall2 P l l' -> Forall2 Q l l'.
Proof. intros A B P Q l l' H F. induction F; constructor; auto. Qed.
Lemma normalize_second_same : forall o1 o2 d, possible_order o1 d -> possible_order o2 d -> exists_in TViewPort (str "*ACTIVE") d ->
  normalize o2 (normalize o1 d) = normalize o1 d.
Proof.
  intros o1 o2 d P1 P2 A. pose proof (normalize_twice o1 o2 d P1 P2) as T. destruct (rules_rest (normalize o1 d)) as ((R1 & R2 & R3 & R4 & _) & O & H). rewrite <- T in *.
  apply drawing_eq; try assumption. intros k. apply forall2_eq.
  refine (forall2_weak _ _ _ _ _ _ _ (normalize_second o1 o2 d k P1 P2)). intros x y [E|(_ & C & _)]; [exact E|contradiction].
Qed.

(** * Histories *)

Definition inv (s : state) : Prop := 1 <= next_of (fst s) /\ forall h, (cn (snd s ++ handles (fst s)) h <= btw 1 (next_of (fst s)) h)%nat.
Lemma inv_grew : forall d d' o, grew d d' -> inv (d, o) -> inv (d', o).
Proof.
  intros d d' o [N G] [H I]. unfold inv in *. cbn [fst snd] in *. split; [lia|]. intros h. specialize (G h). specialize (I h). rewrite count_occ_app in *.
  rewrite <- (btw_split 1 (next_of d) (next_of d') h) by lia. lia.
Qed.
Lemma step_inv : forall s t, step s t -> inv s -> inv t.
Proof.
  intros s t H I. destruct H.
  - exact (inv_grew _ _ _ (add_table_grew k x d) I).
  - destruct (add_block_spec b d) as (b' & d1 & S). apply (inv_grew d); [apply S|exact I].
  - destruct (add_object_spec x d) as (d1 & _ & G & _). exact (inv_grew _ _ _ G I).
  - destruct (add_entity_spec e d) as (e' & d1 & E & N & _ & _ & _ & _ & _ & _ & _ & _ & _ & _ & _ & C). destruct I as [I1 I2]. unfold inv in *. cbn [fst snd] in *.
    assert (EN : next_of (add_entity e d) = next_of d1) by (rewrite E; apply next_set_entities). rewrite EN. split; [lia|]. intros h. specialize (C h). specialize (I2 h).
    pose proof (proj1 (Permutation_count_occ N.eq_dec _ _) H h) as P. rewrite count_occ_app in *.
    rewrite <- (btw_split 1 (next_of d) (next_of d1) h) by lia. lia.
  - destruct I as [I1 I2]. unfold inv in *. cbn [fst snd] in *. pose proof (next_handle_next d) as E. cbn [next_handle fst snd] in *. rewrite E. split; [lia|].
    intros h. specialize (I2 h). rewrite handles_header. rewrite <- app_comm_cons. cbn [count_occ]. rewrite <- (btw_split 1 (next_of d) (next_of d + 1) h) by lia.
    rewrite btw_one. unfold next_of in *. destruct (N.eq_dec (hd_next (dr_header d)) h); lia.
  - exact (inv_grew _ _ _ (remove_table_grew k i d) I).
  - exact (inv_grew _ _ _ (remove_block_grew i d) I).
  - exact (inv_grew _ _ _ (remove_entity_grew i d) I).
  - exact (inv_grew _ _ _ (remove_object_grew i d) I).
  - exact (inv_grew _ _ _ (normalize_grew order d) I).
  - destruct I as [I1 I2]. unfold inv in *. cbn [fst snd] in *. rewrite H, H0. split; assumption.
Qed.
Lemma step_next : forall s t, step s t -> next_of (fst s) <= next_of (fst t).
Proof.
  intros s t H. destruct H; cbn [fst].
  - apply add_table_grew.
  - destruct (add_block_spec b d) as (b' & d1 & S). apply S.
  - destruct (add_object_spec x d) as (d1 & _ & G & _). apply G.
  - destruct (add_entity_spec e d) as (e' & d1 & E & N & _). rewrite E, next_set_entities. lia.
  - rewrite next_handle_next. lia.
  - apply remove_table_grew.
  - apply remove_block_grew.
  - apply remove_entity_grew.
  - apply remove_object_grew.
  - apply normalize_grew.
  - lia.
Qed.
Lemma steps_inv : forall s t, steps s t -> inv s -> inv t.
Proof. intros s t H. induction H as [s|s t u H IH S]; intros I; [exact I|]. exact (step_inv _ _ S (IH I)). Qed.
Lemma steps_next : forall s t, steps s t -> next_of (fst s) <= next_of (fst t).
Proof. intros s t H. induction H as [s|s t u H IH S]; [lia|]. pose proof (step_next _ _ S). lia. Qed.
Lemma steps_trans : forall s t u, steps s t -> steps t u -> steps s u.
Proof. intros s t u H K. induction K as [|t u w K IH S]; [exact H|]. exact (steps_more _ _ _ (IH H) S). Qed.
Lemma new_inv : inv (new_drawing, []).
Proof.
  apply (inv_grew empty_drawing).
  - apply normalize_grew.
  - split; [vm_compute; discriminate|]. intros h. cbn. lia.
Qed.
Lemma reachable_inv : forall s, reachable s -> inv s.
Proof. intros s H. exact (steps_inv _ _ H new_inv). Qed.
Lemma inv_spec : forall d o, inv (d, o) -> NoDup (o ++ handles d) /\ forall h, In h (o ++ handles d) -> 0 < h < next_of d.
Proof.
  intros d o [H I]. cbn [fst snd] in *. split.
  - apply (NoDup_count_occ N.eq_dec). intros h. specialize (I h). btw_lia.
  - intros h Hh. apply (count_occ_In N.eq_dec) in Hh. specialize (I h). btw_lia.
Qed.

(** * Looking up *)

Lemma holds_all_items : forall d x, holds d x <-> In x (all_items d).
Proof.
  intros d x. unfold all_items, items_of. rewrite !in_app_iff, !in_map_iff. destruct x as [k y|b|e|o]; cbn [holds].
  - split.
    + intros H. destruct k; repeat (first [left; eexists; split; [reflexivity|exact H]|eexists; split; [reflexivity|exact H]|right]).
    + intros H. repeat match goal with H : _ \/ _ |- _ => destruct H as [H|H] end; destruct H as (z & E & Hz); try discriminate E; injection E as E1 E2; subst; exact Hz.
  - split.
    + intros H. right; left; eauto.
    + intros H. repeat match goal with H : _ \/ _ |- _ => destruct H as [H|H] end; destruct H as (z & E & Hz); try discriminate E; injection E as E1; subst; exact Hz.
  - split.
    + intros H. do 4 right; left; eauto.
    + intros H. repeat match goal with H : _ \/ _ |- _ => destruct H as [H|H] end; destruct H as (z & E & Hz); try discriminate E; injection E as E1; subst; exact Hz.
  - split.
    + intros H. do 7 right; left; eauto.
    + intros H. repeat match goal with H : _ \/ _ |- _ => destruct H as [H|H] end; destruct H as (z & E & Hz); try discriminate E; injection E as E1; subst; exact Hz.
Qed.
Lemma count_map_flat : forall A (f : A -> N) (g : A -> list N) l h, (forall x, exists r, g x = f x :: r) -> (cn (map f l) h <= cn (flat_map g l) h)%nat.
Proof.
  intros A f g l h H. induction l as [|x l IH]; [apply Nat.le_refl|]. cbn [map flat_map]. destruct (H x) as [r E]. rewrite E, count_occ_app. cbn [count_occ].
  destruct (N.eq_dec (f x) h); lia.
Qed.
Lemma count_items : forall d h, (cn (map item_handle (all_items d)) h <= cn (handles d) h)%nat.
Proof.
  intros d h. unfold all_items, items_of, handles, table_handles. rewrite !map_app, !map_map, !count_occ_app. cbn [item_handle tget].
  change (fun x => ti_handle x) with ti_handle. change (fun x => bl_handle x) with bl_handle. change (fun x => en_handle x) with en_handle.
  change (fun x => ob_handle x) with ob_handle.
  pose proof (count_map_flat _ bl_handle block_handles (dr_blocks d) h ltac:(intros x; eexists; reflexivity)).
  pose proof (count_map_flat _ en_handle entity_handles (dr_entities d) h ltac:(intros x; eexists; reflexivity)). lia.
Qed.
Lemma find_nodup : forall A (f : A -> N) l x, NoDup (map f l) -> In x l -> find (fun y => f y =? f x) l = Some x.
Proof.
  intros A f l x H I. induction l as [|y l IH]; [destruct I|]. cbn [find map] in *. inversion H; subst. destruct (f y =? f x) eqn:E.
  - destruct I as [I|I]; [congruence|]. exfalso. apply H2. apply N.eqb_eq in E. rewrite E. apply in_map. exact I.
  - destruct I as [I|I]; [subst; rewrite N.eqb_refl in E; discriminate E|]. apply IH; assumption.
Qed.
Lemma lookup_reachable : forall d o x, reachable (d, o) -> holds d x -> item_by_handle d (item_handle x) = Some x.
Proof.
  intros d o x R H. unfold item_by_handle. apply find_nodup; [|apply holds_all_items; exact H]. apply (NoDup_count_occ N.eq_dec). intros h.
  pose proof (count_items d h) as C. destruct (inv_spec _ _ (reachable_inv _ R)) as [D _]. rewrite (NoDup_count_occ N.eq_dec) in D. specialize (D h).
  rewrite count_occ_app in D. lia.
Qed.
Lemma lookup_sound : forall d h x, item_by_handle d h = Some x -> holds d x /\ item_handle x = h.
Proof.
  intros d h x H. unfold item_by_handle in H. apply find_some in H. destruct H as [H1 H2]. split; [apply holds_all_items; exact H1|apply N.eqb_eq; exact H2].
Qed.
Lemma lookup_none : forall d h, item_by_handle d h = None -> forall x, holds d x -> item_handle x <> h.
Proof.
  intros d h H x Hx C. unfold item_by_handle in H. apply holds_all_items in Hx. pose proof (find_none _ _ H x Hx) as Q. cbn in Q. rewrite C, N.eqb_refl in Q. discriminate Q.
Qed.
Lemma item_handle_in : forall d x, holds d x -> In (item_handle x) (handles d).
Proof.
  intros d x H. apply (count_occ_In N.eq_dec). pose proof (count_items d (item_handle x)) as C.
  assert (I : In (item_handle x) (map item_handle (all_items d))) by (apply in_map; apply holds_all_items; exact H).
  apply (count_occ_In N.eq_dec) in I. lia.
Qed.
Lemma lookup_zero : forall d o, reachable (d, o) -> item_by_handle d 0 = None.
Proof.
  intros d o R. destruct (item_by_handle d 0) as [x|] eqn:E; [|reflexivity]. exfalso. destruct (lookup_sound _ _ _ E) as [H1 H2].
  destruct (inv_spec _ _ (reachable_inv _ R)) as [_ D]. specialize (D (item_handle x) (in_or_app _ _ _ (or_intror (item_handle_in d x H1)))). lia.
Qed.
