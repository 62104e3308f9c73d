(** Adding, reading and normalizing keep a drawing complete. *)
From Verif Require Import Base CodePairModel CodePairProofs ReaderProofs VersionModel SpecModel SpecSpec TableData HeaderModel HeaderData ThumbnailModel DrawingModel DrawingSpec DrawingProofs NormalizeProofs FileModel FileSpec FileProofs LoadSpec LoadProofs
  LocalProofs TrailerProofs SectionsSpec SectionsProofs SaveModel RefSpec.
From Verif Require DxbModel.
From Coq Require Import Permutation.
Open Scope string_scope.
Open Scope list_scope.
Open Scope N_scope.
Set Default Goal Selector "!".

(** * Growing *)
Definition larger (d d' : drawing) : Prop := (forall k n, exists_in k n d -> exists_in k n d') /\ (forall s, style_in s d -> style_in s d').
Lemma larger_refl d : larger d d.
Proof. split; intros; assumption. Qed.
Lemma larger_trans a b c : larger a b -> larger b c -> larger a c.
Proof. intros [A1 A2] [B1 B2]. split; intros; auto. Qed.
Lemma larger_entity d d' e : larger d d' -> refs_exist e d -> refs_exist e d'.
Proof.
  intros [K S] (A & B & C). split; [apply K, A|]. split; [apply K, B|]. destruct (en_specific e) as [q l|q l|s|t s|t s|t]; try exact Logic.I.
  - exact (S s C).
  - apply K, C.
  - apply K, C.
Qed.
Lemma larger_layer d d' x : larger d d' -> layer_refs x d -> layer_refs x d'.
Proof. intros [K _]. apply K. Qed.
Lemma larger_block d d' b : larger d d' -> block_refs b d -> block_refs b d'.
Proof. intros [K _] (A & B & C). split; [apply K, A|]. split; [apply K, B|]. intros e He. destruct (C e He) as [C1 C2]. split; apply K; assumption. Qed.
Lemma larger_object d d' o : larger d d' -> object_refs o d -> object_refs o d'.
Proof. intros [K _]. unfold object_refs. destruct (ob_specific o); intros H; try exact Logic.I; try (intros n Hn; apply K, H, Hn). apply K, H. Qed.

(** A drawing that has grown is complete if its new items find what they name. *)
Lemma complete_grown d d' : complete d -> larger d d' ->
  (forall e, In e (dr_entities d') -> In e (dr_entities d) \/ refs_exist e d') -> (forall x, In x (dr_layers d') -> In x (dr_layers d) \/ layer_refs x d') ->
  (forall b, In b (dr_blocks d') -> In b (dr_blocks d) \/ block_refs b d') -> (forall o, In o (dr_objects d') -> In o (dr_objects d) \/ object_refs o d') -> complete d'.
Proof.
  intros (C1 & C2 & C3 & C4) L H1 H2 H3 H4. split; [|split; [|split]].
  - intros e He. destruct (H1 e He) as [Q|Q]; [apply (larger_entity d d' e L), C1, Q|exact Q].
  - intros e He. destruct (H2 e He) as [Q|Q]; [apply (larger_layer d d' e L), C2, Q|exact Q].
  - intros e He. destruct (H3 e He) as [Q|Q]; [apply (larger_block d d' e L), C3, Q|exact Q].
  - intros e He. destruct (H4 e He) as [Q|Q]; [apply (larger_object d d' e L), C4, Q|exact Q].
Qed.
(** Only the tables, the objects, the blocks and the entities matter. *)
Lemma complete_same d d' : complete d -> (forall k, tget k d' = tget k d) -> dr_entities d' = dr_entities d -> dr_blocks d' = dr_blocks d -> dr_objects d' = dr_objects d -> complete d'.
Proof.
  intros C T E B O. apply (complete_grown d d' C).
  - split; [intros k n; unfold exists_in; rewrite T; exact (fun H => H)|intros s; unfold style_in; rewrite O; exact (fun H => H)].
  - rewrite E. intros e H. left. exact H.
  - pose proof (T TLayer) as TL. cbn [tget] in TL. rewrite TL. intros e H. left. exact H.
  - rewrite B. intros e H. left. exact H.
  - rewrite O. intros e H. left. exact H.
Qed.
Lemma complete_rest d d' : complete d -> (forall k, tget k d' = tget k d) -> rest_same d d' -> dr_objects d' = dr_objects d -> complete d'.
Proof. intros C T (R1 & R2 & R3 & R4) O. apply (complete_same d d' C T R3 R2 O). Qed.
Lemma complete_next d : complete d -> complete (snd (next_handle d)).
Proof. intros C. destruct (next_handle_rest d) as [R O]. apply (complete_rest d _ C); [intros k; apply next_handle_tget|exact R|exact O]. Qed.

(** * Tables *)
Lemma larger_table d d' : (forall k n, exists_in k n d -> exists_in k n d') -> dr_objects d' = dr_objects d -> larger d d'.
Proof. intros K O. split; [exact K|]. intros s. unfold style_in. rewrite O. exact (fun H => H). Qed.
Lemma push_item_spec k x d : (forall k', tget k' (push_item k x d) = if tkind_eqb k k' then tget k' d ++ [x] else tget k' d) /\ rest_same d (push_item k x d) /\ dr_objects (push_item k x d) = dr_objects d.
Proof.
  unfold push_item. split; [|apply tset_rest]. intros k'. destruct (tkind_eqb k k') eqn:E.
  - apply tkind_eqb_eq in E. subst k'. apply tget_tset_same.
  - apply tget_tset_other. intros Q. subst k'. rewrite tkind_eqb_refl in E. discriminate E.
Qed.
Lemma complete_push_item k x d : complete d -> (k = TLayer -> layer_refs x d) -> complete (push_item k x d).
Proof.
  intros C L. destruct (push_item_spec k x d) as (T & (R1 & R2 & R3 & _) & O).
  assert (G : larger d (push_item k x d)).
  { apply larger_table; [|exact O]. intros k' n. unfold exists_in, names. rewrite T. destruct (tkind_eqb k k'); [|exact (fun H => H)]. rewrite map_app. intros H. apply in_or_app. left. exact H. }
  apply (complete_grown d _ C G).
  - rewrite R3. intros e H. left. exact H.
  - intros y H. change (In y (tget TLayer (push_item k x d))) in H. rewrite T in H. destruct (tkind_eqb k TLayer) eqn:E; [|left; exact H].
    apply tkind_eqb_eq in E. apply in_app_or in H. destruct H as [H|[<-|[]]]; [left; exact H|right]. apply (larger_layer d _ _ G). apply L, E.
  - rewrite R2. intros b H. left. exact H.
  - rewrite O. intros o H. left. exact H.
Qed.
Lemma complete_add_plain k x d : k <> TLayer -> complete d -> complete (add_plain k x d).
Proof. intros N C. unfold add_plain. rewrite next_handle_pair. apply complete_push_item; [apply complete_next, C|intros Q; contradiction (N Q)]. Qed.
Lemma complete_ensure_plain k n d : k <> TLayer -> complete d -> complete (ensure_plain k n d).
Proof. intros N C. unfold ensure_plain. destruct (has_name k n d); [exact C|]. apply complete_add_plain; assumption. Qed.
Lemma complete_push_layer x d : complete d -> complete (push_layer x d).
Proof.
  intros C. unfold push_layer. apply complete_push_item; [apply complete_ensure_plain; [discriminate|exact C]|]. intros _. apply ensure_plain_ext.
Qed.
Lemma complete_add_layer x d : complete d -> complete (add_layer x d).
Proof. intros C. unfold add_layer. rewrite next_handle_pair. apply complete_push_layer, complete_next, C. Qed.
Lemma complete_ensure k n d : complete d -> complete (ensure k n d).
Proof.
  intros C. destruct k; cbn [ensure]; try (apply complete_ensure_plain; [discriminate|exact C]). unfold ensure_layer. destruct (has_name TLayer n d); [exact C|]. apply complete_add_layer, C.
Qed.
Lemma complete_ensure_all k l : forall d, complete d -> complete (ensure_all k l d).
Proof. unfold ensure_all. induction l as [|n l IH]; intros d C; [exact C|]. cbn [fold_left]. apply IH, complete_ensure, C. Qed.
Lemma complete_add_table k x d : complete d -> complete (add_table k x d).
Proof. intros C. destruct k; cbn [add_table]; try (apply complete_add_plain; [discriminate|exact C]). apply complete_add_layer, C. Qed.
Lemma complete_push_table k x d : complete d -> complete (push_table k x d).
Proof. intros C. destruct k; cbn [push_table]; try (apply complete_push_item; [exact C|discriminate]). apply complete_push_layer, C. Qed.

(** * Objects *)
Lemma larger_objects l d : larger d (set_objects (dr_objects d ++ l) d).
Proof.
  split; [intros k n; unfold exists_in; rewrite tget_set_objects; exact (fun H => H)|]. intros s (o & H & E). exists o. split; [|exact E]. rewrite objects_set_objects. apply in_or_app. left. exact H.
Qed.
Lemma complete_set_objects o d : complete d -> object_refs o d -> complete (set_objects (dr_objects d ++ [o]) d).
Proof.
  intros C Q. pose proof (larger_objects [o] d) as G. destruct (rest_set_objects (dr_objects d ++ [o]) d) as (_ & R2 & R3 & _). apply (complete_grown d _ C G).
  - rewrite R3. intros e H. left. exact H.
  - intros y H. change (In y (tget TLayer (set_objects (dr_objects d ++ [o]) d))) in H. rewrite tget_set_objects in H. left. exact H.
  - rewrite R2. intros b H. left. exact H.
  - rewrite objects_set_objects. intros x H. apply in_app_or in H. destruct H as [H|[<-|[]]]; [left; exact H|right]. apply (larger_object d _ _ G), Q.
Qed.
Lemma complete_push_object o d : complete d -> complete (push_object o d).
Proof.
  intros C. unfold push_object. destruct (ob_specific o) as [n|l|l|v|c|t] eqn:E; apply complete_set_objects.
  all: try (unfold object_refs; rewrite E; exact Logic.I).
  - apply complete_ensure, complete_ensure, C.
  - apply complete_ensure_all, C.
  - unfold object_refs. rewrite E. apply ensure_all_ext.
  - apply complete_ensure_all, C.
  - unfold object_refs. rewrite E. apply ensure_all_ext.
  - apply complete_ensure, C.
  - unfold object_refs. rewrite E. apply ensure_ext.
  - exact C.
  - exact C.
Qed.
Lemma complete_add_object o d : complete d -> complete (add_object o d).
Proof. intros C. unfold add_object. rewrite next_handle_pair. apply complete_push_object, complete_next, C. Qed.
Lemma complete_ensure_mline n d : complete d -> complete (ensure_mline_style n d).
Proof. intros C. unfold ensure_mline_style. destruct (existsb _ _); [exact C|]. apply complete_add_object, C. Qed.

(** * Entities *)
Lemma style_set_entities s l d : style_in s (set_entities l d) <-> style_in s d.
Proof. unfold style_in. destruct d. reflexivity. Qed.
Lemma refs_set_entities e l d : refs_exist e (set_entities l d) <-> refs_exist e d.
Proof. unfold refs_exist, exists_in. rewrite !tget_set_entities. destruct d. reflexivity. Qed.
Lemma set_entities_get l d : dr_entities (set_entities l d) = l /\ dr_blocks (set_entities l d) = dr_blocks d /\ dr_objects (set_entities l d) = dr_objects d.
Proof. destruct d. repeat split. Qed.
Lemma larger_same_tables d d' : (forall k, tget k d' = tget k d) -> dr_objects d' = dr_objects d -> larger d d'.
Proof. intros T O. apply larger_table; [|exact O]. intros k n. unfold exists_in. rewrite T. exact (fun H => H). Qed.
Lemma complete_set_entities e d : complete d -> refs_exist e d -> complete (set_entities (dr_entities d ++ [e]) d).
Proof.
  intros C Q. destruct (set_entities_get (dr_entities d ++ [e]) d) as (A1 & A2 & A3).
  pose proof (larger_same_tables d (set_entities (dr_entities d ++ [e]) d) (fun k => tget_set_entities k _ d) A3) as G. apply (complete_grown d _ C G).
  - rewrite A1. intros x H. apply in_app_or in H. destruct H as [H|[<-|[]]]; [left; exact H|right]. apply refs_set_entities, Q.
  - intros y H. change (In y (tget TLayer (set_entities (dr_entities d ++ [e]) d))) in H. rewrite tget_set_entities in H. left. exact H.
  - rewrite A2. intros b H. left. exact H.
  - rewrite A3. intros b H. left. exact H.
Qed.
Lemma complete_push_entity e d : complete d -> complete (push_entity e d).
Proof.
  intros C. destruct (push_entity_spec e d) as (d1 & E & _ & _ & _ & _ & Q).
  assert (F : refs_exist e (push_entity e d)) by (rewrite E; apply refs_set_entities, Q). clear d1 E Q. unfold push_entity in *. apply refs_set_entities in F. apply complete_set_entities; [|exact F].
  clear F. destruct (en_specific e) as [q l|q l|s|t s|t s|t].
  - apply complete_ensure, complete_ensure, C.
  - apply complete_ensure, complete_ensure, C.
  - apply complete_ensure, complete_ensure, complete_ensure_mline, C.
  - apply complete_ensure, complete_ensure, complete_ensure, C.
  - apply complete_ensure, complete_ensure, complete_ensure, C.
  - apply complete_ensure, complete_ensure, C.
Qed.
Lemma complete_add_entity e d : complete d -> complete (add_entity e d).
Proof.
  intros C. unfold add_entity. destruct (number_entity e d) as [e' d0] eqn:E. destruct (number_entity_spec _ _ _ _ E) as (_ & T & R & O & _). apply complete_push_entity. apply (complete_rest d d0 C T R O).
Qed.

(** * Blocks *)
Lemma set_blocks_get l d : dr_blocks (set_blocks l d) = l /\ dr_entities (set_blocks l d) = dr_entities d /\ dr_objects (set_blocks l d) = dr_objects d.
Proof. destruct d. repeat split. Qed.
Lemma complete_set_blocks b d : complete d -> block_refs b d -> complete (set_blocks (dr_blocks d ++ [b]) d).
Proof.
  intros C Q. destruct (set_blocks_get (dr_blocks d ++ [b]) d) as (A1 & A2 & A3).
  pose proof (larger_same_tables d (set_blocks (dr_blocks d ++ [b]) d) (fun k => tget_set_blocks k _ d) A3) as G. apply (complete_grown d _ C G).
  - rewrite A2. intros x H. left. exact H.
  - intros y H. change (In y (tget TLayer (set_blocks (dr_blocks d ++ [b]) d))) in H. rewrite tget_set_blocks in H. left. exact H.
  - rewrite A1. intros x H. apply in_app_or in H. destruct H as [H|[<-|[]]]; [left; exact H|right]. apply (larger_block d _ _ G), Q.
  - rewrite A3. intros x H. left. exact H.
Qed.
Lemma Forall2_back {A B} (R : A -> B -> Prop) l m y : Forall2 R l m -> In y m -> exists x, In x l /\ R x y.
Proof. induction 1 as [|a b l m H _ IH]; intros Hy; [contradiction Hy|destruct Hy as [<-|Hy]; [exists a; split; [left; reflexivity|exact H]|]]. destruct (IH Hy) as (x & X1 & X2). exists x. split; [right; exact X1|exact X2]. Qed.
Lemma complete_push_block b d : complete d -> complete (push_block b d).
Proof.
  intros C. destruct (push_block_spec b d) as (b' & d1 & E & B1 & B2 & B3 & B4 & B5 & _ & _ & _ & _ & (h & T) & L1 & L2 & _).
  assert (F : block_refs b' (push_block b d)).
  { rewrite E. unfold block_refs, exists_in. rewrite !tget_set_blocks, B2, B3. split; [exact L1|]. split; [rewrite T; unfold names; rewrite map_app; apply in_or_app; right; left; reflexivity|].
    intros y Hy. destruct (Forall2_back _ _ _ _ B5 Hy) as (x & Hx & X1 & X2 & _). rewrite X1, X2. apply L2, Hx. }
  assert (P : dr_blocks (push_block b d) = dr_blocks d ++ [b']) by (rewrite E; apply set_blocks_get). clear d1 E T L1 L2 B1 B2 B3 B4 B5.
  unfold push_block in *. set (da := ensure_all TLayer _ d) in *. set (db := ensure_all TLineType _ da) in *. set (dc := add_plain TBlockRecord _ db) in *.
  assert (Cc : complete dc) by (apply complete_add_plain; [discriminate|apply complete_ensure_all, complete_ensure_all, C]).
  destruct (number_members (bl_entities b) dc) as [es d4] eqn:N. destruct (number_members_spec _ _ _ _ N) as (_ & T & R & O & _).
  pose proof (complete_rest dc d4 Cc T R O) as C4. assert (D : dr_blocks d4 = dr_blocks d).
  { destruct (set_blocks_get (dr_blocks d4 ++ [mk_block (bl_handle b) (bl_layer b) (bl_name b) es (bl_fields b)]) d4) as (Z & _ & _). rewrite Z in P. apply app_inj_tail in P. apply P. }
  assert (Q : b' = mk_block (bl_handle b) (bl_layer b) (bl_name b) es (bl_fields b)).
  { destruct (set_blocks_get (dr_blocks d4 ++ [mk_block (bl_handle b) (bl_layer b) (bl_name b) es (bl_fields b)]) d4) as (Z & _ & _). rewrite Z in P. apply app_inj_tail in P. symmetry. apply P. }
  rewrite <- Q in *. apply complete_set_blocks; [exact C4|]. unfold block_refs, exists_in in F. rewrite !tget_set_blocks in F. destruct F as (F1 & F2 & F3). split; [exact F1|]. split; [exact F2|].
  intros e He. exact (F3 e He).
Qed.
Lemma complete_add_block b d : complete d -> complete (add_block b d).
Proof. intros C. unfold add_block. rewrite next_handle_pair. apply complete_push_block, complete_next, C. Qed.

(** * Normalizing *)
Lemma norm_layer_line x : line_type_of (norm_item TLayer x) = line_type_of x \/ line_type_of (norm_item TLayer x) = str "CONTINUOUS".
Proof.
  unfold line_type_of, field_string, norm_item. cbn [ti_fields].
  assert (A : assoc_slot "line_type_name" (norm_fields (field_rules TLayer) (ti_fields x)) =
    match assoc_slot "line_type_name" (ti_fields x) with Some (FStr s) => Some (FStr (default_if_empty s (str "CONTINUOUS"))) | o => o end).
  { induction (ti_fields x) as [|[n v] l IH]; [reflexivity|]. cbn [norm_fields map assoc_slot]. destruct (String.eqb "line_type_name" n) eqn:E.
    - apply String.eqb_eq in E. subst n. destruct v; reflexivity.
    - exact IH. }
  rewrite A. destruct (assoc_slot "line_type_name" (ti_fields x)) as [[]|]; auto. match goal with |- context [default_if_empty ?s _] => destruct s end; [right; reflexivity|left; reflexivity].
Qed.
Lemma made_layer_line n y : made_for TLayer n y -> line_type_of y = str "CONTINUOUS".
Proof. intros (h & ->). vm_compute. reflexivity. Qed.
Lemma complete_normalize order d : possible_order order d -> complete d -> complete (normalize order d).
Proof.
  intros P (C1 & C2 & C3 & C4). destruct (normalize_rest order d) as (n & E1 & E2 & E3 & E4 & E5 & E6).
  assert (G : larger d (normalize order d)).
  { apply larger_table; [|exact E4]. intros k m H. destruct (normalize_table order d k P) as (new & Pm & _). apply (exists_perm k m _ _ Pm). unfold names. rewrite map_app. apply in_or_app. left.
    fold (names (map (norm_item k) (tget k d))). rewrite names_norm. exact H. }
  assert (Z : exists_in TLayer (str "0") (normalize order d)) by (apply (normalize_has order d TLayer _ P); left; reflexivity).
  assert (K : exists_in TLineType (str "CONTINUOUS") (normalize order d)) by (apply (normalize_has order d TLineType _ P); right; right; left; reflexivity).
  split; [|split; [|split]].
  - rewrite E3. intros e H. apply in_map_iff in H. destruct H as (x & <- & H). destruct (larger_entity _ _ x G (C1 x H)) as (A1 & A2 & A3). split; [|split; [exact A2|exact A3]].
    cbn [norm_entity en_layer]. destruct (en_layer x); [exact Z|exact A1].
  - intros x H. destruct (normalize_table order d TLayer P) as (new & Pm & _ & Q). change (In x (tget TLayer (normalize order d))) in H. apply (Permutation_in _ Pm) in H. unfold layer_refs.
    assert (N : forall y, exists_in TLineType (line_type_of y) (normalize order d) -> exists_in TLineType (line_type_of (norm_item TLayer y)) (normalize order d)).
    { intros y Hy. destruct (norm_layer_line y) as [-> | ->]; [exact Hy|exact K]. }
    apply in_app_or in H. destruct H as [H|H].
    + apply in_map_iff in H. destruct H as (y & <- & H). apply N. apply G. apply (C2 y H).
    + destruct (Q x H) as (_ & _ & y & M & [-> | [-> _]]); [apply N|]; rewrite (made_layer_line _ _ M); exact K.
  - rewrite E2. intros b H. apply in_map_iff in H. destruct H as (x & <- & H). destruct (larger_block _ _ x G (C3 x H)) as (A1 & A2 & A3). split; [|split; [exact A2|exact A3]].
    cbn [norm_block bl_layer]. destruct (bl_layer x); [exact Z|exact A1].
  - rewrite E4. intros o H. apply (larger_object _ _ o G), C4, H.
Qed.

(** * Histories *)
Lemma complete_adding d d' : adding d d' -> complete d -> complete d'.
Proof.
  intros [k x e|b e|o e|x e|order e P] C; [apply complete_add_table|apply complete_add_block|apply complete_add_object|apply complete_add_entity|apply complete_normalize; [exact P|]]; exact C.
Qed.
Lemma complete_added d d' : added d d' -> complete d -> complete d'.
Proof. induction 1 as [d|a b c _ IH S]; intros C; [exact C|]. apply (complete_adding _ _ S), IH, C. Qed.
Lemma complete_empty h : complete (set_header h empty_drawing).
Proof. repeat split; intros; cbn in *; contradiction. Qed.

(** * Reading *)
Lemma complete_fold {X} (put : drawing -> X -> drawing) : (forall d x, complete d -> complete (put d x)) -> forall l d, complete d -> complete (fold_left put l d).
Proof. intros P. induction l as [|x l IH]; intros d C; [exact C|]. cbn [fold_left]. apply IH, P, C. Qed.
Lemma complete_apply f d : complete d -> complete (apply f d).
Proof.
  intros C. destruct f as [l|l|l|l|l|t|]; cbn [apply]; try exact C.
  - apply complete_fold; [|exact C]. intros e x D. unfold put_entity. destruct (_ =? _); [apply complete_add_entity|apply complete_push_entity]; exact D.
  - apply complete_fold; [|exact C]. intros e x D. unfold put_object. destruct (_ =? _); [apply complete_add_object|apply complete_push_object]; exact D.
  - apply (complete_same d _ C); [intros k; destruct d, k|destruct d|destruct d|destruct d]; reflexivity.
  - apply complete_fold; [|exact C]. intros e [k x] D. unfold put_entry, put_titem. destruct (_ =? _); [apply complete_add_table|apply complete_push_table]; exact D.
  - apply complete_fold; [|exact C]. intros e x D. unfold put_block. destruct (_ =? _); [apply complete_add_block|apply complete_push_block]; exact D.
  - apply (complete_same d _ C); [intros k; destruct d, k|destruct d|destruct d|destruct d]; reflexivity.
Qed.
(** Only the header section looks at how the rest would be read as UTF-8. *)
Lemma section_any sw env name u d it : seqb name (str "HEADER") = false -> read_section sw env name u d it = read_section (fun it => it) env name u d it.
Proof. intros N. unfold read_section. rewrite N. reflexivity. Qed.
Lemma complete_section sw env name u d it d' u' r : read_section sw env name u d it = Ok (d', u', r) -> complete d -> complete d'.
Proof.
  intros H C. destruct (seqb name (str "HEADER")) eqn:N.
  - unfold read_section in H. rewrite N in H. destruct (read_header _ _ _ _ _) as [[x r']|e]; cbn [bind] in H; [|discriminate H]. injection H as <- _ _. apply (complete_same d _ C); [intros k; destruct d, k|destruct d|destruct d|destruct d]; reflexivity.
  - rewrite section_any in H by exact N. destruct (section_effect _ _ _ _ _ _ _ _ N H) as (f & _ & -> & _). apply complete_apply, C.
Qed.
Lemma complete_sections sw env ag : (forall d it d' r, ag d it = Ok (d', r) -> complete d -> complete d') ->
  forall f u d it d' r, sections_with sw env ag f u d it = Ok (d', r) -> complete d -> complete d'.
Proof.
  intros A. induction f as [|f IH]; intros u d it d' r H C; [discriminate H|]. cbn [sections_with] in H. destruct it as [|[p|e] it]; [injection H as <- _; exact C| |discriminate H].
  destruct (Z.eqb (p_code p) 0); [|discriminate H]. destruct (assert_string p) as [s|e]; cbn [bind] in H; [|discriminate H]. destruct (seqb s (str "EOF")); [injection H as <- _; exact C|].
  destruct (seqb s (str "SECTION")); [|discriminate H]. destruct it as [|[q|e] it]; [discriminate H| |discriminate H].
  match type of H with match ?x with Some _ => _ | None => _ end = _ => destruct x as [name|]; [|discriminate H] end.
  destruct (read_section sw env name u d it) as [[[d1 u1] r2]|e] eqn:X; cbn [bind] in H; [|discriminate H]. destruct (expect "ENDSEC" r2) as [r3|e]; cbn [bind] in H; [|discriminate H].
  pose proof (complete_section _ _ _ _ _ _ _ _ _ X C) as C1. cbn [fst snd] in H. destruct (negb u && u1); [exact (A _ _ _ _ H C1)|exact (IH _ _ _ _ _ H C1)].
Qed.
Lemma complete_load sw env it d : load sw env it = Ok d -> complete d.
Proof.
  unfold load, load_from, read_sections. intros H. destruct (sections_with sw env _ _ false (start env) it) as [[d1 r]|e] eqn:X; cbn [bind] in H; [|discriminate H].
  assert (C : complete d1).
  { apply (fun A => complete_sections sw env _ A _ _ _ _ _ _ X (complete_empty _)). intros a b c e. apply complete_sections. discriminate. }
  destruct r as [|[p|e] r]; [injection H as <-; exact C| |discriminate H]. destruct (is_zero "EOF" p); [injection H as <-; exact C|discriminate H].
Qed.
Lemma complete_dxb env bs d : DxbModel.load_dxb env bs = Ok d -> complete d.
Proof.
  unfold DxbModel.load_dxb. intros H. destruct bs as [|a [|b r]]; [discriminate H|destruct (_ =? _); discriminate H|]. destruct (a =? _); [|discriminate H]. destruct (b =? 0); [|discriminate H].
  destruct (DxbModel.read_items _ _ _ _) as [[base es]|e]; cbn [bind] in H; [|discriminate H]. injection H as <-. destruct base as [p|]; [apply complete_add_block, complete_empty|].
  apply complete_fold; [|apply complete_empty]. intros e x C. apply complete_add_entity, C.
Qed.
Lemma complete_bytes env enc bs d : load_bytes env enc bs = Ok d -> complete d.
Proof.
  unfold load_bytes. destruct (after_dxb_line enc bs) as [r|]; [apply complete_dxb|]. destruct (open_reader enc bs) as [rd|e]; cbn [bind]; [apply complete_load|discriminate].
Qed.
