(** A whole drawing, written and read back. *)
From Verif Require Import Base F64Model CodePairModel CodePairProofs ReaderProofs VersionModel StreamModel ExtDataModel SpecModel SpecSpec SpecCheck SpecProofs SpecCoverProofs SpecWitness TableData TableProps
  EntityData EntityProps ObjectData ObjectProps SectionData HeaderModel HeaderSpec HeaderProofs HeaderData HeaderProps CustomModel CustomSpec ThumbnailModel ThumbnailSpec ThumbnailProps DrawingModel DrawingSpec DrawingProofs
  FileModel SuffixProofs LoadSpec LoadProofs SkipProofs GatherProofs FileSpec ReturnProofs PartsProofs.
Open Scope string_scope.
Open Scope list_scope.
Open Scope Z_scope.
Set Default Goal Selector "!".

(** * Handles *)
Definition handle_field (s : string) (v : version) (wh : bool) (f : field) : bool :=
  String.eqb (f_name f) s && f_public f && match f_comps f with [] => true | _ => false end &&
  existsb (fun w => match w_min w with Some m => version_leb m v | None => true end && match w_max w with Some m => version_leb v m | None => true end &&
    (negb (w_handles w) || wh) && match w_when w with None => true | _ => false end) (f_windows f).
Lemma handle_kept s t v wh lost st st' h : existsb (handle_field s v wh) (it_fields t) = true -> ~ In s lost -> keeps t v wh lost st st' ->
  st s = FHandle h -> st' s = FHandle h.
Proof.
  intros H Hl K Hs. apply existsb_exists in H as [f [Hf H]]. unfold handle_field in H. apply andb_true_iff in H as [H Hw]. apply andb_true_iff in H as [H Hc].
  apply andb_true_iff in H as [Hn Hp]. apply String.eqb_eq in Hn. subst s. destruct (K f Hf Hp Hl) as [K1 _]. unfold kept in K1. destruct (f_comps f); [|discriminate Hc]. rewrite Hs in K1.
  apply same_handle, K1. apply existsb_exists in Hw as [w [Iw Hw]]. exists w. split; [exact Iw|]. apply andb_true_iff in Hw as [Hw H4]. apply andb_true_iff in Hw as [Hw H3].
  apply andb_true_iff in Hw as [H1 H2]. unfold window_applies, version_leb in *. repeat split.
  - destruct (w_min w); [lia|exact Logic.I].
  - destruct (w_max w); [lia|exact Logic.I].
  - intros X. rewrite X in H3. exact H3.
  - destruct (w_when w); [discriminate H4|exact Logic.I].
Qed.
Lemma keeps_more t v wh lost more st st' : keeps t v wh lost st st' -> keeps t v wh (more ++ lost) st st'.
Proof. intros K f Hf Hp Hl. apply K; [exact Hf|exact Hp|]. intros X. apply Hl, in_or_app. right. exact X. Qed.
Lemma keeps_renumbered s t v wh lost st st' st'' : keeps t v wh lost st st' -> (forall n, n <> s -> st'' n = st' n) -> keeps t v wh ([s] ++ lost) st st''.
Proof.
  intros K H f Hf Hp Hl. rewrite H; [apply K; [exact Hf|exact Hp|]|]; intros X; apply Hl; [right; exact X|left; symmetry; exact X].
Qed.
Lemma keeps_nil t v wh lost st st' : keeps t v wh ([] ++ lost) st st' -> keeps t v wh lost st st'.
Proof. intros H. exact H. Qed.
Lemma unless_true s : unless true s = []. Proof. reflexivity. Qed.

Lemma entity_handles_checked : forallb (fun t => forallb (fun v => existsb (handle_field "common.handle" v true) (it_fields t) && negb (memb "common.handle" (entity_lost t v))) all_versions) entities = true.
Proof. vm_compute. reflexivity. Qed.
Lemma type_of_in e t : type_of e = Some t -> In t entities.
Proof.
  unfold type_of. destruct (en_specific e) as [q [|c l]|q l|x|n x|n x|n]; intros H.
  1-3: injection H as <-; cbn [entities In]; tauto.
  all: apply type_named_in in H; apply H.
Qed.
(** An entity as it ends up in the drawing. *)
Definition renumbered (e e' : entity) : Prop :=
  e' = e \/ en_handle e = 0%N /\ en_layer e' = en_layer e /\ en_line_type e' = en_line_type e /\ en_fields e' = en_fields e /\
    entity_type (en_specific e') = entity_type (en_specific e) /\ map fst (children (en_specific e')) = map fst (children (en_specific e)) /\
    match en_specific e with EInsert _ _ => exists q l, en_specific e' = EInsert q l | EPolyline _ _ => exists q l, en_specific e' = EPolyline q l | s => en_specific e' = s end.
Lemma entity_store_handle e e' : en_layer e' = en_layer e -> en_line_type e' = en_line_type e -> en_fields e' = en_fields e -> entity_style (en_specific e') = entity_style (en_specific e) ->
  forall n, n <> "common.handle" -> entity_store e' n = entity_store e n.
Proof. intros H1 H2 H3 H4 n Hn. unfold entity_store. rewrite H1, H2, H3, H4, !(of_fields_skip "common.handle") by exact Hn. reflexivity. Qed.
Lemma Forall2_fst {A B} (R : A -> (B * N) -> Prop) l m m' : (forall a x h h', R a (x, h) -> R a (x, h')) -> Forall2 R l m -> map fst m' = map fst m -> Forall2 R l m'.
Proof.
  intros HR F. revert m'. induction F as [|a [x h] l m H F IH]; intros m' E; destruct m' as [|[x' h'] m']; try discriminate E; [constructor|]. cbn [map fst] in E. injection E as -> E.
  constructor; [exact (HR _ _ _ _ H)|apply IH, E].
Qed.
Lemma entity_moved more v wh e e' e'' : entity_back more v wh e e' -> en_layer e'' = en_layer e' -> en_line_type e'' = en_line_type e' -> en_fields e'' = en_fields e' ->
  entity_type (en_specific e'') = entity_type (en_specific e') -> map fst (children (en_specific e'')) = map fst (children (en_specific e')) ->
  match en_specific e' with EInsert _ _ => exists q l, en_specific e'' = EInsert q l | EPolyline _ _ => exists q l, en_specific e'' = EPolyline q l | s => en_specific e'' = s end ->
  entity_back ("common.handle" :: more) v wh e e''.
Proof.
  intros [t [Ht [Hn [K S]]]] H1 H2 H3 H4 H5 H6. exists t. split; [exact Ht|]. split; [congruence|]. split.
  - change ("common.handle" :: more) with (["common.handle"] ++ more). rewrite <- app_assoc. apply (keeps_renumbered "common.handle" t v wh _ _ (entity_store e')); [exact K|].
    apply entity_store_handle; [exact H1|exact H2|exact H3|]. destruct (en_specific e') as [q l|q l|x|n x|n x|n]; try (rewrite H6; reflexivity); destruct H6 as [q' [l' H6]]; rewrite H6; reflexivity.
  - assert (T : text_of e'' = text_of e') by (unfold text_of; rewrite H3; reflexivity). rewrite T.
    destruct (en_specific e) as [q l|q l|x|n x|n x|n], (en_specific e') as [q1 l1|q1 l1|x1|n1 x1|n1 x1|n1]; try contradiction; try exact S; cbn [children] in H5;
      try (destruct H6 as [q2 [l2 H6]]); rewrite H6 in *; try contradiction; cbn [children] in H5; try exact S; revert S H5; apply Forall2_fst; intros a y h h' X; exact X.
Qed.
Lemma entity_number v wh e e' : entity_back [] v wh e e' -> has_handle wh (en_handle e) = true -> en_handle e' = en_handle e.
Proof.
  intros [t [Ht [_ [K _]]]] H. unfold has_handle in H. apply andb_true_iff in H as [-> H]. pose proof (proj1 (forallb_forall _ _) entity_handles_checked t (type_of_in e t Ht)) as C. cbv beta in C.
  rewrite forallb_forall in C. specialize (C v (all_versions_all v)). apply andb_true_iff in C as [C1 C2]. apply negb_true_iff in C2.
  assert (Q : entity_store e' "common.handle" = FHandle (en_handle e)).
  { assert (N : ~ In "common.handle" (entity_lost t v)) by (apply memb_false; exact C2). apply keeps_nil in K.
    refine (handle_kept "common.handle" t v true (entity_lost t v) (entity_store e) (entity_store e') (en_handle e) C1 N K _). unfold entity_store. apply of_fields_here. }
  unfold entity_store in Q. rewrite of_fields_here in Q. injection Q as Q. exact Q.
Qed.
Lemma entity_put v wh e e' e'' : entity_back [] v wh e e' -> renumbered e' e'' -> entity_returned v wh e e''.
Proof.
  intros B R. unfold entity_returned. destruct R as [->|[H0 [H1 [H2 [H3 [H4 [H5 H6]]]]]]].
  - destruct B as [t [Ht [Hn [K S]]]]. exists t. split; [exact Ht|]. split; [exact Hn|]. split; [apply keeps_more; apply keeps_nil in K; exact K|exact S].
  - destruct (has_handle wh (en_handle e)) eqn:E.
    + exfalso. pose proof (entity_number v wh e e' B E) as Q. unfold has_handle in E. apply andb_true_iff in E as [_ E]. rewrite <- Q, H0 in E. cbn in E. discriminate E.
    + exact (entity_moved [] v wh e e' e'' B H1 H2 H3 H4 H5 H6).
Qed.

(** Table entries. *)
Lemma table_handles_checked : forallb (fun t => forallb (fun v => existsb (handle_field "handle" v true) (it_fields t)) all_versions) tables = true.
Proof. vm_compute. reflexivity. Qed.
Definition renumbered_entry (x x' : titem) : Prop := x' = x \/ ti_handle x = 0%N /\ exists h, x' = give h x.
Lemma entry_put k v wh x x' x'' : entry_back [] k v wh x x' -> renumbered_entry x' x'' -> entry_returned k v wh x x''.
Proof.
  intros K R. unfold entry_returned, entry_back in *. destruct R as [->|[H0 [h ->]]]; [apply keeps_more; apply keeps_nil in K; exact K|]. destruct (has_handle wh (ti_handle x)) eqn:E.
  - exfalso. unfold has_handle in E. apply andb_true_iff in E as [-> E]. pose proof (proj1 (forallb_forall _ _) table_handles_checked _ (in_tables k)) as C. cbv beta in C.
    rewrite forallb_forall in C. specialize (C v (all_versions_all v)).
    assert (Q : titem_store x' "handle" = FHandle (ti_handle x)).
    { refine (handle_kept "handle" (table_spec k) v true ([] ++ ["__owner_handle"]) (titem_store x) (titem_store x') (ti_handle x) C _ K _); [intros [X|[]]; discriminate X|]. unfold titem_store. apply of_fields_here. }
    unfold titem_store in Q. rewrite of_fields_here, H0 in Q. injection Q as Q. rewrite <- Q in E. cbn in E. discriminate E.
  - cbn [unless]. apply (keeps_renumbered "handle" _ _ _ _ _ (titem_store x')); [exact K|]. intros n Hn. unfold titem_store, give. cbn [ti_handle ti_name ti_fields].
    rewrite !(of_fields_skip "handle") by exact Hn. reflexivity.
Qed.

(** Objects. *)
Lemma object_handles_checked : forallb (fun t => forallb (fun v => existsb (handle_field "common.handle" v true) (it_fields t)) all_versions) objects = true.
Proof. vm_compute. reflexivity. Qed.
Definition renumbered_object (o o' : object) : Prop := o' = o \/ ob_handle o = 0%N /\ exists h, o' = mk_object h (ob_specific o) (ob_fields o).
Lemma object_store_handle o h n : n <> "common.handle" -> object_store (mk_object h (ob_specific o) (ob_fields o)) n = object_store o n.
Proof. intros Hn. unfold object_store. cbn [ob_handle ob_specific ob_fields]. rewrite !(of_fields_skip "common.handle") by exact Hn. reflexivity. Qed.
Lemma object_own_handle o : object_store o "common.handle" = FHandle (ob_handle o).
Proof. unfold object_store. apply of_fields_here. Qed.
Lemma common_more v lost more st st' : common_back v lost st st' -> common_back v (more ++ lost) st st'.
Proof. intros K f Hf Hl. apply K; [exact Hf|]. intros X. apply Hl, in_or_app. right. exact X. Qed.
Lemma common_renumbered v lost st st' st'' : common_back v lost st st' -> (forall n, n <> "common.handle" -> st'' n = st' n) -> common_back v (["common.handle"] ++ lost) st st''.
Proof. intros K H f Hf Hl. rewrite H; [apply K; [exact Hf|]|]; intros X; apply Hl; [right; exact X|left; symmetry; exact X]. Qed.
Lemma common_number v lost st st' h : common_back v lost st st' -> ~ In "common.handle" lost -> st "common.handle" = FHandle h -> st' "common.handle" = FHandle h.
Proof.
  intros K Hl Hs. destruct (K (mk_field "common.handle" KHandle true [5] [mk_win None None false None] []) (or_introl eq_refl) Hl) as [K1 _]. cbn [f_name] in K1. rewrite <- Hs. apply K1.
  exists (mk_win None None false None). split; [left; reflexivity|]. repeat split.
Qed.
Lemma plain_put t v lost o o' o'' : In t objects -> keeps t v true lost (object_store o) (object_store o') -> renumbered_object o' o'' ->
  keeps t v true (unless (has_handle true (ob_handle o)) "common.handle" ++ lost) (object_store o) (object_store o'').
Proof.
  intros Ht K [->|[H0 [h ->]]]; [apply keeps_more, K|].
  pose proof (keeps_renumbered "common.handle" t v true lost _ _ _ K (fun n Hn => object_store_handle o' h n Hn)) as R.
  destruct (has_handle true (ob_handle o)) eqn:E; [|exact R]. cbn [unless app]. destruct (memb "common.handle" lost) eqn:M.
  - intros f Hf Hp Hl. apply R; [exact Hf|exact Hp|]. intros [X|X]; apply Hl; [rewrite <- X; apply memb_In, M|exact X].
  - exfalso. pose proof (proj1 (forallb_forall _ _) object_handles_checked t Ht) as C. cbv beta in C. rewrite forallb_forall in C. specialize (C v (all_versions_all v)).
    pose proof (handle_kept "common.handle" t v true lost (object_store o) (object_store o') (ob_handle o) C (memb_false _ _ M) K (object_own_handle o)) as Q.
    rewrite object_own_handle, H0 in Q. injection Q as Q. rewrite <- Q in E. cbn in E. discriminate E.
Qed.
Lemma common_put v lost o o' o'' : ~ In "common.handle" lost -> common_back v lost (object_store o) (object_store o') -> renumbered_object o' o'' ->
  common_back v (unless (has_handle true (ob_handle o)) "common.handle" ++ lost) (object_store o) (object_store o'').
Proof.
  intros Hl K [->|[H0 [h ->]]]; [apply common_more, K|].
  destruct (has_handle true (ob_handle o)) eqn:E; [|exact (common_renumbered v lost _ _ _ K (fun n Hn => object_store_handle o' h n Hn))]. exfalso.
  pose proof (common_number _ _ _ _ _ K Hl (object_own_handle o)) as Q. rewrite object_own_handle, H0 in Q. injection Q as Q. rewrite <- Q in E. cbn in E. discriminate E.
Qed.
Lemma object_put v o o' o'' : object_back [] v o o' -> renumbered_object o' o'' -> object_returned v o o''.
Proof.
  intros B R. unfold object_returned. assert (Q1 : ob_specific o'' = ob_specific o') by (destruct R as [->|[_ [h ->]]]; reflexivity).
  unfold object_back in *. rewrite Q1. clear Q1. destruct (ob_specific o) as [x|l|l|x|c|x].
  1-4,6: destruct (ob_specific o'); try contradiction; destruct B as [t' [Ht [N [M K]]]]; exists t'; (split; [exact Ht|]); (split; [exact N|]); (split; [exact M|]);
    apply keeps_nil in K; exact (plain_put t' v _ o o' o'' Ht K R).
  assert (N1 : ~ In "common.handle" ([] : list string)) by (intros []). assert (N2 : ~ In "common.handle" ["common.x_data"]) by (intros [X|[]]; discriminate X).
  destruct c, (ob_specific o') as [| | | |c'|]; try contradiction; destruct c'; try contradiction; destruct B as [B B']; (split; [|exact B']).
  1-3: rewrite <- (app_nil_r (unless _ _)); exact (common_put v [] o o' o'' N1 B R).
  exact (common_put v ["common.x_data"] o o' o'' N2 B R).
Qed.

(** Blocks. *)
Definition moved (e e' : entity) : Prop := en_layer e' = en_layer e /\ en_line_type e' = en_line_type e /\ en_specific e' = en_specific e /\ en_fields e' = en_fields e.
Definition renumbered_block (b b' : block) : Prop :=
  (bl_handle b' = bl_handle b \/ bl_handle b = 0%N) /\ bl_layer b' = bl_layer b /\ bl_name b' = bl_name b /\ bl_fields b' = bl_fields b /\ Forall2 moved (bl_entities b) (bl_entities b').
Lemma block_handles_checked : forallb (fun v => negb (version_leb R13 v) || existsb (handle_field "handle" v true) (it_fields block_head)) all_versions = true.
Proof. vm_compute. reflexivity. Qed.
Lemma members_moved v wh l l' l'' : all_back (unknown_to v) (entity_back [] v wh) l l' -> Forall2 moved l' l'' -> all_back (unknown_to v) (entity_back ["common.handle"] v wh) l l''.
Proof.
  intros B. revert l''. induction B as [|e l l' He B IH|e e' l l' He B IH]; intros l'' M.
  - inversion_clear M. apply back_nil.
  - apply back_skip; [exact He|apply IH, M].
  - inversion_clear M as [|? e'' ? m Hm M']. destruct Hm as [H1 [H2 [H3 H4]]]. apply back_keep; [|apply IH, M'].
    apply (entity_moved [] v wh e e' e'' He H1 H2 H4); rewrite H3; [reflexivity..|]. destruct (en_specific e'); eauto.
Qed.
Lemma block_put v wh b b' b'' : block_back [] [] v wh b b' -> renumbered_block b' b'' -> block_returned v wh b b''.
Proof.
  intros [K M] [H0 [H1 [H2 [H3 H4]]]]. split; [|exact (members_moved v wh _ _ _ M H4)].
  assert (R : forall n, n <> "handle" -> block_store b'' n = block_store b' n).
  { intros n Hn. unfold block_store. rewrite H1, H2, H3, !(of_fields_skip "handle") by exact Hn. reflexivity. }
  assert (St : forall x, block_store x "handle" = FHandle (bl_handle x)) by (intros x; unfold block_store; apply of_fields_here).
  destruct (has_handle (wh && version_leb R13 v) (bl_handle b)) eqn:E; [|exact (keeps_renumbered "handle" _ _ _ _ _ _ _ K R)].
  unfold has_handle in E. apply andb_true_iff in E as [E1 E2]. apply andb_true_iff in E1 as [-> E1].
  pose proof (proj1 (forallb_forall _ _) block_handles_checked v (all_versions_all v)) as C. cbv beta in C. rewrite E1 in C. cbn [negb orb] in C.
  assert (Q : block_store b' "handle" = FHandle (bl_handle b)) by (apply (handle_kept "handle" block_head v true ([] ++ ["x_data"]) (block_store b) (block_store b') (bl_handle b) C); [intros [X|[]]; discriminate X|exact K|apply St]).
  rewrite St in Q. injection Q as Q. assert (Q' : bl_handle b'' = bl_handle b').
  { destruct H0 as [H0|H0]; [exact H0|]. rewrite <- Q, H0 in E2. cbn in E2. discriminate E2. }
  cbn [unless app]. intros f Hf Hp Hl. specialize (K f Hf Hp Hl). destruct (String.eqb_spec (f_name f) "handle") as [X|X]; [rewrite X in *; rewrite St, Q', <- St; exact K|].
  rewrite (R _ X). exact K.
Qed.

(** * What reading an item does to the rest of the drawing *)
Definition base_same (d d' : drawing) : Prop :=
  (DrawingSpec.next_of d <= DrawingSpec.next_of d')%N /\ dr_header d' = set_next (DrawingSpec.next_of d') (dr_header d) /\ dr_classes d' = dr_classes d /\ dr_thumbnail d' = dr_thumbnail d.
Lemma base_refl d : base_same d d.
Proof. split; [lia|]. split; [symmetry; apply set_next_same|split; reflexivity]. Qed.
Lemma base_trans a b c : base_same a b -> base_same b c -> base_same a c.
Proof. intros (A1 & A2 & A3 & A4) (B1 & B2 & B3 & B4). split; [lia|]. split; [rewrite B2, A2, set_next_twice; reflexivity|split; congruence]. Qed.
Lemma base_of d d' : (DrawingSpec.next_of d <= DrawingSpec.next_of d')%N -> rest_same d d' -> base_same d d'.
Proof. intros H (R1 & R2 & R3 & R4 & R5). split; [exact H|split; [exact R5|split; assumption]]. Qed.

Definition styles_added (d d' : drawing) : Prop := exists new, dr_objects d' = dr_objects d ++ new /\ Forall default_style new.
Lemma styles_refl d d' : dr_objects d' = dr_objects d -> styles_added d d'.
Proof. intros H. exists []. rewrite app_nil_r. split; [exact H|constructor]. Qed.
Lemma styles_trans a b c : styles_added a b -> styles_added b c -> styles_added a c.
Proof. intros [n1 [E1 F1]] [n2 [E2 F2]]. exists (n1 ++ n2). rewrite E2, E1, app_assoc. split; [reflexivity|apply Forall_app; split; assumption]. Qed.
Lemma mline_styles n d : styles_added d (ensure_mline_style n d).
Proof.
  unfold ensure_mline_style. destruct (existsb _ _); [apply styles_refl; reflexivity|]. destruct (add_object_spec (default_mline_style n) d) as (d1 & E & _). rewrite E.
  exists [mk_object (DrawingSpec.next_of d) (OMLineStyle n) (ob_fields (default_mline_style n))]. rewrite objects_set_objects. split; [reflexivity|]. constructor; [|constructor].
  exists n, (DrawingSpec.next_of d). reflexivity.
Qed.
Lemma ensure_objects k n d : dr_objects (ensure k n d) = dr_objects d.
Proof. destruct (ensure_ext k n d) as [(_ & _ & _ & H) _]. exact H. Qed.
Lemma set_entities_objects l d : dr_objects (set_entities l d) = dr_objects d.
Proof. destruct d. reflexivity. Qed.
Lemma set_entities_entities l d : dr_entities (set_entities l d) = l.
Proof. destruct d. reflexivity. Qed.
Lemma set_entities_base l d : base_same d (set_entities l d) /\ dr_blocks (set_entities l d) = dr_blocks d.
Proof. destruct d as [h ? ? ? ? ? ? ? ? ? ? ? ? ? ?]. split; [|reflexivity]. split; [unfold DrawingSpec.next_of; cbn; lia|]. split; [|split; reflexivity]. unfold DrawingSpec.next_of. cbn. symmetry. apply set_next_same. Qed.
Lemma push_entity_styles e d : styles_added d (push_entity e d).
Proof.
  unfold push_entity. set (d1 := match en_specific e with EMLine s => ensure_mline_style s d | _ => d end). assert (S : styles_added d d1) by (unfold d1; destruct (en_specific e); try (apply styles_refl; reflexivity); apply mline_styles).
  apply (styles_trans d d1); [exact S|]. apply styles_refl. rewrite set_entities_objects. destruct (en_specific e); cbv zeta; rewrite ?ensure_objects; reflexivity.
Qed.
Lemma add_entity_styles e d : styles_added d (add_entity e d).
Proof.
  unfold add_entity. destruct (number_entity e d) as [e' d0] eqn:E. destruct (number_entity_spec _ _ _ _ E) as (_ & _ & _ & O & _).
  apply (styles_trans d d0); [apply styles_refl, O|apply push_entity_styles].
Qed.
Lemma specific_moved e e' : match en_specific e with EInsert _ _ | EPolyline _ _ => True | s => en_specific e' = s end -> (* numbering keeps the variant *)
  match en_specific e with EInsert _ _ => exists q l, en_specific e' = EInsert q l | EPolyline _ _ => exists q l, en_specific e' = EPolyline q l | _ => True end ->
  match en_specific e with EInsert _ _ => exists q l, en_specific e' = EInsert q l | EPolyline _ _ => exists q l, en_specific e' = EPolyline q l | s => en_specific e' = s end.
Proof. destruct (en_specific e); auto. Qed.
Lemma number_variant e d : match en_specific e with EInsert _ _ => exists q l, en_specific (fst (number_entity e d)) = EInsert q l
  | EPolyline _ _ => exists q l, en_specific (fst (number_entity e d)) = EPolyline q l | _ => True end.
Proof.
  unfold number_entity. rewrite next_handle_pair. destruct (en_specific e); try exact Logic.I; rewrite next_handle_pair; destruct (give_children _ _) as [l2 d2]; cbn [fst en_specific]; eauto.
Qed.
Lemma put_entity_spec d e : exists e', let d' := put_entity d e in
  dr_entities d' = dr_entities d ++ [e'] /\ renumbered e e' /\ (forall k, appended k d d') /\ base_same d d' /\ dr_blocks d' = dr_blocks d /\ styles_added d d'.
Proof.
  unfold put_entity. destruct (N.eqb_spec (en_handle e) 0) as [H|H].
  - pose proof (add_entity_styles e d) as S. unfold add_entity in *. pose proof (number_variant e d) as V. destruct (number_entity e d) as [e' d0] eqn:E. cbn [fst] in V.
    destruct (number_entity_spec _ _ _ _ E) as (_ & T & R & O & N & X1 & X2 & X3 & X4 & X5 & X6 & X7 & _).
    destruct (push_entity_spec e' d0) as (d1 & P & [NG _] & A & R1 & _). exists e'. cbv zeta. rewrite P in *. destruct (set_entities_base (dr_entities d0 ++ [e']) d1) as [B1 B2].
    assert (R' := R). destruct R' as (_ & Rb & Re & _). rewrite set_entities_entities, B2, Re. split; [reflexivity|]. split.
    { right. split; [exact H|]. split; [exact X2|]. split; [exact X3|]. split; [exact X4|]. split; [exact X5|]. split; [exact X6|]. exact (specific_moved _ _ X7 V). }
    split; [intros k; apply (appended_via k d0 d1); [apply A|symmetry; apply T|apply tget_set_entities]|].
    split; [|split; [destruct R1 as (_ & R2 & _); congruence|rewrite <- Re; exact S]]. rewrite <- Re. eapply base_trans; [|exact B1]. apply base_of; [lia|exact (rest_trans _ _ _ R R1)].
  - pose proof (push_entity_styles e d) as S. destruct (push_entity_spec e d) as (d1 & P & [NG _] & A & R1 & _). exists e. cbv zeta. rewrite P in *.
    destruct (set_entities_base (dr_entities d ++ [e]) d1) as [B1 B2]. rewrite set_entities_entities, B2. split; [reflexivity|]. split; [left; reflexivity|].
    split; [intros k; apply (appended_via k d d1); [apply A|reflexivity|apply tget_set_entities]|].
    split; [|split; [apply R1|exact S]]. eapply base_trans; [|exact B1]. apply base_of; [exact NG|exact R1].
Qed.
Lemma put_entities_spec xs : forall d, exists ys, let d' := fold_left put_entity xs d in
  dr_entities d' = dr_entities d ++ ys /\ Forall2 renumbered xs ys /\ (forall k, appended k d d') /\ base_same d d' /\ dr_blocks d' = dr_blocks d /\ styles_added d d'.
Proof.
  induction xs as [|e xs IH]; intros d; cbn [fold_left].
  - exists []. cbv zeta. rewrite app_nil_r. split; [reflexivity|]. split; [constructor|]. split; [intros k; apply appended_refl|]. split; [apply base_refl|]. split; [reflexivity|apply styles_refl; reflexivity].
  - destruct (put_entity_spec d e) as [e' (A1 & A2 & A3 & A4 & A5 & A6)]. cbv zeta in *. destruct (IH (put_entity d e)) as [ys (B1 & B2 & B3 & B4 & B5 & B6)]. exists (e' :: ys).
    split; [rewrite B1, A1, <- app_assoc; reflexivity|]. split; [constructor; assumption|]. split; [intros k; exact (appended_trans _ _ _ _ (A3 k) (B3 k))|].
    split; [exact (base_trans _ _ _ A4 B4)|]. split; [congruence|exact (styles_trans _ _ _ A6 B6)].
Qed.

Lemma set_objects_base l d : base_same d (set_objects l d) /\ dr_blocks (set_objects l d) = dr_blocks d /\ dr_entities (set_objects l d) = dr_entities d.
Proof. destruct d as [h ? ? ? ? ? ? ? ? ? ? ? ? ? ?]. split; [|split; reflexivity]. split; [unfold DrawingSpec.next_of; cbn; lia|]. split; [|split; reflexivity]. unfold DrawingSpec.next_of. cbn. symmetry. apply set_next_same. Qed.
Lemma put_object_spec d o : exists o', let d' := put_object d o in
  dr_objects d' = dr_objects d ++ [o'] /\ renumbered_object o o' /\ (forall k, appended k d d') /\ base_same d d' /\ dr_blocks d' = dr_blocks d /\ dr_entities d' = dr_entities d.
Proof.
  unfold put_object. destruct (N.eqb_spec (ob_handle o) 0) as [H|H].
  - destruct (add_object_spec o d) as (d1 & P & [NG _] & A & R & _). exists (mk_object (DrawingSpec.next_of d) (ob_specific o) (ob_fields o)). cbv zeta. rewrite P in *. rewrite objects_set_objects. split; [reflexivity|].
    split; [right; split; [exact H|eexists; reflexivity]|]. split; [intros k; apply (appended_via k d d1); [apply A|reflexivity|apply tget_set_objects]|].
    match goal with |- context [set_objects ?l d1] => destruct (set_objects_base l d1) as [B1 [B2 B3]] end. rewrite next_set_objects in NG. rewrite B2, B3.
    split; [eapply base_trans; [|exact B1]; apply base_of; assumption|]. destruct R as (_ & R1 & R2 & _). auto.
  - destruct (push_object_spec o d) as (d1 & (G & A & R & O) & P & _). exists o. cbv zeta. rewrite P. rewrite objects_set_objects, O. split; [reflexivity|]. split; [left; reflexivity|].
    split; [intros k; apply (appended_via k d d1); [apply A|reflexivity|apply tget_set_objects]|].
    match goal with |- context [set_objects ?l d1] => destruct (set_objects_base l d1) as [B1 [B2 B3]] end. rewrite B2, B3.
    split; [eapply base_trans; [|exact B1]; apply base_of; [apply G|assumption]|]. destruct R as (_ & R1 & R2 & _). auto.
Qed.
Lemma put_objects_spec xs : forall d, exists ys, let d' := fold_left put_object xs d in
  dr_objects d' = dr_objects d ++ ys /\ Forall2 renumbered_object xs ys /\ (forall k, appended k d d') /\ base_same d d' /\ dr_blocks d' = dr_blocks d /\ dr_entities d' = dr_entities d.
Proof.
  induction xs as [|o xs IH]; intros d; cbn [fold_left].
  - exists []. cbv zeta. rewrite app_nil_r. split; [reflexivity|]. split; [constructor|]. split; [intros k; apply appended_refl|]. split; [apply base_refl|]. split; reflexivity.
  - destruct (put_object_spec d o) as [o' (A1 & A2 & A3 & A4 & A5 & A6)]. cbv zeta in *. destruct (IH (put_object d o)) as [ys (B1 & B2 & B3 & B4 & B5 & B6)]. exists (o' :: ys).
    split; [rewrite B1, A1, <- app_assoc; reflexivity|]. split; [constructor; assumption|]. split; [intros k; exact (appended_trans _ _ _ _ (A3 k) (B3 k))|].
    split; [exact (base_trans _ _ _ A4 B4)|]. split; congruence.
Qed.

Lemma set_blocks_base l d : base_same d (set_blocks l d) /\ dr_objects (set_blocks l d) = dr_objects d /\ dr_entities (set_blocks l d) = dr_entities d /\ dr_blocks (set_blocks l d) = l.
Proof. destruct d as [h ? ? ? ? ? ? ? ? ? ? ? ? ? ?]. split; [|split; [|split]; reflexivity]. split; [unfold DrawingSpec.next_of; cbn; lia|]. split; [|split; reflexivity]. unfold DrawingSpec.next_of. cbn. symmetry. apply set_next_same. Qed.
Lemma put_block_spec d b : exists b' r, let d' := put_block d b in
  dr_blocks d' = dr_blocks d ++ [b'] /\ renumbered_block b b' /\ (forall k, k <> TBlockRecord -> appended k d d') /\
  tget TBlockRecord d' = tget TBlockRecord d ++ [r] /\ made_for TBlockRecord (bl_name b) r /\
  base_same d d' /\ dr_objects d' = dr_objects d /\ dr_entities d' = dr_entities d.
Proof.
  unfold put_block. destruct (N.eqb_spec (bl_handle b) 0) as [H|H].
  - destruct (add_block_spec b d) as (b' & d1 & P & B1 & B2 & B3 & B4 & B5 & R & O & A & [h BR] & _ & _ & [NG _]). exists b'. eexists. cbv zeta. rewrite P in *.
    destruct (set_blocks_base (dr_blocks d ++ [b']) d1) as [C1 [C2 [C3 C4]]]. rewrite next_set_blocks in NG. rewrite C2, C3, C4, tget_set_blocks, BR. split; [reflexivity|].
    split; [split; [right; exact H|]; split; [exact B2|]; split; [exact B3|]; split; [exact B4|exact B5]|].
    split; [intros k Hk; apply (appended_via k d d1); [apply A, Hk|reflexivity|apply tget_set_blocks]|]. split; [reflexivity|]. split; [eexists; reflexivity|].
    split; [eapply base_trans; [|exact C1]; apply base_of; assumption|]. destruct R as (_ & _ & R2 & _). auto.
  - destruct (push_block_spec b d) as (b' & d1 & P & B1 & B2 & B3 & B4 & B5 & NG & R & O & A & [h BR] & _). exists b'. eexists. cbv zeta. rewrite P in *.
    destruct (set_blocks_base (dr_blocks d ++ [b']) d1) as [C1 [C2 [C3 C4]]]. rewrite C2, C3, C4, tget_set_blocks, BR. split; [reflexivity|].
    split; [split; [left; exact B1|]; split; [exact B2|]; split; [exact B3|]; split; [exact B4|exact B5]|].
    split; [intros k Hk; apply (appended_via k d d1); [apply A, Hk|reflexivity|apply tget_set_blocks]|]. split; [reflexivity|]. split; [eexists; reflexivity|].
    split; [eapply base_trans; [|exact C1]; apply base_of; assumption|]. destruct R as (_ & _ & R2 & _). auto.
Qed.
Lemma put_blocks_spec xs : forall d, exists ys rs, let d' := fold_left put_block xs d in
  dr_blocks d' = dr_blocks d ++ ys /\ Forall2 renumbered_block xs ys /\ (forall k, k <> TBlockRecord -> appended k d d') /\
  tget TBlockRecord d' = tget TBlockRecord d ++ rs /\ Forall2 (fun b => made_for TBlockRecord (bl_name b)) xs rs /\
  base_same d d' /\ dr_objects d' = dr_objects d /\ dr_entities d' = dr_entities d.
Proof.
  induction xs as [|b xs IH]; intros d; cbn [fold_left].
  - exists [], []. cbv zeta. rewrite !app_nil_r. split; [reflexivity|]. split; [constructor|]. split; [intros k _; apply appended_refl|]. split; [reflexivity|]. split; [constructor|]. split; [apply base_refl|]. split; reflexivity.
  - destruct (put_block_spec d b) as [b' [r (A1 & A2 & A3 & A4 & A5 & A6 & A7 & A8)]]. cbv zeta in *. destruct (IH (put_block d b)) as [ys [rs (B1 & B2 & B3 & B4 & B5 & B6 & B7 & B8)]]. exists (b' :: ys), (r :: rs).
    split; [rewrite B1, A1, <- app_assoc; reflexivity|]. split; [constructor; assumption|]. split; [intros k Hk; exact (appended_trans _ _ _ _ (A3 k Hk) (B3 k Hk))|].
    split; [rewrite B4, A4, <- app_assoc; reflexivity|]. split; [constructor; assumption|]. split; [exact (base_trans _ _ _ A6 B6)|]. split; congruence.
Qed.

Lemma tset_base k l d : base_same d (tset k l d) /\ dr_objects (tset k l d) = dr_objects d /\ dr_entities (tset k l d) = dr_entities d /\ dr_blocks (tset k l d) = dr_blocks d.
Proof. destruct (tset_rest k l d) as [R O]. split; [apply base_of; [rewrite next_tset; lia|exact R]|]. destruct R as (_ & R1 & R2 & _). auto. Qed.
(** An entry of table [k]: only the line types may get more entries. *)
Lemma put_titem_spec k d x : exists x', let d' := put_titem k d x in
  tget k d' = tget k d ++ [x'] /\ renumbered_entry x x' /\ (forall k', k' <> k -> k' <> TLineType -> tget k' d' = tget k' d) /\ (k <> TLineType -> appended TLineType d d') /\
  (k <> TLayer -> forall k', k' <> k -> tget k' d' = tget k' d) /\
  base_same d d' /\ dr_objects d' = dr_objects d /\ dr_entities d' = dr_entities d /\ dr_blocks d' = dr_blocks d.
Proof.
  assert (Plain : forall d k x, k <> TLayer -> tget k (push_item k x d) = tget k d ++ [x] /\ (forall k', k' <> k -> tget k' (push_item k x d) = tget k' d) /\
    base_same d (push_item k x d) /\ dr_objects (push_item k x d) = dr_objects d /\ dr_entities (push_item k x d) = dr_entities d /\ dr_blocks (push_item k x d) = dr_blocks d).
  { intros d0 k0 x0 _. unfold push_item. rewrite tget_tset_same. split; [reflexivity|]. split; [intros k' Hk; apply tget_tset_other; congruence|]. apply tset_base. }
  assert (Layer : forall d x, tget TLayer (push_layer x d) = tget TLayer d ++ [x] /\ (forall k', k' <> TLayer -> k' <> TLineType -> tget k' (push_layer x d) = tget k' d) /\
    appended TLineType d (push_layer x d) /\
    base_same d (push_layer x d) /\ dr_objects (push_layer x d) = dr_objects d /\ dr_entities (push_layer x d) = dr_entities d /\ dr_blocks (push_layer x d) = dr_blocks d).
  { intros d0 x0. unfold push_layer. set (n := field_string _ _). destruct (ensure_plain_ext TLineType n d0) as [(G & A & R & O) _]. set (d1 := ensure_plain TLineType n d0) in *.
    assert (T : forall k', k' <> TLineType -> tget k' d1 = tget k' d0) by (intros k' Hk; apply ensure_plain_other; congruence).
    unfold push_item. rewrite tget_tset_same, T by discriminate. split; [reflexivity|]. split; [intros k' H1 H2; rewrite tget_tset_other by congruence; apply T, H2|].
    split; [apply (appended_via TLineType d0 d1); [apply A|reflexivity|apply tget_tset_other; discriminate]|].
    destruct (tset_base TLayer (tget TLayer d0 ++ [x0]) d1) as [B1 [B2 [B3 B4]]]. rewrite B2, B3, B4. split; [exact (base_trans _ _ _ (base_of _ _ (proj1 G) R) B1)|].
    destruct R as (_ & R1 & R2 & _). auto. }
  assert (Nx : base_same d (snd (next_handle d)) /\ dr_objects (snd (next_handle d)) = dr_objects d /\ dr_entities (snd (next_handle d)) = dr_entities d /\ dr_blocks (snd (next_handle d)) = dr_blocks d).
  { destruct (next_handle_rest d) as [R O]. split; [apply base_of; [rewrite next_handle_next; lia|exact R]|]. destruct R as (_ & R1 & R2 & _). auto. }
  destruct Nx as (N1 & N2 & N3 & N4). unfold put_titem. destruct (N.eqb_spec (ti_handle x) 0) as [H|H].
  - exists (give (DrawingSpec.next_of d) x). cbv zeta. assert (RN : renumbered_entry x (give (DrawingSpec.next_of d) x)) by (right; split; [exact H|eexists; reflexivity]).
    destruct (tkind_dec k TLayer) as [->|Hk].
    + cbn [add_table]. unfold add_layer. rewrite next_handle_pair. destruct (Layer (snd (next_handle d)) (give (DrawingSpec.next_of d) x)) as (L1 & L2 & L3 & L4 & L5 & L6 & L7).
      rewrite L1, L5, L6, L7, N2, N3, N4, next_handle_tget. split; [reflexivity|]. split; [exact RN|]. split; [intros k' X Y; rewrite (L2 k' X Y); apply next_handle_tget|].
      split; [intros _; apply (appended_via TLineType (snd (next_handle d)) (push_layer (give (DrawingSpec.next_of d) x) (snd (next_handle d)))); [exact L3|symmetry; apply next_handle_tget|reflexivity]|].
      split; [intros X; congruence|]. split; [exact (base_trans _ _ _ N1 L4)|auto].
    + replace (add_table k x d) with (push_item k (give (DrawingSpec.next_of d) x) (snd (next_handle d))) by (destruct k; try congruence; cbn [add_table]; unfold add_plain; rewrite next_handle_pair; reflexivity).
      destruct (Plain (snd (next_handle d)) k (give (DrawingSpec.next_of d) x) Hk) as (L1 & L2 & L4 & L5 & L6 & L7). rewrite L1, L5, L6, L7, N2, N3, N4, next_handle_tget.
      assert (T : forall k', k' <> k -> tget k' (push_item k (give (DrawingSpec.next_of d) x) (snd (next_handle d))) = tget k' d) by (intros k' X; rewrite (L2 k' X); apply next_handle_tget).
      split; [reflexivity|]. split; [exact RN|]. split; [intros k' X _; exact (T k' X)|].
      split; [intros X; apply appended_same, T; congruence|]. split; [intros _; exact T|]. split; [exact (base_trans _ _ _ N1 L4)|auto].
  - exists x. cbv zeta. assert (RN : renumbered_entry x x) by (left; reflexivity). destruct (tkind_dec k TLayer) as [->|Hk].
    + cbn [push_table]. destruct (Layer d x) as (L1 & L2 & L3 & L4 & L5 & L6 & L7). rewrite L1, L5, L6, L7. split; [reflexivity|]. split; [exact RN|]. split; [exact L2|].
      split; [intros _; exact L3|]. split; [intros X; congruence|]. split; [exact L4|auto].
    + replace (push_table k x d) with (push_item k x d) by (destruct k; try congruence; reflexivity). destruct (Plain d k x Hk) as (L1 & L2 & L4 & L5 & L6 & L7). rewrite L1, L5, L6, L7.
      split; [reflexivity|]. split; [exact RN|]. split; [intros k' X _; exact (L2 k' X)|]. split; [intros X; apply appended_same, L2; congruence|]. split; [intros _; exact L2|]. split; [exact L4|auto].
Qed.
Lemma put_titems_spec k xs : forall d, exists ys, let d' := fold_left (put_titem k) xs d in
  tget k d' = tget k d ++ ys /\ Forall2 renumbered_entry xs ys /\ (forall k', k' <> k -> k' <> TLineType -> tget k' d' = tget k' d) /\ (k <> TLineType -> appended TLineType d d') /\
  (k <> TLayer -> forall k', k' <> k -> tget k' d' = tget k' d) /\
  base_same d d' /\ dr_objects d' = dr_objects d /\ dr_entities d' = dr_entities d /\ dr_blocks d' = dr_blocks d.
Proof.
  induction xs as [|x xs IH]; intros d; cbn [fold_left].
  - exists []. cbv zeta. rewrite app_nil_r. split; [reflexivity|]. split; [constructor|]. split; [reflexivity|]. split; [intros _; apply appended_refl|]. split; [reflexivity|]. split; [apply base_refl|]. split; [reflexivity|split; reflexivity].
  - destruct (put_titem_spec k d x) as [x' (A1 & A2 & A3 & A4 & A5 & A6 & A7 & A8 & A9)]. cbv zeta in *. destruct (IH (put_titem k d x)) as [ys (B1 & B2 & B3 & B4 & B5 & B6 & B7 & B8 & B9)]. exists (x' :: ys).
    split; [rewrite B1, A1, <- app_assoc; reflexivity|]. split; [constructor; assumption|]. split; [intros k' X Y; rewrite (B3 k' X Y); exact (A3 k' X Y)|].
    split; [intros X; exact (appended_trans _ _ _ _ (A4 X) (B4 X))|]. split; [intros X k' Y; rewrite (B5 X k' Y); exact (A5 X k' Y)|]. split; [exact (base_trans _ _ _ A6 B6)|]. split; [congruence|split; congruence].
Qed.
