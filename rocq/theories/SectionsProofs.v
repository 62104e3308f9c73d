(** Each section has the same effect wherever it stands. *)
From Verif Require Import Base CodePairModel CodePairProofs ReaderProofs VersionModel SpecModel SpecSpec TableData HeaderModel HeaderData ThumbnailModel DrawingModel DrawingSpec DrawingProofs FileModel FileSpec FileProofs LoadSpec LoadProofs
  LocalProofs TrailerProofs SectionsSpec.
Open Scope string_scope.
Open Scope list_scope.
Open Scope Z_scope.
Set Default Goal Selector "!".
Local Notation item := LoadSpec.item.
Local Notation idle := (fun it : feed => it).

(** * Effects *)
Inductive effect : Type :=
| FEntities (l : list entity) | FObjects (l : list object) | FClasses (l : list (list (string * fval))) | FEntries (l : list (tkind * titem))
| FBlocks (l : list block) | FThumbnail (t : option (list N)) | FNone.
Definition put_entry (d : drawing) (x : tkind * titem) : drawing := put_titem (fst x) d (snd x).
Definition apply (f : effect) (d : drawing) : drawing :=
  match f with
  | FEntities l => fold_left put_entity l d
  | FObjects l => fold_left put_object l d
  | FClasses l => set_classes (dr_classes d ++ l) d
  | FEntries l => fold_left put_entry l d
  | FBlocks l => fold_left put_block l d
  | FThumbnail t => set_thumbnail t d
  | FNone => d
  end.
Definition effect_name (f : effect) : option string :=
  match f with
  | FEntities _ => Some "ENTITIES" | FObjects _ => Some "OBJECTS" | FClasses _ => Some "CLASSES" | FEntries _ => Some "TABLES" | FBlocks _ => Some "BLOCKS"
  | FThumbnail _ => Some "THUMBNAILIMAGE" | FNone => None
  end.
Definition section_kinds : list string := ["ENTITIES"; "OBJECTS"; "CLASSES"; "TABLES"; "BLOCKS"; "THUMBNAILIMAGE"].
(** The effect is one of the section of that name. *)
Definition fits (name : rstring) (f : effect) : Prop :=
  match effect_name f with Some n => name = str n | None => forall n, In n section_kinds -> name <> str n end.

Lemma objects_effect : forall f d it d' r, read_objects_fuel f d it = Ok (d', r) -> exists l, d' = fold_left put_object l d /\ forall e, read_objects_fuel f e it = Ok (fold_left put_object l e, r).
Proof.
  induction f as [|f IH]; intros d it d' r H; [discriminate H|]. cbn [read_objects_fuel] in *. destruct (swallow read_object it) as [[[o|] r']|e]; cbn [bind] in *; [| |discriminate H].
  - destruct (IH _ _ _ _ H) as (l & -> & L). exists (o :: l). split; [reflexivity|]. intros x. apply L.
  - injection H as <- <-. exists []. split; reflexivity.
Qed.
Lemma table_effect k : forall f d it d' r, read_table_fuel f k d it = Ok (d', r) -> exists l, d' = fold_left put_entry l d /\ forall e, read_table_fuel f k e it = Ok (fold_left put_entry l e, r).
Proof.
  induction f as [|f IH]; intros d it d' r H; [discriminate H|]. cbn [read_table_fuel] in *. destruct it as [|[p|e] it]; [discriminate H| |discriminate H]. destruct (p_code p =? 0); [|exact (IH _ _ _ _ H)].
  destruct (assert_string p) as [s|e]; cbn [bind] in *; [|discriminate H]. destruct (seqb s (table_type k)).
  - destruct (read_item (it_spec (table_spec k)) it) as [[[st|] r']|e]; cbn [bind] in *; [|discriminate H|discriminate H]. destruct (IH _ _ _ _ H) as (l & -> & L).
    exists ((k, titem_of k st) :: l). split; [reflexivity|]. intros x. apply L.
  - injection H as <- <-. exists []. split; reflexivity.
Qed.
Lemma read_table_effect d it d' r : read_table d it = Ok (d', r) -> exists l, d' = fold_left put_entry l d /\ forall e, read_table e it = Ok (fold_left put_entry l e, r).
Proof.
  unfold read_table. intros H. destruct it as [|[p|e] it]; [discriminate H| |discriminate H]. destruct (p_code p =? 2); [|discriminate H]. destruct (assert_string p) as [s|e]; cbn [bind] in *; [|discriminate H].
  destruct (table_of_name s) as [k|].
  - destruct (read_table_fuel _ k d it) as [[d1 r1]|e] eqn:E; cbn [bind] in *; [|discriminate H]. destruct (expect "ENDTAB" r1) as [r2|e] eqn:X; cbn [bind] in *; [|discriminate H]. injection H as <- <-.
    destruct (table_effect _ _ _ _ _ _ E) as (l & -> & L). exists l. split; [reflexivity|]. intros x. rewrite L. cbn [bind]. rewrite X. reflexivity.
  - destruct (swallow_table it) as [r1|e]; cbn [bind] in *; [|discriminate H]. destruct (expect "ENDTAB" r1) as [r2|e] eqn:X; cbn [bind] in *; [|discriminate H]. injection H as <- <-.
    exists []. split; reflexivity.
Qed.
Lemma items_effect {X} typ (cb : drawing -> feed -> res (drawing * feed)) (put : drawing -> X -> drawing) :
  (forall d it d' r, cb d it = Ok (d', r) -> exists l, d' = fold_left put l d /\ forall e, cb e it = Ok (fold_left put l e, r)) ->
  forall f d it d' r, read_section_item f typ cb d it = Ok (d', r) -> exists l, d' = fold_left put l d /\ forall e, read_section_item f typ cb e it = Ok (fold_left put l e, r).
Proof.
  intros C. induction f as [|f IH]; intros d it d' r H; [discriminate H|]. cbn [read_section_item] in *. destruct it as [|[p|e] it]; [discriminate H| |discriminate H]. destruct (p_code p =? 0); [|discriminate H].
  destruct (assert_string p) as [s|e]; cbn [bind] in *; [|discriminate H]. destruct (seqb s (str "ENDSEC")); [injection H as <- <-; exists []; split; reflexivity|]. destruct (seqb s (str typ)); [|discriminate H].
  destruct (cb d it) as [[d1 r1]|e] eqn:E; cbn [bind] in *; [|discriminate H]. destruct (C _ _ _ _ E) as (l1 & -> & L1). destruct (IH _ _ _ _ H) as (l2 & -> & L2).
  exists (l1 ++ l2). split; [rewrite fold_left_app; reflexivity|]. intros x. rewrite L1. cbn [bind]. rewrite L2, fold_left_app. reflexivity.
Qed.
Lemma block_effect d it d' r : read_block d it = Ok (d', r) -> exists l, d' = fold_left put_block l d /\ forall e, read_block e it = Ok (fold_left put_block l e, r).
Proof.
  unfold read_block. destruct (read_block_fuel _ _ _ it) as [[b r']|e]; cbn [bind]; [|discriminate]. intros H. injection H as <- <-. exists [b]. split; reflexivity.
Qed.
Lemma seqb_str name s : seqb name (str s) = true -> name = str s.
Proof. apply seqb_eq. Qed.
Lemma section_effect env name u d it d' u' r : seqb name (str "HEADER") = false -> read_section idle env name u d it = Ok (d', u', r) ->
  exists f, fits name f /\ d' = apply f d /\ u' = u /\ forall e, version_in e = version_in d -> read_section idle env name u e it = Ok (apply f e, u, r).
Proof.
  intros N H. unfold read_section in *. rewrite N in *.
  destruct (seqb name (str "CLASSES")) eqn:E1.
  { unfold read_classes in *. destruct (read_classes_fuel _ _ it) as [[l r']|e] eqn:X; cbn [bind] in *; [|discriminate H]. injection H as <- <- <-. exists (FClasses l). split; [apply seqb_str, E1|].
    split; [reflexivity|]. split; [reflexivity|]. intros e V. rewrite V, X. reflexivity. }
  destruct (seqb name (str "TABLES")) eqn:E2.
  { destruct (read_section_item _ "TABLE" read_table d it) as [[d1 r']|e] eqn:X; cbn [bind] in *; [|discriminate H]. injection H as <- <- <-. destruct (items_effect "TABLE" read_table put_entry read_table_effect _ _ _ _ _ X) as (l & -> & L).
    exists (FEntries l). split; [apply seqb_str, E2|]. split; [reflexivity|]. split; [reflexivity|]. intros e _. rewrite L. reflexivity. }
  destruct (seqb name (str "BLOCKS")) eqn:E3.
  { destruct (read_section_item _ "BLOCK" read_block d it) as [[d1 r']|e] eqn:X; cbn [bind] in *; [|discriminate H]. injection H as <- <- <-. destruct (items_effect "BLOCK" read_block put_block block_effect _ _ _ _ _ X) as (l & -> & L).
    exists (FBlocks l). split; [apply seqb_str, E3|]. split; [reflexivity|]. split; [reflexivity|]. intros e _. rewrite L. reflexivity. }
  destruct (seqb name (str "ENTITIES")) eqn:E4.
  { unfold read_entities in *. destruct (collect it) as [[l r']|e]; cbn [bind] in *; [|discriminate H]. injection H as <- <- <-. exists (FEntities l). split; [apply seqb_str, E4|]. repeat split. }
  destruct (seqb name (str "OBJECTS")) eqn:E5.
  { unfold read_objects in *. destruct (read_objects_fuel _ d it) as [[d1 r']|e] eqn:X; cbn [bind] in *; [|discriminate H]. injection H as <- <- <-. destruct (objects_effect _ _ _ _ _ X) as (l & -> & L).
    exists (FObjects l). split; [apply seqb_str, E5|]. split; [reflexivity|]. split; [reflexivity|]. intros e _. rewrite L. reflexivity. }
  destruct (seqb name (str "THUMBNAILIMAGE")) eqn:E6.
  { destruct (read_thumbnail it) as [[t r']|e]; cbn [bind] in *; [|discriminate H]. injection H as <- <- <-. exists (FThumbnail t). split; [apply seqb_str, E6|]. repeat split. }
  destruct (swallow_section it) as [r'|e]; cbn [bind] in *; [|discriminate H]. injection H as <- <- <-. exists FNone. split; [|repeat split].
  intros n Hn Q. subst name. cbn [In section_kinds] in Hn. repeat (destruct Hn as [<-|Hn]; [vm_compute in E1, E2, E3, E4, E5, E6; discriminate|]). contradiction Hn.
Qed.

(** * What an effect adds *)
Definition entities_of (f : effect) : list entity := match f with FEntities l => map bare_entity l | _ => [] end.
Definition blocks_of (f : effect) : list block := match f with FBlocks l => map bare_block l | _ => [] end.
Definition classes_of (f : effect) : list (list (string * fval)) := match f with FClasses l => l | _ => [] end.
Definition objects_of (f : effect) : list object := match f with FObjects l => map bare_object l | _ => [] end.
Definition entries_of (k : tkind) (f : effect) : list titem := match f with FEntries l => map (fun x => bare_entry (snd x)) (filter (fun x => tkind_eqb (fst x) k) l) | _ => [] end.

Lemma map_Forall2 {A B} (R : A -> A -> Prop) (g : A -> B) : (forall x y, R x y -> g y = g x) -> forall l m, Forall2 R l m -> map g m = map g l.
Proof. intros H. induction 1 as [|x y l m Hx _ IH]; [reflexivity|]. cbn [map]. rewrite (H _ _ Hx), IH. reflexivity. Qed.
Lemma bare_renumbered e e' : renumbered e e' -> bare_entity e' = bare_entity e.
Proof.
  intros [->|(_ & H1 & H2 & H3 & _ & H4 & H5)]; [reflexivity|]. unfold bare_entity. rewrite H1, H2, H3. f_equal.
  destruct (en_specific e) as [q l|q l|?|? ?|? ?|?]; try (rewrite H5; reflexivity); destruct H5 as (q' & l' & E); rewrite E in *; cbn [bare_specific children] in *; f_equal;
    rewrite <- !(map_map fst (fun c => (c, 0%N))), H4; reflexivity.
Qed.
Lemma bare_renumbered_block b b' : renumbered_block b b' -> bare_block b' = bare_block b.
Proof.
  intros (_ & H1 & H2 & H3 & H4). unfold bare_block. rewrite H1, H2, H3. f_equal. apply (map_Forall2 moved); [|exact H4]. intros x y (M1 & M2 & M3 & M4). unfold bare_member. congruence.
Qed.
Lemma bare_renumbered_object o o' : renumbered_object o o' -> bare_object o' = bare_object o.
Proof. intros [->|[_ [h ->]]]; reflexivity. Qed.
Lemma bare_renumbered_entry x x' : renumbered_entry x x' -> bare_entry x' = bare_entry x.
Proof. intros [->|[_ [h ->]]]; reflexivity. Qed.

(** Entries of the tables. *)
Lemma put_entries_spec l : forall d, let d' := fold_left put_entry l d in
  (forall k, k <> TLineType -> exists new, tget k d' = tget k d ++ new /\ map bare_entry new = entries_of k (FEntries l)) /\ (exists new, tget TLineType d' = tget TLineType d ++ new) /\
  base_same d d' /\ dr_objects d' = dr_objects d /\ dr_entities d' = dr_entities d /\ dr_blocks d' = dr_blocks d.
Proof.
  induction l as [|[k x] l IH]; intros d; cbn [fold_left].
  { cbv zeta. split; [intros k _; exists []; rewrite app_nil_r; split; reflexivity|]. split; [exists []; symmetry; apply app_nil_r|]. split; [apply base_refl|]. repeat split. }
  cbv zeta. unfold put_entry at 2 4 6 8 10 12. cbn [fst snd]. destruct (put_titem_spec k d x) as [x' (A1 & A2 & A3 & A4 & A5 & A6 & A7 & A8 & A9)]. cbv zeta in *. destruct (IH (put_titem k d x)) as (B1 & (new & B2) & B3 & B4 & B5 & B6). cbv zeta in *.
  split; [|split; [|split; [exact (base_trans _ _ _ A6 B3)|split; [congruence|split; congruence] ] ] ].
  - intros k' Hk. destruct (B1 k' Hk) as (n & B1' & B7). rewrite B1'. cbn [entries_of filter fst]. destruct (tkind_eqb k k') eqn:E.
    + apply tkind_eqb_eq in E. subst k'. exists (x' :: n). rewrite A1, <- app_assoc. split; [reflexivity|]. cbn [map snd]. rewrite (bare_renumbered_entry _ _ A2), B7. reflexivity.
    + exists n. rewrite (A3 k'); [split; [reflexivity|exact B7]| |exact Hk]. intros ->. rewrite tkind_eqb_refl in E. discriminate E.
  - rewrite B2. destruct (tkind_dec k TLineType) as [->|Hk]; [rewrite A1, <- app_assoc; eexists; reflexivity|]. destruct (A4 Hk) as (n & -> & _). rewrite <- app_assoc. eexists. reflexivity.
Qed.
(** The line types an entry brings along. *)
Definition brings (x : tkind * titem) : list rstring :=
  match fst x with TLineType => [ti_name (snd x)] | TLayer => [field_string "line_type_name" (ti_fields (snd x))] | _ => [] end.
Lemma layer_lines x d : names (tget TLineType (push_layer x d)) = names (tget TLineType (ensure_plain TLineType (field_string "line_type_name" (ti_fields x)) d)).
Proof. unfold push_layer, push_item. rewrite tget_tset_other by discriminate. reflexivity. Qed.
Lemma ensured_lines n d m : In m (names (tget TLineType (ensure_plain TLineType n d))) <-> In m (names (tget TLineType d)) \/ m = n.
Proof.
  destruct (ensure_plain_ext TLineType n d) as [_ E]. split.
  - unfold ensure_plain. destruct (has_name TLineType n d); [left; assumption|]. rewrite add_plain_tget. rewrite tkind_eqb_refl. unfold names. rewrite map_app, in_app_iff. cbn [map In give ti_name default_item]. intuition.
  - intros [H | ->]; [|exact E]. destruct (ensure_plain_ext TLineType n d) as [(_ & A & _ & _) _]. exact (exists_appended _ _ _ _ (A TLineType) H).
Qed.
Lemma entry_lines k d x m : In m (names (tget TLineType (put_titem k d x))) <-> In m (names (tget TLineType d)) \/ In m (brings (k, x)).
Proof.
  destruct (tkind_dec k TLayer) as [->|N1].
  - unfold put_titem. cbn [add_table push_table]. unfold add_layer. rewrite next_handle_pair. unfold brings. cbn [fst snd In].
    destruct (ti_handle x =? 0)%N; rewrite layer_lines, ensured_lines; [rewrite next_handle_tget|]; cbn [give ti_fields]; intuition.
  - destruct (put_titem_spec k d x) as [x' (A1 & A2 & A3 & A4 & A5 & A6 & A7 & A8 & A9)]. cbv zeta in *. destruct (tkind_dec k TLineType) as [->|N2].
    + rewrite A1. unfold names. rewrite map_app, in_app_iff. cbn [map In brings fst snd]. replace (ti_name x') with (ti_name x); [tauto|]. destruct A2 as [->|[_ [h ->]]]; reflexivity.
    + rewrite (A5 N1 TLineType ltac:(congruence)). destruct k; cbn [brings fst snd In]; try tauto; congruence.
Qed.
Lemma entries_lines m : forall l d, In m (names (tget TLineType (fold_left put_entry l d))) <-> In m (names (tget TLineType d)) \/ In m (flat_map brings l).
Proof.
  induction l as [|[k x] l IH]; intros d; cbn [fold_left flat_map]; [cbn [In]; tauto|]. rewrite IH. unfold put_entry. cbn [fst snd]. rewrite entry_lines, in_app_iff. tauto.
Qed.

(** What all effects have in common. *)
Definition more (k : tkind) (f : effect) (d d' : drawing) : Prop := exists new, tget k d' = tget k d ++ new /\ (k <> TLineType -> effect_name f = Some "TABLES" -> map bare_entry new = entries_of k f).
Lemma set_classes_get c d : dr_entities (set_classes c d) = dr_entities d /\ dr_blocks (set_classes c d) = dr_blocks d /\ dr_classes (set_classes c d) = c /\ dr_thumbnail (set_classes c d) = dr_thumbnail d /\
  dr_objects (set_classes c d) = dr_objects d /\ dr_header (set_classes c d) = dr_header d /\ forall k, tget k (set_classes c d) = tget k d.
Proof. destruct d. repeat (split; [reflexivity|]). intros k. destruct k; reflexivity. Qed.
Lemma set_thumbnail_get t d : dr_entities (set_thumbnail t d) = dr_entities d /\ dr_blocks (set_thumbnail t d) = dr_blocks d /\ dr_classes (set_thumbnail t d) = dr_classes d /\ dr_thumbnail (set_thumbnail t d) = t /\
  dr_objects (set_thumbnail t d) = dr_objects d /\ dr_header (set_thumbnail t d) = dr_header d /\ forall k, tget k (set_thumbnail t d) = tget k d.
Proof. destruct d. repeat (split; [reflexivity|]). intros k. destruct k; reflexivity. Qed.
Definition same_header (d d' : drawing) : Prop := set_next 0 (dr_header d') = set_next 0 (dr_header d).
Lemma base_header d d' : base_same d d' -> same_header d d'.
Proof. intros (_ & H & _). unfold same_header. rewrite H, set_next_twice. reflexivity. Qed.
Lemma header_version d d' : same_header d d' -> version_in d' = version_in d.
Proof. unfold same_header, version_in. destruct (dr_header d), (dr_header d'). cbn. intros H. injection H. intros. subst. reflexivity. Qed.
Definition rest_of (f : effect) (d d' : drawing) : Prop :=
  same_header d d' /\ map bare_entity (dr_entities d') = map bare_entity (dr_entities d) ++ entities_of f /\ map bare_block (dr_blocks d') = map bare_block (dr_blocks d) ++ blocks_of f /\
  dr_classes d' = dr_classes d ++ classes_of f /\ dr_thumbnail d' = match f with FThumbnail t => t | _ => dr_thumbnail d end /\
  (exists new, dr_objects d' = dr_objects d ++ new /\ (effect_name f = Some "OBJECTS" -> map bare_object new = objects_of f) /\ (effect_name f <> Some "OBJECTS" -> Forall default_style new)) /\ forall k, more k f d d'.
Lemma more_same k f d d' : tget k d' = tget k d -> entries_of k f = [] -> more k f d d'.
Proof. intros H E. exists []. rewrite app_nil_r. split; [exact H|]. intros _ _. symmetry. exact E. Qed.
Lemma more_appended k f d d' : appended k d d' -> effect_name f <> Some "TABLES" -> more k f d d'.
Proof. intros (new & H & _) N. exists new. split; [exact H|]. intros _ E. contradiction (N E). Qed.
Lemma apply_rest f d : rest_of f d (apply f d).
Proof.
  destruct f as [l|l|l|l|l|t|]; cbn [apply]; unfold rest_of.
  - destruct (put_entities_spec l d) as [ys (A1 & A2 & A3 & A4 & A5 & A6)]. cbv zeta in *. pose proof A4 as (_ & _ & C1 & C2). rewrite A1, A5, C1, C2, map_app, !app_nil_r. cbn [entities_of blocks_of classes_of objects_of].
    split; [apply base_header, A4|]. split; [f_equal; apply (map_Forall2 renumbered _ bare_renumbered), A2|]. repeat (split; [rewrite ?app_nil_r; reflexivity|]). split; [destruct A6 as (new & -> & F); exists new; split; [reflexivity|]; split; [discriminate|intros _; exact F]|].
    intros k. apply more_appended; [apply A3|discriminate].
  - destruct (put_objects_spec l d) as [ys (A1 & A2 & A3 & A4 & A5 & A6)]. cbv zeta in *. pose proof A4 as (_ & _ & C1 & C2). rewrite A1, A5, A6, C1, C2. cbn [entities_of blocks_of classes_of objects_of].
    split; [apply base_header, A4|]. repeat (split; [rewrite ?app_nil_r; reflexivity|]). split; [exists ys; split; [reflexivity|]; split; [intros _; apply (map_Forall2 renumbered_object _ bare_renumbered_object), A2|intros N; contradiction (N eq_refl)]|].
    intros k. apply more_appended; [apply A3|discriminate].
  - destruct (set_classes_get (dr_classes d ++ l) d) as (C1 & C2 & C3 & C4 & C5 & C6 & C7). unfold same_header. rewrite C1, C2, C3, C4, C5, C6. cbn [entities_of blocks_of classes_of objects_of]. rewrite !app_nil_r.
    repeat (split; [reflexivity|]). split; [exists []; rewrite app_nil_r; split; [reflexivity|]; split; [discriminate|intros _; constructor]|]. intros k. apply more_same; [apply C7|reflexivity].
  - destruct (put_entries_spec l d) as (A1 & A2 & A3 & A4 & A5 & A6). cbv zeta in *. pose proof A3 as (_ & _ & C1 & C2). rewrite A4, A5, A6, C1, C2. cbn [entities_of blocks_of classes_of objects_of].
    split; [apply base_header, A3|]. repeat (split; [rewrite ?app_nil_r; reflexivity|]). split; [exists []; rewrite app_nil_r; split; [reflexivity|]; split; [discriminate|intros _; constructor]|].
    intros k. destruct (tkind_dec k TLineType) as [->|Hk]; [destruct A2 as (new & A2); exists new; split; [exact A2|]; intros N; contradiction (N eq_refl)|].
    destruct (A1 k Hk) as (new & N1 & N2). exists new. split; [exact N1|]. intros _ _. exact N2.
  - destruct (put_blocks_spec l d) as [ys [rs (A1 & A2 & A3 & A4 & A5 & A6 & A7 & A8)]]. cbv zeta in *. pose proof A6 as (_ & _ & C1 & C2). rewrite A1, A7, A8, C1, C2, map_app. cbn [entities_of blocks_of classes_of objects_of].
    split; [apply base_header, A6|]. split; [rewrite app_nil_r; reflexivity|]. split; [f_equal; apply (map_Forall2 renumbered_block _ bare_renumbered_block), A2|]. repeat (split; [rewrite ?app_nil_r; reflexivity|]).
    split; [exists []; rewrite app_nil_r; split; [reflexivity|]; split; [discriminate|intros _; constructor]|]. intros k. destruct (tkind_dec k TBlockRecord) as [->|Hk]; [|apply more_appended; [apply A3, Hk|discriminate]].
    exists rs. split; [exact A4|discriminate].
  - destruct (set_thumbnail_get t d) as (C1 & C2 & C3 & C4 & C5 & C6 & C7). unfold same_header. rewrite C1, C2, C3, C4, C5, C6. cbn [entities_of blocks_of classes_of objects_of]. rewrite !app_nil_r.
    repeat (split; [reflexivity|]). split; [exists []; rewrite app_nil_r; split; [reflexivity|]; split; [discriminate|intros _; constructor]|]. intros k. apply more_same; [apply C7|reflexivity].
  - cbn [entities_of blocks_of classes_of objects_of]. rewrite !app_nil_r. split; [reflexivity|]. repeat (split; [reflexivity|]). split; [exists []; rewrite app_nil_r; split; [reflexivity|]; split; [discriminate|intros _; constructor]|]. intros k. apply more_same; reflexivity.
Qed.

(** * Where a section stops *)
Lemma header_some_local : forall cur h, let k := fun h r => header_loop header_spec None (Some (str "$ACADVER")) h r in local (header_loop header_spec (Some k) cur h) (header_loop header_spec (Some k) cur h).
Proof.
  intros cur h k. refine (local_rec (fun x it => header_loop header_spec (Some k) (fst x) (snd x) it) (fun x it => header_loop header_spec (Some k) (fst x) (snd x) it) ltac:(intros; reflexivity) ltac:(intros; split; reflexivity) _ (cur, h)).
  intros [c x] p q t t' L IH. cbn [header_loop fst snd]. destruct (p_code p =? 0); [apply sim_back|]. destruct (p_code p =? 9).
  - apply sim_cons, sim_plain. intros n _. exact (IH (Some n, x) q t t' (le_n _) L).
  - destruct c as [n|]; [|apply sim_err]. apply sim_cons, sim_plain. intros x' _. destruct (_ && _); [|exact (IH (Some n, x') q t t' (le_n _) L)]. apply header_none_local, L.
Qed.
Lemma section_idle env name u d : local (read_section idle env name u d) (read_section idle env name u d).
Proof.
  destruct u; [apply section_local|]. destruct (seqb name (str "HEADER")) eqn:E; [|apply section_plain, E]. intros q t t' L. unfold read_section, read_header. rewrite E.
  apply sim_bind; [exact L|apply header_some_local, L|]. intros a. apply local_ret.
Qed.
Lemma is_zero_item s p : is_zero s p = true -> p = item s.
Proof.
  unfold is_zero. destruct p as [c v]. cbn [p_code p_value]. rewrite andb_true_iff. intros [C V]. destruct v; try discriminate V. apply seqb_eq in V. unfold item. f_equal; [lia|]. f_equal. exact V.
Qed.
Lemma section_exact env s u d x r2 r3 : closed s -> read_section idle env (fst s) u d (map Ok (snd s) ++ [Ok (item "ENDSEC"); Ok (item "EOF")]) = Ok (x, r2) -> expect "ENDSEC" r2 = Ok r3 ->
  forall t, t <> [] -> read_section idle env (fst s) u d (map Ok (snd s) ++ Ok (item "ENDSEC") :: t) = Ok (x, Ok (item "ENDSEC") :: t).
Proof.
  intros C H X t Nt. assert (R : r2 = [Ok (item "ENDSEC"); Ok (item "EOF")]).
  { destruct (local_tail _ _ (section_idle env (fst s) u d) _ _ _ H) as [pre P]. destruct r2 as [|[p|e] r2]; cbn [expect] in X; try discriminate X. destruct (is_zero "ENDSEC" p) eqn:Z; [|discriminate X]. apply is_zero_item in Z. subst p.
    clear -P C. unfold closed in C. revert pre P. induction (snd s) as [|b l IH]; intros pre P; cbn [map app] in P.
    - destruct pre as [|a pre]; cbn [app] in P; [injection P as P; rewrite P; reflexivity|]. injection P as _ P. destruct pre as [|a' pre]; cbn [app] in P; [discriminate P|]. injection P as _ P. destruct pre; discriminate P.
    - destruct pre as [|a pre]; cbn [app] in P; [injection P as -> _; contradiction C; left; reflexivity|]. injection P as _ P. apply (IH ltac:(intros I; apply C; right; exact I) pre P). }
  subst r2. pose proof (section_idle env (fst s) u d (map Ok (snd s) ++ [Ok (item "ENDSEC")]) [Ok (item "EOF")] t) as S. rewrite <- !app_assoc in S. cbn [app] in S. rewrite H in S.
  destruct S as [(y & w & _ & E1 & E2)|[(e & E & _)|[_ T]]].
  - destruct t; [contradiction (Nt eq_refl)|cbn [length]; lia].
  - injection E1 as -> E1. assert (W : [@Ok pair (item "ENDSEC")] = w) by (apply (app_inv_tail [Ok (item "EOF")]); exact E1). subst w. exact E2.
  - discriminate E.
  - apply tail_length in T. cbn [length] in T. lia.
Qed.

(** * Sequences of sections *)
Lemma file_cons s l : file_of_sections (s :: l) = section_of (fst s) (snd s) ++ file_of_sections l.
Proof. unfold file_of_sections. cbn [flat_map]. symmetry. apply app_assoc. Qed.
Lemma file_app h l : file_of_sections (h ++ l) = flat_map (fun s => section_of (fst s) (snd s)) h ++ file_of_sections l.
Proof. unfold file_of_sections. rewrite flat_map_app. symmetry. apply app_assoc. Qed.
Lemma file_nonempty l : map (@Ok pair) (file_of_sections l) <> [].
Proof. unfold file_of_sections. rewrite map_app. intros H. apply app_eq_nil in H as [_ H]. discriminate H. Qed.
(** The section is read exactly, whatever follows. *)
Definition takes env (s : sect) (u : bool) (d d' : drawing) (u' : bool) : Prop :=
  forall t, t <> [] -> read_section idle env (fst s) u d (map Ok (snd s) ++ Ok (item "ENDSEC") :: t) = Ok (d', u', Ok (item "ENDSEC") :: t).
Local Notation again env := (fun d it => sections_with idle env (fun _ _ => Err OutOfFuel) (S (length it)) true d it).
Definition go env (u : bool) (f : nat) (d : drawing) (it : feed) : res (drawing * feed) := sections_with idle env (if u then fun _ _ => Err OutOfFuel else again env) f u d it.
Lemma seq_step env s u d d' u' f t : takes env s u d d' u' -> (u = true -> u' = true) -> t <> [] -> (S (length (map (@Ok pair) (section_of (fst s) (snd s)) ++ t)) <= f)%nat ->
  exists f', (S (length t) <= f')%nat /\ go env u f d (map Ok (section_of (fst s) (snd s)) ++ t) = go env u' f' d' t.
Proof.
  intros T U Nt F. destruct f as [|f]; [lia|]. unfold go at 1. cbn [section_of map app sections_with item p_code p_value assert_string bind].
  change (0 =? 0) with true. cbn [bind]. change (seqb (str "SECTION") (str "EOF")) with false. change (seqb (str "SECTION") (str "SECTION")) with true. cbn iota. change (2 =? 2) with true. cbn iota.
  rewrite map_app, <- app_assoc. cbn [map app]. rewrite (T t Nt). cbn [bind expect]. change (is_zero "ENDSEC" (item "ENDSEC")) with true. cbn [bind snd fst]. cbn [section_of map app length] in F. rewrite !app_length, !map_length, app_length in F.
  destruct u, u'; cbn [negb andb].
  - exists f. split; [lia|reflexivity].
  - discriminate (U eq_refl).
  - exists (S (length t)). split; [lia|reflexivity].
  - exists f. split; [lia|reflexivity].
Qed.
Inductive chain env : list sect -> bool -> drawing -> drawing -> bool -> Prop :=
| chain_nil u d : chain env [] u d d u
| chain_cons s l u d d1 u1 d2 u2 : takes env s u d d1 u1 -> (u = true -> u1 = true) -> chain env l u1 d1 d2 u2 -> chain env (s :: l) u d d2 u2.
Lemma chain_go env l u d d' u' : chain env l u d d' u' -> forall t f, t <> [] -> (S (length (map (@Ok pair) (flat_map (fun s => section_of (fst s) (snd s)) l) ++ t)) <= f)%nat ->
  exists f', (S (length t) <= f')%nat /\ go env u f d (map Ok (flat_map (fun s => section_of (fst s) (snd s)) l) ++ t) = go env u' f' d' t.
Proof.
  induction 1 as [u d|s l u d d1 u1 d2 u2 T U C IH]; intros t f Nt F; cbn [flat_map map app] in *; [exists f; split; [exact F|reflexivity]|].
  rewrite map_app, <- app_assoc in *. destruct (seq_step env s u d d1 u1 f (map Ok (flat_map (fun s => section_of (fst s) (snd s)) l) ++ t) T U) as (f1 & F1 & ->); [|exact F|exact (IH t f1 Nt F1)].
  intros E. apply app_eq_nil in E as [_ E]. exact (Nt E).
Qed.
Lemma go_end env u f d : (0 < f)%nat -> go env u f d [Ok (item "EOF")] = Ok (d, [Ok (item "EOF")]).
Proof. destruct f; [lia|]. intros _. reflexivity. Qed.
Lemma load_go env it : load idle env it = let? (d, r) := go env false (S (length it)) (start env) it in match r with [] => Ok d | Err e :: _ => Err e | Ok p :: _ => if is_zero "EOF" p then Ok d else Err (UnexpectedCodePair (p_code p) 0) end.
Proof. reflexivity. Qed.
Lemma chain_load env l d u : chain env l false (start env) d u -> load idle env (map Ok (file_of_sections l)) = Ok d.
Proof.
  intros C. unfold file_of_sections. rewrite map_app. cbn [map]. rewrite load_go. destruct (chain_go env l false (start env) d u C [Ok (item "EOF")] _ ltac:(discriminate) (le_n _)) as (f & F & ->).
  rewrite go_end by lia. reflexivity.
Qed.
Lemma chain_app env l m u d d1 u1 d2 u2 : chain env l u d d1 u1 -> chain env m u1 d1 d2 u2 -> chain env (l ++ m) u d d2 u2.
Proof. induction 1 as [|s l u d d1 u1 d2' u2' T U C IH]; intros M; [exact M|]. cbn [app]. apply (chain_cons _ _ _ _ _ _ _ _ _ T U). apply IH, M. Qed.
(** The last section of a file that is accepted. *)
Lemma load_last env h s u d a : chain env h false (start env) d u -> closed s -> load idle env (map Ok (file_of_sections (h ++ [s]))) = Ok a -> exists u', (u = true -> u' = true) /\ takes env s u d a u'.
Proof.
  intros C Cs H. rewrite file_app, map_app, load_go in H.
  destruct (chain_go env h false (start env) d u C (map Ok (file_of_sections [s])) _ (file_nonempty _) (le_n _)) as (f & F & E). rewrite E in H. clear E C.
  destruct f as [|f]; [lia|]. unfold file_of_sections in H. cbn [flat_map] in H. rewrite app_nil_r in H. unfold go in H. cbn [section_of map app sections_with item p_code p_value assert_string bind] in H.
  change (0 =? 0) with true in H. cbn [bind] in H. change (seqb (str "SECTION") (str "EOF")) with false in H. change (seqb (str "SECTION") (str "SECTION")) with true in H. cbn iota in H. change (2 =? 2) with true in H. cbn iota in H.
  rewrite map_app, map_app, <- app_assoc in H. cbn [map app] in H.
  destruct (read_section idle env (fst s) u d _) as [[[d1 u1] r2]|e] eqn:R; cbn [bind] in H; [|discriminate H]. destruct (expect "ENDSEC" r2) as [r3|e] eqn:X; cbn [bind] in H; [|discriminate H].
  assert (T := section_exact env s u d (d1, u1) r2 r3 Cs R X). exists u1.
  assert (U : u = true -> u1 = true) by (intros ->; exact (section_bool _ _ _ _ _ _ _ _ R (or_intror eq_refl))). split; [exact U|].
  rewrite (T [Ok (item "EOF")] ltac:(discriminate)) in R. injection R as <-. cbn [expect] in X. change (is_zero "ENDSEC" (item "ENDSEC")) with true in X. injection X as <-. cbn [snd fst] in H.
  assert (a = d1); [|subst a; exact T]. destruct f as [|f].
  - exfalso. clear -F. cbn [length map] in F. rewrite map_length in F. unfold file_of_sections in F. rewrite app_length in F. cbn in F. lia.
  - destruct u, u1; vm_compute in H; injection H as <-; reflexivity.
Qed.

(** * Putting the sections together *)
Lemma sublist_refl {A} (l : list A) : sublist l l.
Proof. induction l; [apply sub_nil|apply sub_keep; assumption]. Qed.
Lemma sublist_app {A} (a b c d : list A) : sublist a b -> sublist c d -> sublist (a ++ c) (b ++ d).
Proof. induction 1; intros H1; [exact H1|cbn [app]; apply sub_skip; auto|cbn [app]; apply sub_keep; auto]. Qed.
Lemma sublist_none {A} (l : list A) : sublist [] l.
Proof. induction l; [apply sub_nil|apply sub_skip; assumption]. Qed.
Lemma last_cons {A} (x : A) l d : last (x :: l) d = last l x.
Proof. revert x d. induction l as [|y l IH]; intros x d; [reflexivity|]. change (last (x :: y :: l) d) with (last (y :: l) d). rewrite !IH. reflexivity. Qed.
Lemma of_cons n x l : of n (x :: l) = if named n (fst x) then snd x :: of n l else of n l.
Proof. unfold of. cbn [filter]. destruct (named n (fst x)); reflexivity. Qed.
Lemma fits_named s f n : fits (fst s) f -> In n section_kinds -> named n s = true <-> effect_name f = Some n.
Proof.
  intros F I. unfold named. split.
  - intros E. apply seqb_eq in E. unfold fits in F. destruct (effect_name f) as [m|] eqn:N; [|contradiction (F n I E)]. rewrite E in F.
    assert (Im : In m section_kinds) by (destruct f; cbn [effect_name] in N; try discriminate N; injection N as <-; cbn [In section_kinds]; tauto). cbn [In section_kinds] in I, Im.
    repeat (destruct I as [<-|I]; [repeat (destruct Im as [<-|Im]; [first [reflexivity|discriminate F]|]); contradiction Im|]). contradiction I.
  - intros E. unfold fits in F. rewrite E in F. rewrite F. apply seqb_refl.
Qed.
Section Together.
  Context (d0 : drawing).
  Hypothesis E0 : dr_entities d0 = [] /\ dr_blocks d0 = [] /\ dr_classes d0 = [] /\ dr_thumbnail d0 = None /\ dr_objects d0 = [] /\ forall k, tget k d0 = [].
  Local Notation run := (fold_left (fun d f => apply f d)).
  Definition part (x : sect * drawing) (f : effect) : Prop := fits (fst (fst x)) f /\ snd x = apply f d0.
  Lemma not_named x f n : part x f -> In n section_kinds -> named n (fst x) = false -> effect_name f <> Some n.
  Proof. intros [F _] I N E. apply (fits_named (fst x) f n F I) in E. rewrite E in N. discriminate N. Qed.
  Lemma is_named x f n : part x f -> In n section_kinds -> named n (fst x) = true -> effect_name f = Some n.
  Proof. intros [F _] I N. apply (fits_named (fst x) f n F I). exact N. Qed.
  Local Ltac kind := cbn [In section_kinds]; tauto.
  Lemma run_header fs : forall d, same_header d (run fs d).
  Proof. induction fs as [|f fs IH]; intros d; [reflexivity|]. cbn [fold_left]. unfold same_header in *. rewrite IH. exact (proj1 (apply_rest f d)). Qed.
  Lemma run_entities l fs : Forall2 part l fs -> forall d, map bare_entity (dr_entities (run fs d)) = map bare_entity (dr_entities d) ++ flat_map (fun a => map bare_entity (dr_entities a)) (of "ENTITIES" l).
  Proof.
    induction 1 as [|x f l fs P _ IH]; intros d; [cbn; rewrite app_nil_r; reflexivity|]. cbn [fold_left]. rewrite IH, of_cons. destruct (apply_rest f d) as (_ & A & _). rewrite A, <- app_assoc. f_equal.
    destruct (named "ENTITIES" (fst x)) eqn:N.
    - cbn [flat_map]. f_equal. destruct P as [_ ->]. destruct (apply_rest f d0) as (_ & B & _). rewrite B, (proj1 E0). reflexivity.
    - pose proof (not_named x f "ENTITIES" P ltac:(kind) N) as Q. destruct f; try reflexivity. contradiction Q. reflexivity.
  Qed.
  Lemma run_blocks l fs : Forall2 part l fs -> forall d, map bare_block (dr_blocks (run fs d)) = map bare_block (dr_blocks d) ++ flat_map (fun a => map bare_block (dr_blocks a)) (of "BLOCKS" l).
  Proof.
    induction 1 as [|x f l fs P _ IH]; intros d; [cbn; rewrite app_nil_r; reflexivity|]. cbn [fold_left]. rewrite IH, of_cons. destruct (apply_rest f d) as (_ & _ & A & _). rewrite A, <- app_assoc. f_equal.
    destruct (named "BLOCKS" (fst x)) eqn:N.
    - cbn [flat_map]. f_equal. destruct P as [_ ->]. destruct (apply_rest f d0) as (_ & _ & B & _). rewrite B, (proj1 (proj2 E0)). reflexivity.
    - pose proof (not_named x f "BLOCKS" P ltac:(kind) N) as Q. destruct f; try reflexivity. contradiction Q. reflexivity.
  Qed.
  Lemma run_classes l fs : Forall2 part l fs -> forall d, dr_classes (run fs d) = dr_classes d ++ flat_map dr_classes (of "CLASSES" l).
  Proof.
    induction 1 as [|x f l fs P _ IH]; intros d; [cbn; rewrite app_nil_r; reflexivity|]. cbn [fold_left]. rewrite IH, of_cons. destruct (apply_rest f d) as (_ & _ & _ & A & _). rewrite A, <- app_assoc. f_equal.
    destruct (named "CLASSES" (fst x)) eqn:N.
    - cbn [flat_map]. f_equal. destruct P as [_ ->]. destruct (apply_rest f d0) as (_ & _ & _ & B & _). rewrite B, (proj1 (proj2 (proj2 E0))). reflexivity.
    - pose proof (not_named x f "CLASSES" P ltac:(kind) N) as Q. destruct f; try reflexivity. contradiction Q. reflexivity.
  Qed.
  Lemma run_thumbnail l fs : Forall2 part l fs -> forall d, dr_thumbnail (run fs d) = last (map dr_thumbnail (of "THUMBNAILIMAGE" l)) (dr_thumbnail d).
  Proof.
    induction 1 as [|x f l fs P _ IH]; intros d; [reflexivity|]. cbn [fold_left]. rewrite IH, of_cons. destruct (apply_rest f d) as (_ & _ & _ & _ & A & _). rewrite A.
    destruct (named "THUMBNAILIMAGE" (fst x)) eqn:N.
    - pose proof (is_named x f "THUMBNAILIMAGE" P ltac:(kind) N) as Q. cbn [map]. rewrite last_cons. f_equal. destruct P as [_ ->]. destruct (apply_rest f d0) as (_ & _ & _ & _ & B & _). rewrite B. destruct f; try discriminate Q. reflexivity.
    - pose proof (not_named x f "THUMBNAILIMAGE" P ltac:(kind) N) as Q. destruct f; try reflexivity. contradiction Q. reflexivity.
  Qed.
  Lemma styles_out new : Forall default_style new -> filter (fun o => negb (is_style o)) (map bare_object new) = [].
  Proof. induction 1 as [|o new (n & h & ->) _ IH]; [reflexivity|exact IH]. Qed.
  Lemma run_objects l fs : Forall2 part l fs -> forall d, exists new, dr_objects (run fs d) = dr_objects d ++ new /\ sublist (flat_map (fun a => map bare_object (dr_objects a)) (of "OBJECTS" l)) (map bare_object new) /\
    filter (fun o => negb (is_style o)) (map bare_object new) = filter (fun o => negb (is_style o)) (flat_map (fun a => map bare_object (dr_objects a)) (of "OBJECTS" l)).
  Proof.
    induction 1 as [|x f l fs P _ IH]; intros d; [exists []; rewrite app_nil_r; repeat split; constructor|]. cbn [fold_left]. destruct (IH (apply f d)) as (new & H1 & H2 & H3).
    destruct (apply_rest f d) as (_ & _ & _ & _ & _ & (n1 & A1 & A2 & A3) & _). exists (n1 ++ new). rewrite H1, A1, <- app_assoc. split; [reflexivity|]. rewrite map_app, of_cons, filter_app. destruct (named "OBJECTS" (fst x)) eqn:N.
    - pose proof (is_named x f "OBJECTS" P ltac:(kind) N) as Q. cbn [flat_map]. rewrite filter_app. destruct P as [_ ->]. destruct (apply_rest f d0) as (_ & _ & _ & _ & _ & (n0 & B1 & B2 & _) & _). rewrite B1, (proj1 (proj2 (proj2 (proj2 (proj2 E0))))). cbn [app].
      rewrite (B2 Q), <- (A2 Q). split; [apply sublist_app; [apply sublist_refl|exact H2]|f_equal; exact H3].
    - pose proof (not_named x f "OBJECTS" P ltac:(kind) N) as Q. rewrite (styles_out _ (A3 Q)). split; [|exact H3]. apply (sublist_app [] (map bare_object n1)); [apply sublist_none|exact H2].
  Qed.
  Lemma run_tables k l fs : k <> TLineType -> Forall2 part l fs -> forall d, exists new, tget k (run fs d) = tget k d ++ new /\ sublist (flat_map (fun a => map bare_entry (tget k a)) (of "TABLES" l)) (map bare_entry new).
  Proof.
    intros Hk. induction 1 as [|x f l fs P _ IH]; intros d; [exists []; rewrite app_nil_r; split; constructor|]. cbn [fold_left]. destruct (IH (apply f d)) as (new & H1 & H2).
    destruct (apply_rest f d) as (_ & _ & _ & _ & _ & _ & A). destruct (A k) as (n1 & A1 & A2). exists (n1 ++ new). rewrite H1, A1, <- app_assoc. split; [reflexivity|]. rewrite map_app, of_cons. destruct (named "TABLES" (fst x)) eqn:N.
    - pose proof (is_named x f "TABLES" P ltac:(kind) N) as Q. cbn [flat_map]. destruct P as [_ ->]. destruct (apply_rest f d0) as (_ & _ & _ & _ & _ & _ & B). destruct (B k) as (n0 & B1 & B2). rewrite B1, (proj2 (proj2 (proj2 (proj2 (proj2 E0))))). cbn [app].
      rewrite (B2 Hk Q), <- (A2 Hk Q). apply sublist_app; [apply sublist_refl|exact H2].
    - apply (sublist_app [] (map bare_entry n1)); [apply sublist_none|exact H2].
  Qed.
  Lemma run_lines m fs : forall d, In m (names (tget TLineType d)) -> In m (names (tget TLineType (run fs d))).
  Proof.
    induction fs as [|f fs IH]; intros d H; [exact H|]. cbn [fold_left]. apply IH. destruct (apply_rest f d) as (_ & _ & _ & _ & _ & _ & A). destruct (A TLineType) as (n1 & -> & _). unfold names. rewrite map_app, in_app_iff. left. exact H.
  Qed.
  Lemma run_line_types l fs a x : Forall2 part l fs -> In a (of "TABLES" l) -> In x (tget TLineType a) -> forall d, In (ti_name x) (names (tget TLineType (run fs d))).
  Proof.
    intros P. induction P as [|y f l fs P _ IH]; intros I Ix d; [contradiction I|]. cbn [fold_left]. rewrite of_cons in I. destruct (named "TABLES" (fst y)) eqn:N; [|exact (IH I Ix _)]. destruct I as [I|I]; [|exact (IH I Ix _)]. subst a.
    apply run_lines. pose proof (is_named y f "TABLES" P ltac:(kind) N) as Q. destruct P as [_ E]. rewrite E in Ix. destruct f as [|?|?|l'|?|?|]; try discriminate Q. cbn [apply] in *. apply (in_map ti_name) in Ix. apply entries_lines in Ix. apply entries_lines. right.
    destruct Ix as [Ix|Ix]; [|exact Ix]. rewrite (proj2 (proj2 (proj2 (proj2 (proj2 E0))))) in Ix. contradiction Ix.
  Qed.
  Lemma run_assembled l fs : Forall2 part l fs -> assembled l (run fs d0).
  Proof.
    intros P. pose proof E0 as (C1 & C2 & C3 & C4 & C5 & C6). split; [rewrite (run_entities l fs P), C1; reflexivity|]. split; [rewrite (run_blocks l fs P), C2; reflexivity|]. split; [rewrite (run_classes l fs P), C3; reflexivity|].
    split; [rewrite (run_thumbnail l fs P), C4; reflexivity|]. destruct (run_objects l fs P d0) as (new & O1 & O2 & O3). rewrite O1, C5. split; [exact O2|]. split; [exact O3|]. split.
    - intros k Hk. destruct (run_tables k l fs Hk P d0) as (n & T1 & T2). rewrite T1, C6. exact T2.
    - intros a x Ia Ix. pose proof (run_line_types l fs a x P Ia Ix d0) as T. apply in_map_iff in T as (y & Y1 & Y2). exists y. split; [exact Y2|exact Y1].
  Qed.
End Together.

(** The header, if there is one, comes first. *)
Definition header_part (h : list sect) : Prop := h = [] \/ exists s, h = [s] /\ named "HEADER" s = true /\ closed s.
Lemma header_start env h d0 : header_part h -> load idle env (map Ok (file_of_sections h)) = Ok d0 -> exists u x, chain env h false (start env) d0 u /\ d0 = set_header x (start env).
Proof.
  intros [->|(s & -> & N & C)] H.
  - exists false, (dr_header (start env)). vm_compute in H. injection H as <-. split; [|reflexivity]. apply chain_nil.
  - destruct (load_last env [] s false (start env) d0 (chain_nil _ _ _) C H) as (u & U & T). pose proof (T [Ok (item "EOF")] ltac:(discriminate)) as R. unfold read_section in R. change (seqb (fst s) (str "HEADER") = true) in N. rewrite N in R.
    destruct (read_header _ _ _ _ _) as [[y r]|e]; cbn [bind] in R; [|discriminate R]. injection R as R _ _. exists u. eexists. split; [|symmetry; exact R]. apply (chain_cons _ _ _ _ _ _ _ _ _ T U), chain_nil.
Qed.
Theorem sections_together env h l d0 : header_part h -> load idle env (map Ok (file_of_sections h)) = Ok d0 ->
  Forall (fun x => named "HEADER" (fst x) = false /\ closed (fst x) /\ load idle env (map Ok (file_of_sections (h ++ [fst x]))) = Ok (snd x)) l ->
  exists d, load idle env (map Ok (file_of_sections (h ++ map fst l))) = Ok d /\ assembled l d /\ set_next 0 (dr_header d) = set_next 0 (dr_header d0).
Proof.
  intros Hh H0 Hl. destruct (header_start env h d0 Hh H0) as (u & x0 & C0 & E0).
  assert (F : exists fs, Forall2 (fun x f => part d0 x f /\ forall e, version_in e = version_in d0 -> takes env (fst x) u e (apply f e) u) l fs).
  { clear -C0 Hl. induction Hl as [|[s a] l (N & C & L) _ (fs & IH)]; [exists []; constructor|]. cbn [fst snd] in *. destruct (load_last env h s u d0 a C0 C L) as (u' & U & T).
    destruct (section_effect env (fst s) u d0 _ a u' _ N (T [Ok (item "EOF")] ltac:(discriminate))) as (f & F1 & F2 & -> & F3). exists (f :: fs). constructor; [|exact IH]. split; [split; [exact F1|exact F2]|].
    intros e V t Nt. exact (section_exact env s u e (apply f e, u) _ [Ok (item "EOF")] C (F3 e V) eq_refl t Nt). }
  destruct F as (fs & F). exists (fold_left (fun d f => apply f d) fs d0). split; [|split].
  - apply (chain_load env _ _ u). apply (chain_app _ _ _ _ _ _ _ _ _ C0). clear -F. assert (G : forall d, version_in d = version_in d0 -> chain env (map fst l) u d (fold_left (fun d f => apply f d) fs d) u); [|apply G; reflexivity].
    induction F as [|x f l fs [_ T] _ IH]; intros d V; cbn [map fold_left]; [apply chain_nil|]. apply (chain_cons _ _ _ _ _ _ _ _ _ (T d V)); [intros H; exact H|]. apply IH. rewrite (header_version _ _ (proj1 (apply_rest f d))). exact V.
  - apply run_assembled; [subst d0; repeat split; intros k; destruct k; reflexivity|]. clear -F. induction F as [|x f l fs [P _] _ IH]; constructor; assumption.
  - apply run_header.
Qed.
