(** Vocabulary for saving and loading: items that come back from a file. *)
From Verif Require Import Base CodePairModel VersionModel StreamModel ExtDataModel SpecModel SpecSpec EntityData EntityProps ObjectData ObjectProps SectionData HeaderModel HeaderSpec HeaderData
  HeaderProps CustomModel CustomSpec ThumbnailModel ThumbnailSpec DrawingModel DrawingSpec FileModel.
Open Scope string_scope.
Open Scope list_scope.
Open Scope Z_scope.

(** The fields in [st'] are those of [st] that the version stores, and the default for all others; nothing is said about the fields [lost]. *)
Definition keeps (t : itype) (v : version) (wh : bool) (lost : list string) (st st' : store) : Prop :=
  forall f, In f (it_fields t) -> f_public f = true -> ~ In (f_name f) lost ->
    (stored v wh st f -> same (st' (f_name f)) (kept v f (st (f_name f)))) /\
    (~ stored v wh st f -> same (st' (f_name f)) (default_of (it_spec t) (f_name f))).

(** * Entities *)

(** The fields of an entity are named after the struct they are in: its own, those of [EntityCommon], the multi-line text of an attribute. Vertices
    and attributes inside another entity only have fields of their own. *)
Definition own_lost (t : itype) (v : version) : list string := common_slots ++ entity_lost t v.
Definition text_of (e : entity) : fval := of_fields (en_fields e) "m_text".
Definition text_like (v : version) (wh : bool) (m m' : fval) : Prop :=
  keeps ent_mtext v wh (own_lost ent_mtext v) (of_fields (unpack_mtext m)) (of_fields (unpack_mtext m')).
Definition text_typed (m : fval) : Prop :=
  forall f, In f (it_fields ent_mtext) -> ~ In (f_name f) common_slots ->
    has_kind (f_kind f) (of_fields (unpack_mtext m) (f_name f)) /\ Forall (fun c => fits (f_kind f) c (of_fields (unpack_mtext m) (f_name f))) (f_codes f).
Definition child : Type := list (string * fval) * N.
Definition attribute_like (v : version) (wh : bool) (c c' : child) : Prop :=
  keeps ent_attribute v wh (own_lost ent_attribute v) (child_store (fst c) (snd c)) (of_fields (fst c')).
(** Vertices are made to fit the polyline when they are written. *)
Definition vertex_like (v : version) (wh : bool) (poly : store) (c c' : child) : Prop :=
  keeps ent_vertex v wh (own_lost ent_vertex v) (adapt_vertex poly (child_store (fst c) (snd c))) (of_fields (fst c')).

(** The type whose fields an entity has; inserts with attributes are described apart. *)
Definition type_of (e : entity) : option itype :=
  match en_specific e with
  | EInsert _ [] => Some ent_insert
  | EInsert _ _ => Some ent_insert_group
  | EPolyline _ _ => Some ent_polyline
  | s => type_named entities (entity_type s)
  end.
(** The variants that have a constructor of their own are not among the others. *)
Definition proper (s : especific) : Prop :=
  match s with EOther n | EDimStyled n _ | ETextStyled n _ => ~ In n ["Insert"; "InsertWithAttributes"; "Polyline"] | _ => True end.
(** An entity of a type that exists in the version, with fields of the right types, that can come back as a whole. Where there is multi-line text,
    inserts with attributes do not (C48_insert_attributes_refuted). *)
Definition sound (v : version) (e : entity) : Prop :=
  proper (en_specific e) /\
  exists t, type_of e = Some t /\ supported (it_spec t) v = true /\ dropped t v = false /\ well_typed t (entity_store e) /\
    match en_specific e with
    | EInsert q ((_ :: _) as l) => supported (it_spec ent_mtext) v = false /\ (q < 2 ^ 64)%N /\ Forall (fun c => well_typed ent_attribute (child_store (fst c) (snd c))) l
    | EPolyline q l => (q < 2 ^ 64)%N /\ Forall (fun c => well_typed ent_vertex (child_store (fst c) (snd c))) l
    | s => has_mtext (entity_type s) = true -> text_typed (text_of e)
    end.
Definition unknown_to (v : version) (e : entity) : Prop := exists t, type_of e = Some t /\ supported (it_spec t) v = false.
(** [e'] is what is left of [e]; nothing is said about the fields [more]. *)
Definition entity_back (more : list string) (v : version) (wh : bool) (e e' : entity) : Prop :=
  exists t, type_of e = Some t /\ entity_type (en_specific e') = entity_type (en_specific e) /\
    keeps t v wh (more ++ entity_lost t v) (entity_store e) (entity_store e') /\
    match en_specific e, en_specific e' with
    | EInsert _ l, EInsert _ l' => Forall2 (attribute_like v wh) l l'
    | EPolyline _ l, EPolyline _ l' => Forall2 (vertex_like v wh (entity_store e)) l l'
    | EInsert _ _, _ | EPolyline _ _, _ => False
    | s, _ => has_mtext (entity_type s) = true -> supported (it_spec ent_mtext) v = true -> text_like v wh (text_of e) (text_of e')
    end.
(** Items that come back, in order; those the version does not know are left out. *)
Inductive all_back {A} (unknown : A -> Prop) (back : A -> A -> Prop) : list A -> list A -> Prop :=
| back_nil : all_back unknown back [] []
| back_skip e l l' : unknown e -> all_back unknown back l l' -> all_back unknown back (e :: l) l'
| back_keep e e' l l' : back e e' -> all_back unknown back l l' -> all_back unknown back (e :: l) (e' :: l').
(** The handle of an item is lost if handles are not written; an item without a handle gets a new one. *)
Definition unless (kept : bool) (s : string) : list string := if kept then [] else [s].
Definition has_handle (wh : bool) (h : N) : bool := wh && negb (h =? 0)%N.
Definition entity_returned (v : version) (wh : bool) (e e' : entity) : Prop :=
  entity_back (unless (has_handle wh (en_handle e)) "common.handle") v wh e e'.

(** * Table entries *)
Definition entry_typed (k : tkind) (x : titem) : Prop := well_typed (table_spec k) (titem_store x).
Definition entry_back (more : list string) (k : tkind) (v : version) (wh : bool) (x x' : titem) : Prop :=
  keeps (table_spec k) v wh (more ++ ["__owner_handle"]) (titem_store x) (titem_store x').
Definition entry_returned (k : tkind) (v : version) (wh : bool) (x x' : titem) : Prop :=
  entry_back (unless (has_handle wh (ti_handle x)) "handle") k v wh x x'.

(** * Classes *)

(** Up to R13 the record name takes the place of the word CLASS, so it must not be the word that ends the section. *)
Definition class_typed (v : version) (c : list (string * fval)) : Prop :=
  well_typed (class_type v) (of_fields c) /\ exists s, of_fields c "record_name" = FStr s /\ (version_leb v R13 = true -> s <> str "ENDSEC").
Definition class_back (v : version) (c c' : list (string * fval)) : Prop :=
  keeps (class_type v) v true [] (of_fields c) (of_fields c') /\ of_fields c' "record_name" = of_fields c "record_name".

(** * Blocks *)

(** The extension groups of a block are written twice; the second time behind ENDBLK, where the next pair with code 0 is taken for the end of the block. *)
Fixpoint no_zero (i : ext_item) : Prop :=
  match i with
  | EPair p => p_code p <> 0
  | EGroup _ items => (fix all l := match l with [] => True | x :: r => no_zero x /\ all r end) items
  end.
Definition block_sound (v : version) (b : block) : Prop :=
  well_typed block_head (block_store b) /\
  (forall g, In (FExt g) (as_list (block_store b "extension_data_groups")) -> Forall no_zero (eg_items g)) /\
  Forall (fun e => sound v e \/ unknown_to v e) (bl_entities b).
Definition block_back (more members : list string) (v : version) (wh : bool) (b b' : block) : Prop :=
  keeps block_head v wh (more ++ ["x_data"]) (block_store b) (block_store b') /\
  all_back (unknown_to v) (entity_back members v wh) (bl_entities b) (bl_entities b').
(** The entities in a block are always numbered anew. Before R13, a block has no handle in the file. *)
Definition block_returned (v : version) (wh : bool) (b b' : block) : Prop :=
  block_back (unless (has_handle (wh && version_leb R13 v) (bl_handle b)) "handle") ["common.handle"] v wh b b'.

(** * Objects *)
Definition object_sound (v : version) (o : object) : Prop :=
  match ob_specific o with
  | OCustom c =>
      version_leb (snd (custom_type c)) v = true /\ common_typed (object_store o) /\
      match c with
      | CDictionary d | CDictionaryWithDefault d => dict_typed d
      | CXRecord x => Forall (fun p => p_code p <> 0) (xr_pairs x)
      | CDataTable t => full_table t
      | _ => False
      end
  | s => exists t, In t objects /\ sp_name (it_spec t) = object_type s /\ supported (it_spec t) v = true /\ well_typed t (object_store o)
  end.
Definition object_unknown (v : version) (o : object) : Prop :=
  match ob_specific o with
  | OCustom c => version_leb (snd (custom_type c)) v = false
  | s => exists t, In t object_types /\ sp_name (it_spec t) = object_type s /\ supported (it_spec t) v = false
  end.
Definition object_back (more : list string) (v : version) (o o' : object) : Prop :=
  match ob_specific o, ob_specific o' with
  | OCustom (CDictionary d), OCustom (CDictionary d') =>
      common_back v more (object_store o) (object_store o') /\ is_map (di_values d') /\ same_entries (di_values d) (di_values d') /\
      di_dup d' = (if version_leb R2000 v then di_dup d else 0)
  | OCustom (CDictionaryWithDefault d), OCustom (CDictionaryWithDefault d') =>
      common_back v more (object_store o) (object_store o') /\ is_map (di_values d') /\ same_entries (di_values d) (di_values d') /\
      di_dup d' = (if version_leb R2000 v then di_dup d else 0) /\ di_default d' = di_default d
  | OCustom (CXRecord x), OCustom (CXRecord x') =>
      common_back v (more ++ ["common.x_data"]) (object_store o) (object_store o') /\
      xr_pairs x' = mk_pair 280 (VShort (xr_dup x)) :: xr_pairs x ++ write_oxdata v (object_store o)
  | OCustom (CDataTable t), OCustom (CDataTable t') => common_back v more (object_store o) (object_store o') /\ same_but_values t t'
  | OCustom _, _ | _, OCustom _ => False
  | s, s' => exists t, In t objects /\ sp_name (it_spec t) = object_type s /\ object_type s' = object_type s /\
      keeps t v true (more ++ object_lost t v) (object_store o) (object_store o')
  end.
Definition object_returned (v : version) (o o' : object) : Prop :=
  object_back (unless (has_handle true (ob_handle o)) "common.handle") v o o'.

(** * Drawings *)

(** A drawing of version [v] with values of the right types, and without what is known not to come back. [wh]: handles are written. *)
Record drawing_sound (v : version) (d : drawing) : Prop := {
  ds_version : header_store (dr_header d) "version" = version_val v;
  ds_not_r11 : v <> R11;
  ds_header : h_typed header_fields (header_store (dr_header d));
  ds_classes : Forall (class_typed v) (dr_classes d);
  ds_tables : forall k, supported (it_spec (table_spec k)) v = true -> Forall (entry_typed k) (tget k d);
  ds_blocks : Forall (block_sound v) (dr_blocks d);
  ds_entities : Forall (fun e => sound v e \/ unknown_to v e) (dr_entities d);
  ds_objects : version_leb R13 v = true -> Forall (fun o => object_sound v o \/ object_unknown v o) (dr_objects d);
  ds_thumbnail : match dr_thumbnail d with Some bmp => bitmap_file bmp | None => True end }.
Definition handles_written (v : version) (d : drawing) : bool :=
  version_leb R13 v || match header_store (dr_header d) "handles_enabled" with FBool b => b | _ => false end.
(** The header comes back; the next handle may then grow when items without handles are numbered. *)
Definition header_returned (v : version) (env : store) (h h' : header) : Prop :=
  exists h1, (forall f, In f header_fields -> ~ In (hf_name f) (header_lost v) -> hkept header_spec header_fields v env (header_store h) (header_store h1) f) /\
    h' = set_next (hd_next h') h1 /\ (hd_next h1 <= hd_next h')%N.
(** A table comes back followed by default entries: one for every block in the table of block records, otherwise for names that are used somewhere but not in
    the table. A table the version does not have is lost. *)
Definition table_returned (k : tkind) (v : version) (wh : bool) (d d' : drawing) : Prop :=
  exists l more, tget k d' = l ++ more /\
    (if supported (it_spec (table_spec k)) v then Forall2 (entry_returned k v wh) (tget k d) l else l = []) /\
    match k with
    | TBlockRecord => Forall2 (fun b => made_for k (bl_name b)) (dr_blocks d) more
    | _ => NoDup (names more) /\ forall x, In x more -> ~ In (ti_name x) (names l) /\ made_for k (ti_name x) x
    end.
Definition default_style (o : object) : Prop := exists n h, o = mk_object h (OMLineStyle n) (ob_fields (default_mline_style n)).
Record drawing_returned (v : version) (wh : bool) (env : store) (d d' : drawing) : Prop := {
  dr_header_back : header_returned v env (dr_header d) (dr_header d');
  dr_classes_back : Forall2 (class_back v) (dr_classes d) (dr_classes d');
  dr_tables_back : forall k, table_returned k v wh d d';
  dr_blocks_back : Forall2 (block_returned v wh) (dr_blocks d) (dr_blocks d');
  dr_entities_back : all_back (unknown_to v) (entity_returned v wh) (dr_entities d) (dr_entities d');
  (** Styles for multi-lines are made before the objects are read. *)
  dr_objects_back : exists styles l, dr_objects d' = styles ++ l /\ Forall default_style styles /\
    if version_leb R13 v then all_back (object_unknown v) (object_returned v) (dr_objects d) l else l = [];
  dr_thumbnail_back : dr_thumbnail d' = if version_leb R2000 v then dr_thumbnail d else None }.
