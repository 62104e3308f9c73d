(** Whole files: reading a stream of code pairs into a drawing and writing a drawing as code pairs (src/drawing.rs, src/entity_iter.rs,
    src/object_iter.rs, src/block.rs, src/class.rs, src/entity.rs, src/object.rs, build/table_generator.rs). Definitions only. *)
From Verif Require Import Base F64Model CodePairModel VersionModel ExtDataModel SpecModel SpecSpec TableData EntityData ObjectData SectionData
  HeaderModel HeaderSpec HeaderData CustomModel ThumbnailModel DrawingModel.
Open Scope string_scope.
Open Scope list_scope.
Open Scope Z_scope.

(** * Between slots and structs *)

(** The items of DrawingModel.v keep the fields the drawing looks at apart from the others; the readers and writers of SpecModel.v work on all
    fields by name. These conversions have no counterpart in the code. *)
Definition of_fields (fs : list (string * fval)) : store := fun s => match assoc_slot s fs with Some v => v | None => FInt 0 end.
Definition to_fields (defaults : list (string * fval)) (own : list string) (st : store) : list (string * fval) :=
  map (fun '(n, _) => (n, st n)) (filter (fun '(n, _) => negb (existsb (String.eqb n) own)) defaults).
Definition str_of (v : fval) : rstring := match v with FStr s => s | _ => [] end.
Definition handle_of (v : fval) : N := match v with FHandle h => h | _ => 0%N end.
Definition f64_of (v : fval) : N := match v with FF64 d => d | _ => 0%N end.
Definition strs_of (v : fval) : list rstring := map str_of (as_list v).

(** ** Table entries *)
Definition titem_of (k : tkind) (st : store) : titem :=
  mk_ti (handle_of (st "handle")) (str_of (st "name")) (to_fields (sp_defaults (it_spec (table_spec k))) ["handle"; "name"] st).
Definition titem_store (x : titem) : store :=
  of_fields (("handle", FHandle (ti_handle x)) :: ("name", FStr (ti_name x)) :: ti_fields x).

(** ** Entities *)

(** An entity as read from its own pairs: its type and all its fields. *)
Definition raw : Type := (itype * store)%type.
Definition kind_of (e : raw) : string := sp_name (it_spec (fst e)).
(** The slots holding the name of a dimension style or text style. *)
Definition dim_slots : list (string * string) :=
  [("RotatedDimension", "dimension_base.dimension_style_name"); ("RadialDimension", "dimension_base.dimension_style_name");
   ("DiameterDimension", "dimension_base.dimension_style_name"); ("AngularThreePointDimension", "dimension_base.dimension_style_name");
   ("OrdinateDimension", "dimension_base.dimension_style_name"); ("Leader", "dimension_style_name"); ("Tolerance", "dimension_style_name")].
Definition text_slots : list (string * string) :=
  [("ArcAlignedText", "text_style_name"); ("Attribute", "text_style_name"); ("AttributeDefinition", "text_style_name");
   ("MText", "text_style_name"); ("Text", "text_style_name")].
Definition common_slots : list string := map fst common_defaults.
Definition own_slots : list string := ["common.handle"; "common.layer"; "common.line_type_name"].
(** The multi-line text inside an attribute or attribute definition is one slot: the fields of [MText] in the order of its definition. *)
Definition mtext_slots : list string := filter (fun n => negb (existsb (String.eqb n) common_slots)) (map fst (sp_defaults (it_spec ent_mtext))).
Definition pack_mtext (st : store) : fval := FList (map st mtext_slots).
Definition unpack_mtext (v : fval) : list (string * fval) := combine mtext_slots (as_list v).
Definition default_mtext : fval := pack_mtext (default_of (it_spec ent_mtext)).
Definition has_mtext (n : string) : bool := String.eqb n "Attribute" || String.eqb n "AttributeDefinition".
(** An entity with its children and, for attributes, its text. *)
Definition especific_of (n : string) (st : store) (children : list (list (string * fval) * N)) : especific :=
  if String.eqb n "Insert" then EInsert 0 children
  else if String.eqb n "Polyline" then EPolyline 0 children
  else if String.eqb n "MLine" then EMLine (str_of (st "style_name"))
  else match assoc_slot n dim_slots with
       | Some s => EDimStyled n (str_of (st s))
       | None => match assoc_slot n text_slots with Some s => ETextStyled n (str_of (st s)) | None => EOther n end
       end.
Definition style_slot (n : string) : list string :=
  if String.eqb n "MLine" then ["style_name"]
  else match assoc_slot n dim_slots with
       | Some s => [s]
       | None => match assoc_slot n text_slots with Some s => [s] | None => [] end
       end.
Definition entity_of (e : raw) (children : list (list (string * fval) * N)) (m : fval) : entity :=
  let n := kind_of e in
  let st := snd e in
  mk_entity (handle_of (st "common.handle")) (str_of (st "common.layer")) (str_of (st "common.line_type_name")) (especific_of n st children)
    (to_fields (sp_defaults (it_spec (fst e))) (own_slots ++ style_slot n) st ++ (if has_mtext n then [("m_text", m)] else [])).
(** The attribute or vertex inside an insert or polyline: its specific fields. *)
Definition child_of (e : raw) (m : fval) : list (string * fval) :=
  to_fields (sp_defaults (it_spec (fst e))) common_slots (snd e) ++ (if has_mtext (kind_of e) then [("m_text", m)] else []).
Definition entity_style (s : especific) : list (string * fval) :=
  match s with
  | EMLine x | EDimStyled _ x | ETextStyled _ x => map (fun n => (n, FStr x)) (style_slot (entity_type s))
  | _ => []
  end.
Definition entity_store (e : entity) : store :=
  of_fields (("common.handle", FHandle (en_handle e)) :: ("common.layer", FStr (en_layer e)) :: ("common.line_type_name", FStr (en_line_type e))
             :: entity_style (en_specific e) ++ en_fields e).
(** [EntityCommon { handle, ..Default::default() }] around a child (src/entity.rs:1557-1565, 1580-1588). *)
Definition child_store (fs : list (string * fval)) (h : N) : store :=
  of_fields (("common.handle", FHandle h) :: fs ++ common_defaults).

(** ** Objects *)
Definition object_slots (n : string) : list string :=
  if String.eqb n "MLineStyle" then ["style_name"] else if String.eqb n "LayerFilter" then ["layer_names"]
  else if String.eqb n "LayerIndex" then ["layer_names"] else if String.eqb n "PlotSettings" then ["plot_view_name"] else [].
Definition ospecific_of (n : string) (st : store) : ospecific :=
  if String.eqb n "MLineStyle" then OMLineStyle (str_of (st "style_name"))
  else if String.eqb n "LayerFilter" then OLayerFilter (strs_of (st "layer_names"))
  else if String.eqb n "LayerIndex" then OLayerIndex (strs_of (st "layer_names"))
  else if String.eqb n "PlotSettings" then OPlotSettings (str_of (st "plot_view_name"))
  else OOther n.
Definition object_of (t : itype) (st : store) : object :=
  let n := sp_name (it_spec t) in
  mk_object (handle_of (st "common.handle")) (ospecific_of n st) (to_fields (sp_defaults (it_spec t)) ("common.handle" :: object_slots n) st).
Definition object_style (s : ospecific) : list (string * fval) :=
  match s with
  | OMLineStyle x => [("style_name", FStr x)]
  | OLayerFilter l | OLayerIndex l => [("layer_names", FList (map FStr l))]
  | OPlotSettings x => [("plot_view_name", FStr x)]
  | _ => []
  end.
Definition object_store (o : object) : store :=
  of_fields (("common.handle", FHandle (ob_handle o)) :: object_style (ob_specific o) ++ ob_fields o).
(** The slots of a custom object: those of a table style, or the common ones. *)
Definition custom_defaults (c : custom) : list (string * fval) :=
  match c with CTableStyle _ => sp_defaults (it_spec obj_table_style) | _ => ocommon_defaults end.
Definition custom_object (c : custom) (st : store) : object :=
  mk_object (handle_of (st "common.handle")) (OCustom c) (to_fields (custom_defaults c) ["common.handle"] st).

(** ** Blocks *)
Definition block_of (st : store) (es : list entity) : block :=
  mk_block (handle_of (st "handle")) (str_of (st "layer")) (str_of (st "name")) es
    (to_fields (sp_defaults (it_spec block_head)) ["handle"; "layer"; "name"] st).
Definition block_store (b : block) : store :=
  of_fields (("handle", FHandle (bl_handle b)) :: ("layer", FStr (bl_layer b)) :: ("name", FStr (bl_name b)) :: bl_fields b).

(** ** The header *)
Definition ucs_slots : list string :=
  ["ucs_definition_name"; "ucs_name"; "ortho_ucs_reference"; "paperspace_ucs_definition_name"; "paperspace_ucs_name"; "paperspace_ortho_ucs_reference"].
Definition header_slots : list string :=
  ["next_available_handle"; "default_text_height"; "trace_width"; "text_style"; "current_layer"; "current_entity_line_type"; "dimension_style_name"; "file_name"]
  ++ ucs_slots.
(** Every field, with those that start with the time or chance. *)
Definition header_all : list (string * fval) := hs_defaults header_spec ++ map (fun s => (s, FInt 0)) (hs_random header_spec).
Definition header_of (st : store) : header :=
  mk_header (handle_of (st "next_available_handle")) (f64_of (st "default_text_height")) (f64_of (st "trace_width")) (str_of (st "text_style"))
    (str_of (st "current_layer")) (str_of (st "current_entity_line_type")) (str_of (st "dimension_style_name")) (str_of (st "file_name"))
    (map (fun s => str_of (st s)) ucs_slots) (to_fields header_all header_slots st).
Definition header_store (h : header) : store :=
  of_fields (("next_available_handle", FHandle (hd_next h)) :: ("default_text_height", FF64 (hd_text_height h)) :: ("trace_width", FF64 (hd_trace_width h))
             :: ("text_style", FStr (hd_text_style h)) :: ("current_layer", FStr (hd_current_layer h)) :: ("current_entity_line_type", FStr (hd_line_type h))
             :: ("dimension_style_name", FStr (hd_dim_style h)) :: ("file_name", FStr (hd_file_name h))
             :: combine ucs_slots (map FStr (hd_ucs h)) ++ hd_fields h).
Definition version_in (d : drawing) : version := version_of (of_fields (hd_fields (dr_header d)) "version").

(** * Reading *)

Definition is_zero (s : string) (p : pair) : bool :=
  (p_code p =? 0) && match p_value p with VStr x => seqb x (str s) | _ => false end.
(** A loop that drops pairs up to the next 0 pair, e.g. src/entity.rs:636-648, src/object.rs:129-141, src/block.rs:131-142. *)
Fixpoint skip_item (it : feed) : res feed :=
  match it with
  | [] => Err UnexpectedEndOfInput
  | Err e :: _ => Err e
  | Ok p :: r => if p_code p =? 0 then Ok it else skip_item r
  end.

(** ** Entities *)

Definition dimensions : list itype :=
  [ent_rotated_dimension; ent_radial_dimension; ent_diameter_dimension; ent_angular_three_point_dimension; ent_ordinate_dimension].
(** build/entity_generator.rs:430-448 [EntityType::from_type_string]; LINE has a second name (spec/EntitiesSpec.xml). [ent_insert_group] is another view
    of [Insert] (EntityData.v). *)
Definition type_strings : list (rstring * itype) :=
  (str "3DLINE", ent_line) ::
  flat_map (fun t => if seqb (sp_type (it_spec t)) (str "DIMENSION") || String.eqb (sp_name (it_spec t)) "InsertWithAttributes" then []
                     else [(sp_type (it_spec t), t)]) entities.
Definition from_type_string (s : rstring) : option itype := assoc_str s type_strings.
(** A DIMENSION (src/entity.rs:424-625). The five dimension types read the same pairs; which of them it is, if any, is decided by the subclass markers
    ([sp_created]). *)
Fixpoint read_dimension (l : list itype) (it : feed) : res (option raw * feed) :=
  match l with
  | [] => let? (x, r) := read_item (it_spec ent_rotated_dimension) it in Ok (None, r)
  | t :: l' =>
      match read_item (it_spec t) it with
      | Err e => Err e
      | Ok (Some st, r) => Ok (Some (t, st), r)
      | Ok (None, r) => read_dimension l' it
      end
  end.
(** src/entity.rs:408-676 [Entity::read]. *)
Fixpoint read_entity_fuel (fuel : nat) (it : feed) : res (option raw * feed) :=
  match fuel with
  | O => Err OutOfFuel
  | S f =>
      match it with
      | [] => Err UnexpectedEndOfInput
      | Err e :: _ => Err e
      | Ok p :: r =>
          if p_code p =? 0 then
            let? s := assert_string p in
            if seqb s (str "ENDSEC") || seqb s (str "ENDBLK") then Ok (None, it)
            else if seqb s (str "DIMENSION") then
              let? (o, r') := read_dimension dimensions r in
              match o with Some e => Ok (Some e, r') | None => read_entity_fuel f r' end
            else match from_type_string s with
                 | Some t =>
                     let? (o, r') := read_item (it_spec t) r in
                     match o with Some st => Ok (Some (t, st), r') | None => read_entity_fuel f r' end
                 | None => let? r' := skip_item r in read_entity_fuel f r'
                 end
          else Err (UnexpectedCodePair (p_code p) 0)
      end
  end.
Definition read_entity (it : feed) : res (option raw * feed) := read_entity_fuel (S (length it)) it.

(** The state of the pair iterator after a reader has failed. The readers are functions here and do not return it, but it is determined by them: a
    reader that fails has consumed the shortest beginning of the input on which it already fails. [marker] stands for "has asked for more". *)
Definition marker : res pair := Err OutOfFuel.
Fixpoint stop_behind {A} (f : feed -> res (A * feed)) (seen : list (res pair)) (rest : feed) : feed :=
  match f (rev seen ++ [marker]) with
  | Err OutOfFuel => match rest with [] => [] | x :: r => stop_behind f (x :: seen) r end
  | _ => rest
  end.
Definition after_error {A} (f : feed -> res (A * feed)) (it : feed) : feed := stop_behind f [] it.
(** An iterator that turns errors into the end of the iteration. Panics and endless loops of the model are not errors of the code. *)
Definition swallow {A} (f : feed -> res (option A * feed)) (it : feed) : res (option A * feed) :=
  match f it with
  | Ok x => Ok x
  | Err Panic => Err Panic
  | Err OutOfFuel => Err OutOfFuel
  | Err _ => Ok (None, after_error f it)
  end.
(** src/entity_iter.rs:12-21 [EntityIter::next]. *)
Definition entity_next : feed -> res (option raw * feed) := swallow read_entity.

(** src/entity_iter.rs:29-170 [collect_entities]. CollectModel.v describes what it does with a sequence of entities; here it is described with the
    iterator itself, which may go on after it has returned [None]. [PutBack] has room for one entity. *)
Definition ents : Type := (option raw * feed)%type.
Definition pnext (s : ents) : res (option raw * ents) :=
  match fst s with
  | Some e => Ok (Some e, (None, snd s))
  | None => let? (o, r) := entity_next (snd s) in Ok (o, (None, r))
  end.
Definition is_kind (n : string) (e : raw) : bool := String.eqb (kind_of e) n.
(** 32-48. *)
Definition swallow_seqend (s : ents) : res ents :=
  let? (o, s') := pnext s in
  match o with
  | Some e => if is_kind "Seqend" e then Ok s' else Ok (Some e, snd s')
  | None => Ok s'
  end.
(** 50-67. *)
Definition take_mtext (s : ents) : res (option fval * ents) :=
  let? (o, s') := pnext s in
  match o with
  | Some e => if is_kind "MText" e then Ok (Some (pack_mtext (snd e)), s') else Ok (None, (Some e, snd s'))
  | None => Ok (None, s')
  end.
(** 109-123, 138-152: the attributes following an insert, the vertices following a polyline. *)
Fixpoint take_children (n : string) (fuel : nat) (s : ents) : res (list (list (string * fval) * N) * ents) :=
  match fuel with
  | O => Err OutOfFuel
  | S f =>
      let? (o, s') := pnext s in
      match o with
      | Some e =>
          if is_kind n e then let? (l, s'') := take_children n f s' in Ok ((child_of e default_mtext, auto_replace) :: l, s'')
          else Ok ([], (Some e, snd s'))
      | None => Ok ([], s')
      end
  end.
Definition ents_fuel (s : ents) : nat := S (S (length (snd s))).
Definition has_attributes (e : raw) : bool := match snd e "__has_attributes" with FBool b => b | _ => false end.
Fixpoint collect_fuel (fuel : nat) (s : ents) : res (list entity * feed) :=
  match fuel with
  | O => Err OutOfFuel
  | S f =>
      let? (o, s1) := pnext s in
      match o with
      | None => Ok ([], snd s1)
      | Some e =>
          let? (x, s2) :=
            (if has_mtext (kind_of e) then
               let? (m, s2) := take_mtext s1 in
               Ok (entity_of e [] (match m with Some m => m | None => default_mtext end), s2)
             else if is_kind "Insert" e && has_attributes e then
               let? (l, s2) := take_children "Attribute" (ents_fuel s1) s1 in
               let? s3 := swallow_seqend s2 in
               Ok (entity_of e l default_mtext, s3)
             else if is_kind "Polyline" e then
               let? (l, s2) := take_children "Vertex" (ents_fuel s1) s1 in
               let? s3 := swallow_seqend s2 in
               Ok (entity_of e l default_mtext, s3)
             else Ok (entity_of e [] default_mtext, s1)) in
          let? (l, r) := collect_fuel f s2 in
          Ok (x :: l, r)
      end
  end.
Definition collect (it : feed) : res (list entity * feed) := collect_fuel (S (length it)) (None, it).

(** src/drawing.rs:1065-1077 [read_entities]. *)
Definition put_entity (d : drawing) (e : entity) : drawing := if (en_handle e =? 0)%N then add_entity e d else push_entity e d.
Definition read_entities (d : drawing) (it : feed) : res (drawing * feed) :=
  let? (l, r) := collect it in Ok (fold_left put_entity l d, r).

(** ** Objects *)

Definition object_types : list itype := objects ++ [obj_spatial_filter; obj_sun_study].
(** The readers of the objects with one of their own (CustomModel.v), by type string. *)
Definition custom_of {A} (f : A -> custom) (m : res (store * A * feed)) : res (object * feed) :=
  let? (x, r) := m in Ok (custom_object (f (snd x)) (fst x), r).
Definition plain_of (t : itype) (m : res (option store * feed)) : res (object * feed) :=
  let? (o, r) := m in Ok (object_of t (match o with Some st => st | None => default_of (it_spec t) end), r).
Definition custom_readers : list (rstring * (feed -> res (object * feed))) :=
  [(str "DICTIONARY", fun it => custom_of CDictionary (read_dict it));
   (str "ACDBDICTIONARYWDFLT", fun it => custom_of CDictionaryWithDefault (read_dictd it));
   (str "DATATABLE", fun it => custom_of CDataTable (read_dtable it));
   (str "XRECORD", fun it => custom_of CXRecord (read_xrec it));
   (str "SECTIONSETTINGS", fun it => custom_of CSectionSettings (read_secs it));
   (str "TABLESTYLE", fun it => custom_of CTableStyle (read_tstyle it));
   (str "SPATIAL_FILTER", fun it => plain_of obj_spatial_filter (read_spatial it));
   (str "SUNSTUDY", fun it => plain_of obj_sun_study (read_sun it))].
(** build/object_generator.rs [ObjectType::from_type_string] followed by the reader of the type (src/object.rs:104-126). *)
Definition object_readers : list (rstring * (feed -> res (object * feed))) :=
  custom_readers ++ map (fun t => (sp_type (it_spec t), fun it => plain_of t (read_item (it_spec t) it))) objects.
(** src/object.rs:96-156 [Object::read]. *)
Fixpoint read_object_fuel (fuel : nat) (it : feed) : res (option object * feed) :=
  match fuel with
  | O => Err OutOfFuel
  | S f =>
      match it with
      | [] => Err UnexpectedEndOfInput
      | Err e :: _ => Err e
      | Ok p :: r =>
          if p_code p =? 0 then
            let? s := assert_string p in
            if seqb s (str "ENDSEC") || seqb s (str "ENDBLK") then Ok (None, it)
            else match assoc_str s object_readers with
                 | Some rd => let? (o, r') := rd r in Ok (Some o, r')
                 | None => let? r' := skip_item r in read_object_fuel f r'
                 end
          else Err (UnexpectedCodePair (p_code p) 0)
      end
  end.
Definition read_object (it : feed) : res (option object * feed) := read_object_fuel (S (length it)) it.
(** src/object_iter.rs:8-17 [ObjectIter::next], src/drawing.rs:1078-1089 [read_objects]. *)
Definition put_object (d : drawing) (o : object) : drawing := if (ob_handle o =? 0)%N then add_object o d else push_object o d.
Fixpoint read_objects_fuel (fuel : nat) (d : drawing) (it : feed) : res (drawing * feed) :=
  match fuel with
  | O => Err OutOfFuel
  | S f =>
      let? (o, r) := swallow read_object it in
      match o with
      | Some o => read_objects_fuel f (put_object d o) r
      | None => Ok (d, r)
      end
  end.
Definition read_objects (d : drawing) (it : feed) : res (drawing * feed) := read_objects_fuel (S (length it)) d it.

(** ** Classes *)

(** src/class.rs:160-219 [read_class]. *)
Definition class_type (v : version) : itype := if version_leb v R13 then class_old else class_new.
Definition read_class (v : version) (typ : rstring) (it : feed) : res (list (string * fval) * feed) :=
  let? (o, r) := read_item (it_spec (class_type v)) it in
  match o with
  | Some st => Ok (to_fields class_defaults [] (if version_leb v R13 then upd st "record_name" (FStr typ) else st), r)
  | None => Err Panic
  end.
(** src/class.rs:114-135 [read_classes]; the definitions are returned, not pushed. *)
Fixpoint read_classes_fuel (fuel : nat) (v : version) (it : feed) : res (list (list (string * fval)) * feed) :=
  match fuel with
  | O => Err OutOfFuel
  | S f =>
      match it with
      | [] => Err UnexpectedEndOfInput
      | Err e :: _ => Err e
      | Ok p :: r =>
          if p_code p =? 0 then
            let? s := assert_string p in
            if seqb s (str "ENDSEC") then Ok ([], it)
            else let? (c, r') := read_class v s r in let? (l, r'') := read_classes_fuel f v r' in Ok (c :: l, r'')
          else read_classes_fuel f v r
      end
  end.
Definition set_classes (c : list (list (string * fval))) (d : drawing) : drawing :=
  let 'mk_drawing h _ a b di la lt s u v vp bl e o t := d in mk_drawing h c a b di la lt s u v vp bl e o t.
Definition set_thumbnail (t : option (list N)) (d : drawing) : drawing :=
  let 'mk_drawing h c a b di la lt s u v vp bl e o _ := d in mk_drawing h c a b di la lt s u v vp bl e o t.
Definition read_classes (d : drawing) (it : feed) : res (drawing * feed) :=
  let? (l, r) := read_classes_fuel (S (length it)) (version_in d) it in Ok (set_classes (dr_classes d ++ l) d, r).

(** ** Tables *)

(** The order of spec/TableSpec.xml. *)
Definition table_kinds : list tkind := [TAppId; TBlockRecord; TDimStyle; TLineType; TLayer; TStyle; TUcs; TView; TViewPort].
Definition table_type (k : tkind) : rstring := sp_type (it_spec (table_spec k)).
Definition put_titem (k : tkind) (d : drawing) (x : titem) : drawing := if (ti_handle x =? 0)%N then add_table k x d else push_table k x d.
(** build/table_generator.rs:189-331 [read_<collection>]. *)
Fixpoint read_table_fuel (fuel : nat) (k : tkind) (d : drawing) (it : feed) : res (drawing * feed) :=
  match fuel with
  | O => Err OutOfFuel
  | S f =>
      match it with
      | [] => Err UnexpectedEndOfInput
      | Err e :: _ => Err e
      | Ok p :: r =>
          if p_code p =? 0 then
            let? s := assert_string p in
            if seqb s (table_type k) then
              let? (o, r') := read_item (it_spec (table_spec k)) r in
              match o with
              | Some st => read_table_fuel f k (put_titem k d (titem_of k st)) r'
              | None => Err Panic
              end
            else Ok (d, it)
          else read_table_fuel f k d r
      end
  end.
(** src/drawing.rs:1126-1147 [swallow_table]. *)
Fixpoint swallow_table (it : feed) : res feed :=
  match it with
  | [] => Err UnexpectedEndOfInput
  | Err e :: _ => Err e
  | Ok p :: r =>
      if p_code p =? 0 then
        let? s := assert_string p in
        if seqb s (str "TABLE") || seqb s (str "ENDSEC") || seqb s (str "ENDTAB") then Ok it else swallow_table r
      else swallow_table r
  end.
(** The 0 pair that must come next. *)
Definition expect (s : string) (it : feed) : res feed :=
  match it with
  | [] => Err UnexpectedEndOfInput
  | Err e :: _ => Err e
  | Ok p :: r => if is_zero s p then Ok r else Err (UnexpectedCodePair (p_code p) 0)
  end.
Definition table_of_name (s : rstring) : option tkind := find (fun k => seqb s (table_type k)) table_kinds.
(** build/table_generator.rs:145-187 [read_specific_table]. *)
Definition read_table (d : drawing) (it : feed) : res (drawing * feed) :=
  match it with
  | [] => Err UnexpectedEndOfInput
  | Err e :: _ => Err e
  | Ok p :: r =>
      if p_code p =? 2 then
        let? s := assert_string p in
        let? (d', r') := match table_of_name s with
                         | Some k => read_table_fuel (S (length r)) k d r
                         | None => let? r' := swallow_table r in Ok (d, r')
                         end in
        let? r'' := expect "ENDTAB" r' in Ok (d', r'')
      else Err (ExpectedTableType 0)
  end.
(** src/drawing.rs:1090-1125 [read_section_item]. *)
Fixpoint read_section_item (fuel : nat) (typ : string) (callback : drawing -> feed -> res (drawing * feed)) (d : drawing) (it : feed)
  : res (drawing * feed) :=
  match fuel with
  | O => Err OutOfFuel
  | S f =>
      match it with
      | [] => Err UnexpectedEndOfInput
      | Err e :: _ => Err e
      | Ok p :: r =>
          if p_code p =? 0 then
            let? s := assert_string p in
            if seqb s (str "ENDSEC") then Ok (d, it)
            else if seqb s (str typ) then let? (d', r') := callback d r in read_section_item f typ callback d' r'
            else Err (UnexpectedCodePair (p_code p) 0)
          else Err (UnexpectedCodePair (p_code p) 0)
      end
  end.

(** ** Blocks *)

(** src/block.rs:118-198 [read_block]: pairs other than 0 are applied to the block ([run]); at 0/ENDBLK the block is complete; at any other 0 pair
    entities are read. *)
Fixpoint read_block_fuel (fuel : nat) (st : store) (es : list entity) (it : feed) : res (block * feed) :=
  match fuel with
  | O => Err OutOfFuel
  | S f =>
      let? (x, r) := run (sp_arms (it_spec block_head)) false (S (length it)) it st [] in
      match r with
      | Ok p :: r' =>
          if is_zero "ENDBLK" p then let? r'' := skip_item r' in Ok (block_of (fst x) es, r'')
          else let? (l, r'') := collect r in read_block_fuel f (fst x) (es ++ l) r''
      | _ => Err UnexpectedEndOfInput
      end
  end.
Definition put_block (d : drawing) (b : block) : drawing := if (bl_handle b =? 0)%N then add_block b d else push_block b d.
Definition read_block (d : drawing) (it : feed) : res (drawing * feed) :=
  let? (b, r) := read_block_fuel (S (length it)) (default_of (it_spec block_head)) [] it in Ok (put_block d b, r).

(** ** Sections *)

(** src/drawing.rs:1049-1064 [swallow_section]. *)
Fixpoint swallow_section (it : feed) : res feed :=
  match it with
  | [] => Ok []
  | Err e :: _ => Err e
  | Ok p :: r =>
      if p_code p =? 0 then let? s := assert_string p in if seqb s (str "ENDSEC") then Ok it else swallow_section r
      else swallow_section r
  end.
Section Load.
  (** [sw]: what the rest of the input becomes when it is decoded as UTF-8 from here on (HeaderModel.v); [env]: the values of a default header that depend on
      time and chance. *)
  Context (sw : feed -> feed) (env : store).

  (** The body of a section (src/drawing.rs:988-1006). The boolean says whether the input is read as UTF-8. *)
  Definition read_section (name : rstring) (u : bool) (d : drawing) (it : feed) : res (drawing * bool * feed) :=
    if seqb name (str "HEADER") then
      let? (x, r) := read_header header_spec sw u env it in Ok (set_header (header_of (fst x)) d, snd x, r)
    else if seqb name (str "CLASSES") then let? (d', r) := read_classes d it in Ok (d', u, r)
    else if seqb name (str "TABLES") then let? (d', r) := read_section_item (S (length it)) "TABLE" read_table d it in Ok (d', u, r)
    else if seqb name (str "BLOCKS") then let? (d', r) := read_section_item (S (length it)) "BLOCK" read_block d it in Ok (d', u, r)
    else if seqb name (str "ENTITIES") then let? (d', r) := read_entities d it in Ok (d', u, r)
    else if seqb name (str "OBJECTS") then let? (d', r) := read_objects d it in Ok (d', u, r)
    else if seqb name (str "THUMBNAILIMAGE") then let? (t, r) := read_thumbnail it in Ok (set_thumbnail t d, u, r)
    else let? r := swallow_section it in Ok (d, u, r).
  (** src/drawing.rs:974-1048 [read_sections]. [fuel] bounds the number of sections. Once the header has switched to UTF-8 what is left may be longer than it
      was before, so the bound is chosen anew: [again] goes on from there. *)
  Fixpoint sections_with (again : drawing -> feed -> res (drawing * feed)) (fuel : nat) (u : bool) (d : drawing) (it : feed) : res (drawing * feed) :=
    match fuel with
    | O => Err OutOfFuel
    | S f =>
        match it with
        | [] => Ok (d, [])
        | Err e :: _ => Err e
        | Ok p :: r =>
            if p_code p =? 0 then
              let? s := assert_string p in
              if seqb s (str "EOF") then Ok (d, it)
              else if seqb s (str "SECTION") then
                match r with
                | [] => Err UnexpectedEndOfInput
                | Err e :: _ => Err e
                | Ok q :: r1 =>
                    match (if p_code q =? 2 then match p_value q with VStr name => Some name | _ => None end else None) with
                    | Some name =>
                        let? (x, r2) := read_section name u d r1 in
                        let? r3 := expect "ENDSEC" r2 in
                        if negb u && snd x then again (fst x) r3 else sections_with again f (snd x) (fst x) r3
                    | None => Err (UnexpectedCodePair (p_code q) 0)
                    end
                end
              else Err (UnexpectedCodePair (p_code p) 0)
            else Err (UnexpectedCodePair (p_code p) 0)
        end
    end.
  Definition read_sections : nat -> bool -> drawing -> feed -> res (drawing * feed) :=
    sections_with (fun d it => sections_with (fun _ _ => Err OutOfFuel) (S (length it)) true d it).
  (** src/drawing.rs:131-132: [Drawing::new] followed by [clear]. Normalizing does not change a default header and [clear] empties every collection. *)
  Definition start : drawing := set_header (set_next 1 (header_of (header_default header_spec env))) empty_drawing.
  (** src/drawing.rs:130-147 [load_from_iter]; [load_from] is what it does once some sections have been read into [d]. *)
  Definition load_from (u : bool) (d : drawing) (it : feed) : res drawing :=
    let? (d, r) := read_sections (S (length it)) u d it in
    match r with
    | [] => Ok d
    | Err e :: _ => Err e
    | Ok p :: _ => if is_zero "EOF" p then Ok d else Err (UnexpectedCodePair (p_code p) 0)
    end.
  Definition load (it : feed) : res drawing := load_from false start it.
End Load.

(** * Writing *)

Definition zero (s : string) : pair := mk_pair 0 (VStr (str s)).
Definition name_pair (s : string) : pair := mk_pair 2 (VStr (str s)).
Definition section (name : string) (body : list pair) : list pair := zero "SECTION" :: name_pair name :: body ++ [zero "ENDSEC"].

(** ** Entities *)

Definition type_named (l : list itype) (n : string) : option itype := find (fun t => String.eqb (sp_name (it_spec t)) n) l.
(** The x-data at the very end (src/entity.rs:1309-1311). *)
Definition write_exdata (v : version) (st : store) : list pair :=
  flat_map (fun x => match x with FXd d => write_xdata v d | _ => [] end) (as_list (st "common.x_data")).
(** src/entity.rs:1295-1313 [add_code_pairs]: [post] is what [add_post_code_pairs] adds, with the x-data after it if there can be any. *)
Definition write_typed (t : itype) (v : version) (wh : bool) (st : store) (post : res (list pair)) : res (list pair) :=
  if supported (it_spec t) v then
    let? ps := write_item (it_spec t) v wh st in
    let? qs := post in
    Ok (mk_pair 0 (VStr (sp_type (it_spec t))) :: ps ++ qs)
  else Ok [].
(** src/entity.rs:1595-1612 [add_code_pairs_attribute_m_text]; [st] is the attribute. *)
Definition mtext_store (st : store) (m : fval) : store :=
  of_fields (("common.handle", FHandle 0) :: ("common.__owner_handle", st "common.handle") :: ("common.is_in_paper_space", st "common.is_in_paper_space")
             :: ("common.layer", st "common.layer") :: unpack_mtext m ++ common_defaults).
Definition write_attribute (t : itype) (v : version) (wh : bool) (st : store) (m : fval) : res (list pair) :=
  write_typed t v wh st (let? ps := write_typed ent_mtext v wh (mtext_store st m) (Ok []) in Ok (ps ++ write_exdata v st)).
(** src/entity.rs:1613-1618. *)
Definition write_seqend (wh : bool) (h : N) : list pair :=
  zero "SEQEND" :: if wh then [mk_pair 5 (VStr (handle_as_string h))] else [].
Definition flag_of (st : store) (s : string) (mask : Z) : bool := match st s with FInt z => negb (Z.land z mask =? 0) | _ => false end.
Definition set_flag (z mask : Z) (b : bool) : Z := if b then Z.lor z mask else Z.land z (Z.lnot mask).
(** src/entity.rs:1571-1579: the vertex of a polyline is adapted to it. *)
Definition adapt_vertex (poly st : store) : store :=
  let zero_index s := match st s with FInt z => z =? 0 | _ => false end in
  let f := match st "flags" with FInt z => z | _ => 0 end in
  let f := set_flag f 32 (flag_of poly "flags" 8) in
  let f := if zero_index "polyface_mesh_vertex_index1" && zero_index "polyface_mesh_vertex_index2" && zero_index "polyface_mesh_vertex_index3" &&
              zero_index "polyface_mesh_vertex_index4" then set_flag f 64 (flag_of poly "flags" 16) else f in
  upd st "flags" (FInt f).
Fixpoint concat_res (l : list (res (list pair))) : res (list pair) :=
  match l with
  | [] => Ok []
  | x :: r => let? a := x in let? b := concat_res r in Ok (a ++ b)
  end.
Definition write_children (v : version) (wh : bool) (e : entity) : res (list pair) :=
  match en_specific e with
  | EInsert seqend l =>
      let? ps := concat_res (map (fun '(fs, h) => write_attribute ent_attribute v wh (child_store fs h) (of_fields fs "m_text")) l) in
      Ok (ps ++ match l with [] => [] | _ => write_seqend wh seqend end)
  | EPolyline seqend l =>
      let? ps := concat_res (map (fun '(fs, h) => write_typed ent_vertex v wh (adapt_vertex (entity_store e) (child_store fs h)) (Ok [])) l) in
      Ok (ps ++ write_seqend wh seqend)
  | _ => Ok []
  end.
Definition write_entity (v : version) (wh : bool) (e : entity) : res (list pair) :=
  let st := entity_store e in
  match en_specific e with
  | EInsert _ [] => write_typed ent_insert v wh st (Ok [])
  | EInsert _ _ => write_typed ent_insert_group v wh st (let? ps := write_children v wh e in Ok (ps ++ write_exdata v st))
  | EPolyline _ _ => write_typed ent_polyline v wh st (let? ps := write_children v wh e in Ok (ps ++ write_exdata v st))
  | s =>
      match type_named entities (entity_type s) with
      | Some t => if has_mtext (entity_type s) then write_attribute t v wh st (of_fields (en_fields e) "m_text") else write_typed t v wh st (Ok [])
      | None => Err Panic (* there are no other types *)
      end
  end.
Definition write_entities (v : version) (wh : bool) (l : list entity) : res (list pair) := concat_res (map (write_entity v wh) l).

(** ** Objects *)

(** The type string and first version of the custom objects (spec/ObjectsSpec.xml). *)
Definition custom_type (c : custom) : string * version :=
  match c with
  | CDictionary _ => ("DICTIONARY", Version_1_0) | CDictionaryWithDefault _ => ("ACDBDICTIONARYWDFLT", R2000) | CDataTable _ => ("DATATABLE", R2007)
  | CXRecord _ => ("XRECORD", R14) | CSectionSettings _ => ("SECTIONSETTINGS", R2007) | CTableStyle _ => ("TABLESTYLE", R2004)
  end.
Definition write_custom (c : custom) (v : version) (st : store) : res (list pair) :=
  match c with
  | CDictionary d => write_dict v st d
  | CDictionaryWithDefault d => write_dictd v st d
  | CDataTable t => write_dtable v st t
  | CXRecord x => write_xrec v st x
  | CSectionSettings s => write_secs v st s
  | CTableStyle cells => write_tstyle v st cells
  end.
(** src/object.rs:1475-1487 [add_code_pairs]. Objects always have their handle written. *)
Definition write_object (v : version) (o : object) : res (list pair) :=
  let st := object_store o in
  match ob_specific o with
  | OCustom c =>
      let '(typ, min) := custom_type c in
      if version_leb min v then let? ps := write_custom c v st in Ok (zero typ :: ps) else Ok []
  | s =>
      if String.eqb (object_type s) "SunStudy" then
        if supported (it_spec obj_sun_study) v then let? ps := write_sun v st in Ok (zero "SUNSTUDY" :: ps) else Ok []
      else match type_named object_types (object_type s) with
           | Some t => write_typed t v true st (Ok [])
           | None => Err Panic
           end
  end.

(** ** Sections *)

(** src/class.rs:137-159 [add_code_pairs]. *)
Definition write_class (v : version) (c : list (string * fval)) : res (list pair) :=
  let st := of_fields c in
  let? ps := write_item (it_spec (class_type v)) v true st in
  Ok (mk_pair 0 (VStr (if version_leb v R13 then str_of (st "record_name") else str "CLASS")) :: ps).
(** src/drawing.rs:904-915 [add_classes_pairs]. *)
Definition write_classes (v : version) (l : list (list (string * fval))) : res (list pair) :=
  match l with
  | [] => Ok []
  | _ => let? ps := concat_res (map (write_class v) l) in Ok (section "CLASSES" ps)
  end.
(** build/table_generator.rs:333-516 [add_table_code_pairs], [add_<collection>_code_pairs]. *)
Definition write_titem (k : tkind) (v : version) (wh : bool) (x : titem) : res (list pair) :=
  let? ps := write_item (it_spec (table_spec k)) v wh (titem_store x) in Ok (mk_pair 0 (VStr (table_type k)) :: ps).
Definition write_table (d : drawing) (v : version) (wh : bool) (k : tkind) : res (list pair) :=
  if supported (it_spec (table_spec k)) v then
    match tget k d with
    | [] => Ok []
    | l =>
        let? ps := concat_res (map (write_titem k v wh) l) in
        Ok (zero "TABLE" :: mk_pair 2 (VStr (table_type k)) :: mk_pair 100 (VStr (str "AcDbSymbolTable")) :: mk_pair 70 (VShort 0) :: ps ++ [zero "ENDTAB"])
    end
  else Ok [].
Definition write_tables (d : drawing) (v : version) (wh : bool) : res (list pair) :=
  let? ps := concat_res (map (write_table d v wh) table_kinds) in Ok (section "TABLES" ps).
(** src/block.rs:199-300 [add_code_pairs]: the head, the entities, ENDBLK (250-289). *)
Definition write_endblk (v : version) (wh : bool) (st : store) : res (list pair) :=
  write_cmds v wh st
    [WConst [] (zero "ENDBLK");
     WPair [CHandles; CNe [("handle", FHandle 0)]] 5 "handle" WHandle;
     WExts [CMin R14] "extension_data_groups";
     WPair [CMin R2000; CNe [("__owner_handle", FHandle 0)]] 330 "__owner_handle" WHandle;
     WConst [CMin R13] (mk_pair 100 (VStr (str "AcDbEntity")));
     WPair [CTrue "is_in_paperspace"] 67 "is_in_paperspace" WAsI16;
     WPair [] 8 "layer" WStr;
     WConst [CMin R13] (mk_pair 100 (VStr (str "AcDbBlockEnd")));
     WXdatas [] "x_data"].
Definition write_block (v : version) (wh : bool) (b : block) : res (list pair) :=
  let st := block_store b in
  let? head := write_item (it_spec block_head) v wh st in
  let? es := write_entities v wh (bl_entities b) in
  let? tail := write_endblk v wh st in
  Ok (zero "BLOCK" :: head ++ es ++ tail).
(** src/drawing.rs:922-933 [add_blocks_pairs]. *)
Definition write_blocks (v : version) (wh : bool) (l : list block) : res (list pair) :=
  match l with
  | [] => Ok []
  | _ => let? ps := concat_res (map (write_block v wh) l) in Ok (section "BLOCKS" ps)
  end.
(** src/drawing.rs:944-954 [add_objects_pairs]. *)
Definition write_objects (v : version) (l : list object) : res (list pair) :=
  if version_leb R13 v then let? ps := concat_res (map (write_object v) l) in Ok (section "OBJECTS" ps) else Ok [].
(** src/drawing.rs:177-189 [code_pairs]; src/header.rs:65-70 for the header section, 916-921 tables, 934-943 entities. *)
Definition code_pairs (d : drawing) : res (list pair) :=
  let v := version_in d in
  let hs := header_store (dr_header d) in
  let wh := version_leb R13 v || match hs "handles_enabled" with FBool b => b | _ => false end in
  let? h := write_header header_spec hs in
  let? c := write_classes v (dr_classes d) in
  let? t := write_tables d v wh in
  let? b := write_blocks v wh (dr_blocks d) in
  let? e := write_entities v wh (dr_entities d) in
  let? o := write_objects v (dr_objects d) in
  let? i := write_thumbnail v (dr_thumbnail d) in
  Ok (section "HEADER" h ++ c ++ t ++ b ++ section "ENTITIES" e ++ o ++ i ++ [zero "EOF"]).
