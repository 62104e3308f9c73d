(** The drawing: its collections, handle allocation, adding, removing, normalizing, clearing and looking up items
    (src/drawing.rs, src/drawing_item.rs, src/handle.rs, src/table.rs). *)
From Verif Require Import Base F64Model VersionModel SpecModel SpecSpec TableData ObjectData.
From Verif Require CustomModel.
Open Scope N_scope.

(** The fields of an item that the drawing does not look at, by name. *)
Notation fields := (list (string * fval)) (only parsing).

(** * Items *)

(** The nine kinds of table entries (spec/TableSpec.xml). All have a handle and a name; the rest are [fields]. *)
Inductive tkind : Type := TAppId | TBlockRecord | TDimStyle | TLayer | TLineType | TStyle | TUcs | TView | TViewPort.
Record titem : Type := mk_ti { ti_handle : N; ti_name : rstring; ti_fields : fields }.

(** src/entity.rs [EntityType], reduced to what the drawing distinguishes. Children (attributes, vertices) carry their handle. *)
Inductive especific : Type :=
| EInsert (seqend : N) (children : list (fields * N))   (* Insert: __seqend_handle, __attributes_and_handles *)
| EPolyline (seqend : N) (children : list (fields * N)) (* Polyline: __seqend_handle, __vertices_and_handles *)
| EMLine (style : rstring)
| EDimStyled (t : string) (style : rstring)             (* the five dimensions, Leader, Tolerance (src/drawing.rs:775-790) *)
| ETextStyled (t : string) (style : rstring)            (* ArcAlignedText, Attribute, AttributeDefinition, MText, Text (842-850) *)
| EOther (t : string).
Record entity : Type := mk_entity { en_handle : N; en_layer : rstring; en_line_type : rstring; en_specific : especific; en_fields : fields }.
(** The name of the enum variant. *)
Definition entity_type (s : especific) : string :=
  match s with
  | EInsert _ _ => "Insert" | EPolyline _ _ => "Polyline" | EMLine _ => "MLine"
  | EDimStyled t _ => t | ETextStyled t _ => t | EOther t => t
  end.

(** src/object.rs [ObjectType], reduced likewise. *)
Inductive ospecific : Type :=
| OMLineStyle (name : rstring)
| OLayerFilter (layers : list rstring)
| OLayerIndex (layers : list rstring)
| OPlotSettings (view : rstring)
| OCustom (c : CustomModel.custom)                      (* the drawing does not look into these *)
| OOther (t : string).
Record object : Type := mk_object { ob_handle : N; ob_specific : ospecific; ob_fields : fields }.
Definition object_type (s : ospecific) : string :=
  match s with
  | OMLineStyle _ => "MLineStyle" | OLayerFilter _ => "LayerFilter" | OLayerIndex _ => "LayerIndex" | OPlotSettings _ => "PlotSettings"
  | OCustom c => CustomModel.custom_name c | OOther t => t
  end.

(** src/block.rs:12-40 [Block]. *)
Record block : Type := mk_block { bl_handle : N; bl_layer : rstring; bl_name : rstring; bl_entities : list entity; bl_fields : fields }.

(** The header variables the drawing uses (spec/HeaderVariablesSpec.xml); the rest are [fields]. Doubles are their bits. *)
Record header : Type := mk_header {
  hd_next : N;                 (* next_available_handle *)
  hd_text_height : N;          (* default_text_height *)
  hd_trace_width : N;
  hd_text_style : rstring;
  hd_current_layer : rstring;
  hd_line_type : rstring;      (* current_entity_line_type *)
  hd_dim_style : rstring;      (* dimension_style_name *)
  hd_file_name : rstring;
  hd_ucs : list rstring;       (* ucs_definition_name, ucs_name, ortho_ucs_reference and the three for paper space *)
  hd_fields : fields }.

(** src/drawing.rs:40-76 [Drawing]; classes and thumbnail are opaque here. *)
Record drawing : Type := mk_drawing {
  dr_header : header;
  dr_classes : list fields;
  dr_app_ids : list titem; dr_block_records : list titem; dr_dim_styles : list titem; dr_layers : list titem;
  dr_line_types : list titem; dr_styles : list titem; dr_ucss : list titem; dr_views : list titem; dr_view_ports : list titem;
  dr_blocks : list block;
  dr_entities : list entity;
  dr_objects : list object;
  dr_thumbnail : option (list N) }.

(** Access to the nine table collections by kind. *)
Definition tget (k : tkind) (d : drawing) : list titem :=
  match k with
  | TAppId => dr_app_ids d | TBlockRecord => dr_block_records d | TDimStyle => dr_dim_styles d | TLayer => dr_layers d
  | TLineType => dr_line_types d | TStyle => dr_styles d | TUcs => dr_ucss d | TView => dr_views d | TViewPort => dr_view_ports d
  end.
Definition tset (k : tkind) (l : list titem) (d : drawing) : drawing :=
  let 'mk_drawing h c a b di la lt s u v vp bl e o t := d in
  match k with
  | TAppId => mk_drawing h c l b di la lt s u v vp bl e o t
  | TBlockRecord => mk_drawing h c a l di la lt s u v vp bl e o t
  | TDimStyle => mk_drawing h c a b l la lt s u v vp bl e o t
  | TLayer => mk_drawing h c a b di l lt s u v vp bl e o t
  | TLineType => mk_drawing h c a b di la l s u v vp bl e o t
  | TStyle => mk_drawing h c a b di la lt l u v vp bl e o t
  | TUcs => mk_drawing h c a b di la lt s l v vp bl e o t
  | TView => mk_drawing h c a b di la lt s u l vp bl e o t
  | TViewPort => mk_drawing h c a b di la lt s u v l bl e o t
  end.
Definition set_header (h : header) (d : drawing) : drawing :=
  let 'mk_drawing _ c a b di la lt s u v vp bl e o t := d in mk_drawing h c a b di la lt s u v vp bl e o t.
Definition set_blocks (bl : list block) (d : drawing) : drawing :=
  let 'mk_drawing h c a b di la lt s u v vp _ e o t := d in mk_drawing h c a b di la lt s u v vp bl e o t.
Definition set_entities (e : list entity) (d : drawing) : drawing :=
  let 'mk_drawing h c a b di la lt s u v vp bl _ o t := d in mk_drawing h c a b di la lt s u v vp bl e o t.
Definition set_objects (o : list object) (d : drawing) : drawing :=
  let 'mk_drawing h c a b di la lt s u v vp bl e _ t := d in mk_drawing h c a b di la lt s u v vp bl e o t.
Definition set_next (n : N) (h : header) : header :=
  let 'mk_header _ th tw ts cl lt ds fn u f := h in mk_header n th tw ts cl lt ds fn u f.

(** The entry of a kind with the given name and otherwise default values: the [..Default::default()] of the [ensure_*] functions. *)
Definition table_spec (k : tkind) : itype :=
  match k with
  | TAppId => t_app_id | TBlockRecord => t_block_record | TDimStyle => t_dim_style | TLayer => t_layer | TLineType => t_line_type
  | TStyle => t_style | TUcs => t_ucs | TView => t_view | TViewPort => t_view_port
  end.
Definition default_fields (t : itype) : fields :=
  filter (fun '(n, _) => negb (String.eqb n "handle" || String.eqb n "name")) (sp_defaults (it_spec t)).
Definition default_item (k : tkind) (name : rstring) : titem := mk_ti 0 name (default_fields (table_spec k)).
(** [Object::new(ObjectType::MLineStyle(..))] in src/drawing.rs:766-769. *)
Definition default_mline_style (name : rstring) : object :=
  mk_object 0 (OMLineStyle name)
    (filter (fun '(n, _) => negb (String.eqb n "common.handle" || String.eqb n "style_name")) (sp_defaults (it_spec obj_mline_style))).

(** * Handles *)

(** src/drawing.rs:37. *)
Definition auto_replace : N := 18446744073709551615.
(** src/drawing.rs:654-658 [next_handle], src/handle.rs:9-11. Simplified: the counter is unbounded; the 64-bit counter overflows (a panic in
    debug builds) after 2^64 allocations. *)
Definition next_handle (d : drawing) : N * drawing :=
  let n := hd_next (dr_header d) in (n, set_header (set_next (n + 1) (dr_header d)) d).
Definition give (h : N) (x : titem) : titem := mk_ti h (ti_name x) (ti_fields x).

(** * Adding *)

(** src/drawing.rs:693-736 [add_*_no_handle_set]: a push, after the line type of a layer has been ensured. *)
Definition push_item (k : tkind) (x : titem) (d : drawing) : drawing := tset k (tget k d ++ [x]) d.
(** [add_*] for all kinds but layers, e.g. src/drawing.rs:236-239. *)
Definition add_plain (k : tkind) (x : titem) (d : drawing) : drawing :=
  let '(h, d) := next_handle d in push_item k (give h x) d.
Definition has_name (k : tkind) (name : rstring) (d : drawing) : bool := existsb (fun x => seqb (ti_name x) name) (tget k d).
(** The [ensure_*_is_present] functions, e.g. src/drawing.rs:739-746. *)
Definition ensure_plain (k : tkind) (name : rstring) (d : drawing) : drawing :=
  if has_name k name d then d else add_plain k (default_item k name) d.
Definition field_string (s : string) (l : fields) : rstring := match assoc_slot s l with Some (FStr x) => x | _ => [] end.
(** src/drawing.rs:287-290, 705-709 [add_layer]. *)
Definition push_layer (x : titem) (d : drawing) : drawing :=
  push_item TLayer x (ensure_plain TLineType (field_string "line_type_name" (ti_fields x)) d).
Definition add_layer (x : titem) (d : drawing) : drawing :=
  let '(h, d) := next_handle d in push_layer (give h x) d.
Definition ensure_layer (name : rstring) (d : drawing) : drawing :=
  if has_name TLayer name d then d else add_layer (default_item TLayer name) d.
Definition add_table (k : tkind) (x : titem) (d : drawing) : drawing :=
  match k with TLayer => add_layer x d | _ => add_plain k x d end.
Definition push_table (k : tkind) (x : titem) (d : drawing) : drawing :=
  match k with TLayer => push_layer x d | _ => push_item k x d end.
Definition ensure (k : tkind) (name : rstring) (d : drawing) : drawing :=
  match k with TLayer => ensure_layer name d | _ => ensure_plain k name d end.
Definition ensure_all (k : tkind) (names : list rstring) (d : drawing) : drawing := fold_left (fun d n => ensure k n d) names d.

(** src/drawing.rs:683-690, 801-816, 839-843, 856-860, 876-885 [add_object_no_handle_set]. *)
Definition push_object (o : object) (d : drawing) : drawing :=
  let d := match ob_specific o with OLayerFilter l | OLayerIndex l => ensure_all TLayer l d | _ => d end in
  let d := match ob_specific o with OMLineStyle n => ensure TStyle n (ensure TLineType n d) | _ => d end in
  let d := match ob_specific o with OPlotSettings v => ensure TView v d | _ => d end in
  set_objects (dr_objects d ++ [o]) d.
(** src/drawing.rs:449-456 [add_object]. *)
Definition add_object (o : object) (d : drawing) : drawing :=
  let '(h, d) := next_handle d in push_object (mk_object h (ob_specific o) (ob_fields o)) d.
(** src/drawing.rs:755-769. *)
Definition is_mline_style (name : rstring) (o : object) : bool := match ob_specific o with OMLineStyle n => seqb n name | _ => false end.
Definition ensure_mline_style (name : rstring) (d : drawing) : drawing :=
  if existsb (is_mline_style name) (dr_objects d) then d else add_object (default_mline_style name) d.

(** src/drawing.rs:674-682 [add_entity_no_handle_set]. *)
Definition push_entity (e : entity) (d : drawing) : drawing :=
  let d := match en_specific e with EMLine s => ensure_mline_style s d | _ => d end in
  let d := match en_specific e with EDimStyled _ s => ensure TDimStyle s d | _ => d end in
  let d := ensure TLayer (en_layer e) d in
  let d := ensure TLineType (en_line_type e) d in
  let d := match en_specific e with ETextStyled _ s => ensure TStyle s d | _ => d end in
  set_entities (dr_entities d ++ [e]) d.
(** The loop over the children in src/drawing.rs:415-431. *)
Fixpoint give_children (l : list (fields * N)) (d : drawing) : list (fields * N) * drawing :=
  match l with
  | [] => ([], d)
  | (f, h) :: r =>
      let '(h, d) := if h =? auto_replace then next_handle d else (h, d) in
      let '(r, d) := give_children r d in
      ((f, h) :: r, d)
  end.
(** src/drawing.rs:410-436 [add_entity]. *)
Definition number_entity (e : entity) (d : drawing) : entity * drawing :=
  let '(h, d) := next_handle d in
  let '(s, d) := match en_specific e with
    | EInsert _ l => let '(q, d) := next_handle d in let '(l, d) := give_children l d in (EInsert q l, d)
    | EPolyline _ l => let '(q, d) := next_handle d in let '(l, d) := give_children l d in (EPolyline q l, d)
    | s => (s, d)
    end in
  (mk_entity h (en_layer e) (en_line_type e) s (en_fields e), d).
Definition add_entity (e : entity) (d : drawing) : drawing :=
  let '(e, d) := number_entity e d in push_entity e d.

(** src/drawing.rs:834-838 [ensure_block_entity_handles_are_set]: also for blocks that have just been read. *)
Fixpoint number_members (l : list entity) (d : drawing) : list entity * drawing :=
  match l with
  | [] => ([], d)
  | e :: r =>
      let '(h, d) := next_handle d in
      let '(r, d) := number_members r d in
      (mk_entity h (en_layer e) (en_line_type e) (en_specific e) (en_fields e) :: r, d)
  end.
(** src/drawing.rs:666-673, 795-800, 823-838 [add_block_no_handle_set]; the block record is always added. *)
Definition push_block (b : block) (d : drawing) : drawing :=
  let d := ensure_all TLayer (bl_layer b :: map en_layer (bl_entities b)) d in
  let d := ensure_all TLineType (map en_line_type (bl_entities b)) d in
  let d := add_plain TBlockRecord (default_item TBlockRecord (bl_name b)) d in
  let '(es, d) := number_members (bl_entities b) d in
  set_blocks (dr_blocks d ++ [mk_block (bl_handle b) (bl_layer b) (bl_name b) es (bl_fields b)]) d.
(** src/drawing.rs:393-396 [add_block]. *)
Definition add_block (b : block) (d : drawing) : drawing :=
  let '(h, d) := next_handle d in push_block (mk_block h (bl_layer b) (bl_name b) (bl_entities b) (bl_fields b)) d.

(** * Removing *)

(** src/drawing.rs:659-665 [remove_item], [Vec::remove]. *)
Fixpoint vec_remove {A} (l : list A) (i : nat) : list A :=
  match l, i with
  | [], _ => []
  | _ :: r, O => r
  | x :: r, S j => x :: vec_remove r j
  end.
Definition remove_item {A} (l : list A) (i : nat) : option A * list A :=
  if Nat.ltb i (length l) then (nth_error l i, vec_remove l i) else (None, l).
Definition remove_table (k : tkind) (i : nat) (d : drawing) : option titem * drawing :=
  let '(x, l) := remove_item (tget k d) i in (x, tset k l d).
Definition remove_block (i : nat) (d : drawing) : option block * drawing :=
  let '(x, l) := remove_item (dr_blocks d) i in (x, set_blocks l d).
Definition remove_entity (i : nat) (d : drawing) : option entity * drawing :=
  let '(x, l) := remove_item (dr_entities d) i in (x, set_entities l d).
Definition remove_object (i : nat) (d : drawing) : option object * drawing :=
  let '(x, l) := remove_item (dr_objects d) i in (x, set_objects l d).

(** * Clearing *)

(** src/drawing.rs:463-480 [clear]: of the header, only the next handle is reset. *)
Definition clear (d : drawing) : drawing :=
  mk_drawing (set_next 1 (dr_header d)) [] [] [] [] [] [] [] [] [] [] [] [] [] None.

(** * Normalizing *)

(** src/helper_functions.rs:205-227. [f64_le0 d]: the double is ordered and not greater than zero. *)
Definition f64_is_nan (d : N) : bool := (2047 * 2 ^ 52 <? d mod 2 ^ 63).
Definition f64_le0 (d : N) : bool := negb (f64_is_nan d) && ((2 ^ 63 <=? d) || (d =? 0)).
Definition default_if_empty (s dflt : rstring) : rstring := match s with [] => dflt | _ => s end.
Definition ensure_positive (d dflt : N) : N := if f64_le0 d then dflt else d.
Definition positive_field (dflt : N) (v : fval) : fval := match v with FF64 d => FF64 (ensure_positive d dflt) | _ => v end.
Definition positive_int_field (dflt : Z) (v : fval) : fval := match v with FInt z => FInt (if (z <=? 0)%Z then dflt else z) | _ => v end.
Definition f64_1 : N := 4607182418800017408.
Definition f64_50 : N := 4632233691727265792.

(** src/table.rs:10-16, 24-27, 35-39, 47-59: what [normalize] does to each field. *)
Definition field_rules (k : tkind) : list (string * (fval -> fval)) :=
  match k with
  | TLayer =>
      [("line_type_name", fun v => match v with FStr s => FStr (default_if_empty s (str "CONTINUOUS")) | _ => v end);
       ("color", fun v => match v with FInt z => FInt (if (z =? 0)%Z || (z =? 256)%Z then 7%Z else z) | _ => v end)]
  | TStyle => [("text_height", positive_field 0); ("width_factor", positive_field f64_1)]
  | TView => [("view_height", positive_field f64_1); ("view_width", positive_field f64_1); ("lens_length", positive_field f64_1)]
  | TViewPort =>
      [("snap_spacing.x", positive_field f64_1); ("snap_spacing.y", positive_field f64_1); ("snap_spacing.z", positive_field f64_1);
       ("grid_spacing.x", positive_field f64_1); ("grid_spacing.y", positive_field f64_1); ("grid_spacing.z", positive_field f64_1);
       ("view_height", positive_field f64_1); ("view_port_aspect_ratio", positive_field f64_1); ("lens_length", positive_field f64_50);
       ("ucs_icon", positive_int_field 3); ("circle_sides", positive_int_field 1000)]
  | _ => []
  end%string.
Definition norm_fields (rules : list (string * (fval -> fval))) (l : fields) : fields :=
  map (fun '(n, v) => (n, match assoc_slot n rules with Some f => f v | None => v end)) l.
Definition norm_item (k : tkind) (x : titem) : titem := mk_ti (ti_handle x) (ti_name x) (norm_fields (field_rules k) (ti_fields x)).
Definition norm_table (k : tkind) (d : drawing) : drawing := tset k (map (norm_item k) (tget k d)) d.
(** src/header.rs:12-20 [Header::normalize]. 0.2 and 0.05 as bits. *)
Definition f64_0_2 : N := 4596373779694328218.
Definition f64_0_05 : N := 4587366580439587226.
Definition norm_header (h : header) : header :=
  mk_header (hd_next h) (ensure_positive (hd_text_height h) f64_0_2) (ensure_positive (hd_trace_width h) f64_0_05)
    (default_if_empty (hd_text_style h) (str "STANDARD")) (default_if_empty (hd_current_layer h) (str "0"))
    (default_if_empty (hd_line_type h) (str "BYLAYER")) (default_if_empty (hd_dim_style h) (str "STANDARD"))
    (default_if_empty (hd_file_name h) (str ".")) (hd_ucs h) (hd_fields h).
(** src/block.rs:95-97, src/entity.rs:387-389, 404-407. [Object::normalize] (src/object.rs:75-77, 92-95) does nothing. *)
Definition norm_block (b : block) : block :=
  mk_block (bl_handle b) (default_if_empty (bl_layer b) (str "0")) (bl_name b) (bl_entities b) (bl_fields b).
Definition norm_entity (e : entity) : entity :=
  mk_entity (en_handle e) (default_if_empty (en_layer e) (str "0")) (en_line_type e) (en_specific e) (en_fields e).

(** [str::cmp]: by bytes of UTF-8, which is the order of the code points. *)
Fixpoint name_leb (a b : rstring) : bool :=
  match a, b with
  | [], _ => true
  | _ :: _, [] => false
  | x :: a', y :: b' => if x <? y then true else if y <? x then false else name_leb a' b'
  end.
(** [slice::sort_by] is stable; here insertion sort. *)
Fixpoint insert_sorted (x : titem) (l : list titem) : list titem :=
  match l with
  | [] => [x]
  | y :: r => if name_leb (ti_name x) (ti_name y) then x :: l else y :: insert_sorted x r
  end.
Fixpoint sort_items (l : list titem) : list titem :=
  match l with [] => [] | x :: r => insert_sorted x (sort_items r) end.
Definition sort_table (k : tkind) (d : drawing) : drawing := tset k (sort_items (tget k d)) d.
Definition all_tables : list tkind := [TAppId; TBlockRecord; TDimStyle; TLayer; TLineType; TStyle; TUcs; TView; TViewPort].

(** src/drawing.rs:1219-1235 [ensure_ucs] goes over a [HashSet] of the names; [order] is the order in which it happens to do so. *)
Definition ensure_ucs (order : list rstring) (d : drawing) : drawing :=
  ensure_all TUcs (filter (fun n => match n with [] => false | _ => true end) order) d.
(** src/drawing.rs:482-510 [normalize] and the functions it calls (1149-1218). *)
Definition normalize (order : list rstring) (d : drawing) : drawing :=
  let d := set_header (norm_header (dr_header d)) d in
  let d := set_blocks (map norm_block (dr_blocks d)) d in
  let d := set_entities (map norm_entity (dr_entities d)) d in
  let d := ensure_all TAppId [str "ACAD"; str "ACADANNOTATIVE"; str "ACAD_NAV_VCDISPLAY"; str "ACAD_MLEADERVER"] d in
  let d := ensure_all TBlockRecord [str "*MODEL_SPACE"; str "*PAPER_SPACE"] d in
  let d := norm_table TLayer (ensure TLayer (hd_current_layer (dr_header d)) d) in
  let d := norm_table TStyle d in
  let d := norm_table TViewPort d in
  let d := norm_table TView d in
  let d := ensure_all TDimStyle [str "STANDARD"; str "ANNOTATIVE"] d in
  let d := ensure_all TLayer [str "0"] d in
  let d := ensure_all TLineType [str "BYLAYER"; str "BYBLOCK"; str "CONTINUOUS"] d in
  let d := ensure_all TStyle [str "STANDARD"; str "ANNOTATIVE"] d in
  let d := ensure_all TViewPort [str "*ACTIVE"] d in
  let d := ensure_ucs order d in
  fold_left (fun d k => sort_table k d) all_tables d.

(** * A new drawing *)

(** [Header::default()] (build/header_generator.rs) for the fields used here: spec/HeaderVariablesSpec.xml TEXTSIZE, TRACEWID, TEXTSTYLE,
    CLAYER, CELTYPE, DIMSTYLE, MENU, UCSBASE, UCSNAME, UCSORTHOREF, PUCSBASE, PUCSNAME, PUCSORTHOREF, HANDSEED. *)
Definition default_header : header :=
  mk_header 1 f64_0_2 f64_0_05 (str "STANDARD") (str "0") (str "BYLAYER") (str "STANDARD") (str ".") (repeat [] 6) [].
Definition empty_drawing : drawing := mk_drawing default_header [] [] [] [] [] [] [] [] [] [] [] [] [] None.
(** src/drawing.rs:81-101 [Drawing::new]; all six names are empty, so there is one order. *)
Definition new_drawing : drawing := normalize [[]] empty_drawing.

(** * Looking up *)

(** src/drawing_item.rs:6-38 [DrawingItem]. *)
Inductive item : Type :=
| ITable (k : tkind) (x : titem)
| IBlock (b : block)
| IEntity (e : entity)
| IObject (o : object).
Definition item_handle (x : item) : N :=
  match x with ITable _ x => ti_handle x | IBlock b => bl_handle b | IEntity e => en_handle e | IObject o => ob_handle o end.
Definition items_of (k : tkind) (d : drawing) : list item := map (ITable k) (tget k d).
(** The collections in the order in which src/drawing.rs:512-575 [item_by_handle] goes through them. *)
Definition all_items (d : drawing) : list item :=
  items_of TAppId d ++ map IBlock (dr_blocks d) ++ items_of TBlockRecord d ++ items_of TDimStyle d ++ map IEntity (dr_entities d) ++
  items_of TLayer d ++ items_of TLineType d ++ map IObject (dr_objects d) ++ items_of TStyle d ++ items_of TUcs d ++ items_of TView d ++
  items_of TViewPort d.
(** src/drawing.rs:512-575. *)
Definition item_by_handle (d : drawing) (h : N) : option item := find (fun x => item_handle x =? h) (all_items d).

(** src/drawing.rs:641-649 [assign_and_get_handle], used by [set_owner]. *)
Definition set_item_handle (h : N) (x : item) : item :=
  match x with
  | ITable k x => ITable k (give h x)
  | IBlock b => IBlock (mk_block h (bl_layer b) (bl_name b) (bl_entities b) (bl_fields b))
  | IEntity e => IEntity (mk_entity h (en_layer e) (en_line_type e) (en_specific e) (en_fields e))
  | IObject o => IObject (mk_object h (ob_specific o) (ob_fields o))
  end.
Definition assign_and_get_handle (x : item) (d : drawing) : N * item * drawing :=
  let '(x, d) := if item_handle x =? 0 then let '(h, d) := next_handle d in (set_item_handle h x, d) else (x, d) in
  (item_handle x, x, d).

(** * Typed pointers (build/xml_helpers.rs:73-262) *)

(** What a <Pointer> element says about the item pointed to: Type and SubType. *)
Inductive ikind : Type := KTable (k : tkind) | KBlock | KEntity | KObject.
Definition item_kind (x : item) : ikind :=
  match x with ITable k _ => KTable k | IBlock _ => KBlock | IEntity _ => KEntity | IObject _ => KObject end.
Definition tkind_eqb (a b : tkind) : bool :=
  match a, b with
  | TAppId, TAppId | TBlockRecord, TBlockRecord | TDimStyle, TDimStyle | TLayer, TLayer | TLineType, TLineType | TStyle, TStyle
  | TUcs, TUcs | TView, TView | TViewPort, TViewPort => true
  | _, _ => false
  end.
Definition ikind_eqb (a b : ikind) : bool :=
  match a, b with
  | KTable a, KTable b => tkind_eqb a b
  | KBlock, KBlock | KEntity, KEntity | KObject, KObject => true
  | _, _ => false
  end.
Record pointer : Type := mk_ptr { pt_type : option ikind; pt_sub : option string }.
Definition sub_matches (sub : option string) (x : item) : bool :=
  match sub, x with
  | None, _ => true
  | Some t, IEntity e => String.eqb (entity_type (en_specific e)) t
  | Some t, IObject o => String.eqb (object_type (ob_specific o)) t
  | Some _, _ => false
  end.
Definition type_matches (p : pointer) (x : item) : bool :=
  match pt_type p with None => true | Some k => ikind_eqb (item_kind x) k end.
(** The get method (78-175): single and multiple. *)
Definition resolve (p : pointer) (d : drawing) (h : N) : option item :=
  match item_by_handle d h with
  | Some x => if type_matches p x && sub_matches (pt_sub p) x then Some x else None
  | None => None
  end.
Definition resolve_all (p : pointer) (d : drawing) (hs : list N) : list item :=
  flat_map (fun h => match resolve p d h with Some x => [x] | None => [] end) hs.
(** The set and add methods (177-262). The Rust type of the argument already fixes its kind ([type_matches]); a wrong variant is an error. *)
Definition set_pointer (p : pointer) (x : item) : res N :=
  if sub_matches (pt_sub p) x then Ok (item_handle x) else Err WrongItemType.
Definition add_pointer (p : pointer) (x : item) (hs : list N) : res (list N) :=
  let? h := set_pointer p x in Ok (hs ++ [h]).
