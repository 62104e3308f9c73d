(** Further types of the DXF reference: sections, OLE frames, proxies, placeholders. *)
From Verif Require Import Base F64Model CodePairModel CodePairSpec VersionModel SpecModel SpecSpec DocSpec ListSpec.
Open Scope string_scope.
Open Scope list_scope.
Open Scope Z_scope.

(** "ENTITIES Section": the type, the kind, the version the type came with, its codes. *)
Definition rest_entities : list (string * string * version * list row) :=
  [("SECTION", "Section", R2007, common_rows ++ [whole 90 "state" 0; whole 91 "flags" 0; text 1 "name" ""] ++ xyz 10 "vertical_direction" 0 0 one ++
      [real 40 "top_height" 0; real 41 "bottom_height" 0; whole 70 "indicator_transparency" 0; text 411 "indicator_color_name" ""; mk_row 360 "__geometry_settings_handle" Hex (FHandle 0) R2000]);
   ("OLEFRAME", "OleFrame", R2000, common_rows ++ [whole 70 "version_number" 0; whole 90 "binary_data_length" 0]);
   ("ACAD_PROXY_ENTITY", "ProxyEntity", R2000, filter (fun r => negb (rw_code r =? 330)) common_rows ++
      [whole 90 "proxy_entity_class_id" 498; whole 91 "application_entity_class_id" 500; whole 93 "entity_data_size" 0; yes 70 "original_data_format_is_dxf" true])].
(** "OBJECTS Section". *)
Definition rest_objects : list (string * string * version * list row) :=
  [("ACAD_PROXY_OBJECT", "AcadProxyObject", R2000, [mk_row 5 "common.handle" Hex (FHandle 0) R2000; whole 90 "proxy_object_class_id" 499; whole 91 "application_object_class_id" 500; whole 93 "size_in_bits" 0; yes 70 "is_original_object_format" false]);
   ("ACDBPLACEHOLDER", "PlaceHolder", R2000, [mk_row 5 "common.handle" Hex (FHandle 0) R2000; mk_row 330 "common.__owner_handle" Hex (FHandle 0) R2000])].
(** The texts that R2000 alone knows: remote texts and texts along an arc. *)
Definition r2000_entities : list (string * string * list row) :=
  [("RTEXT", "RText", common_rows ++ place 10 "insertion_point" ++ up "extrusion_direction" ++ [real 50 "rotation_angle" 0; real 40 "text_height" 0; text 7 "text_style" "STANDARD"; whole 70 "type_flags" 0; text 1 "contents" ""]);
   ("ARCALIGNEDTEXT", "ArcAlignedText", common_rows ++ [text 1 "text" ""; text 2 "font_name" ""; text 3 "bigfont_name" ""; text 7 "text_style_name" ""] ++ place 10 "center_point" ++ up "extrusion_direction" ++
      [real 40 "arc_radius" 0; real 41 "width_factor" one; real 42 "text_height" 0; real 43 "character_spacing" 0; real 44 "offset_from_arc" 0; real 45 "right_offset" 0; real 46 "left_offset" 0;
       real 50 "start_angle" 0; real 51 "end_angle" 0; yes 70 "is_character_order_reversed" false; whole 71 "direction_flag" 0; whole 72 "alignment_flag" 0; whole 73 "side_flag" 0;
       yes 74 "is_bold" false; yes 75 "is_italic" false; yes 76 "is_underline" false; whole 77 "character_set_value" 0; whole 78 "pitch_and_family_value" 0; pick 79 "font_type" [0; 1] 0;
       whole 90 "color_index" 0; whole 280 "wizard_flag" 0])].
(** The identifiers of the objects of a proxy entity, by the kind of the reference. *)
Definition proxy_lists : list lrow := [mk_lrow "object_id_1" (Each 330 Text); mk_lrow "object_id_2" (Each 340 Text); mk_lrow "object_id_3" (Each 350 Text); mk_lrow "object_id_4" (Each 360 Text)].
(** The identifiers a proxy object refers to: one list, of the four kinds one after the other. *)
Definition identifier_codes : list Z := [330; 340; 350; 360].
Definition identifiers (ps : list pair) : list fval := flat_map (fun c => map (fun v => match v with VStr s => FStr s | _ => FInt 0 end) (under c ps)) identifier_codes.
