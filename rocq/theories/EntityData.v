(** Generated by tools/gen_spec.py from spec/EntitiesSpec.xml; do not edit. The entities; the readers and writers of src/entity.rs that are not generated are transcribed by hand in the script. *)
From Verif Require Import Base VersionModel SpecModel SpecSpec EnumData.
Open Scope Z_scope.
Local Open Scope string_scope.

(** The fields common to all entities. spec/EntitiesSpec.xml:7-50; reader build/entity_generator.rs:158-199, writer build/entity_generator.rs:201-209 and 601-881. *)
Definition common_defaults : list (string * fval) :=
    [("common.handle", (FHandle 0));
     ("common.extension_data_groups", (FList []));
     ("common.x_data", (FList []));
     ("common.__owner_handle", (FHandle 0));
     ("common.is_in_paper_space", (FBool false));
     ("common.layer", (FStr (str "0")));
     ("common.line_type_name", (FStr (str "BYLAYER")));
     ("common.elevation", (FF64 0));
     ("common.__material_handle", (FHandle 0));
     ("common.color", (FInt 256));
     ("common.lineweight_enum_value", (FInt 0));
     ("common.line_type_scale", (FF64 4607182418800017408));
     ("common.is_visible", (FBool true));
     ("common.image_byte_count", (FInt 0));
     ("common.preview_image_data", (FList []));
     ("common.color_24_bit", (FInt 0));
     ("common.color_name", (FStr []));
     ("common.transparency", (FInt 0));
     ("common.__plot_style_handle", (FHandle 0));
     ("common.shadow_mode", (FInt 0))].
Definition common_arms : list arm :=
    [mk_arm 5 [] [ASet "common.handle" RHandle];
     mk_arm 102 [] [AExt "common.extension_data_groups"];
     mk_arm 330 [] [ASet "common.__owner_handle" RHandle];
     mk_arm 67 [] [ASet "common.is_in_paper_space" RAsBool];
     mk_arm 8 [] [ASet "common.layer" RStr];
     mk_arm 6 [] [ASet "common.line_type_name" RStr];
     mk_arm 38 [] [ASet "common.elevation" RF64];
     mk_arm 347 [] [ASet "common.__material_handle" RHandle];
     mk_arm 62 [] [ASet "common.color" RI16];
     mk_arm 370 [] [ASet "common.lineweight_enum_value" RI16];
     mk_arm 48 [] [ASet "common.line_type_scale" RF64];
     mk_arm 60 [] [ASet "common.is_visible" RNotBool];
     mk_arm 92 [] [ASet "common.image_byte_count" RI32];
     mk_arm 310 [] [APush "common.preview_image_data" RBin];
     mk_arm 420 [] [ASet "common.color_24_bit" RI32];
     mk_arm 430 [] [ASet "common.color_name" RStr];
     mk_arm 440 [] [ASet "common.transparency" RI32];
     mk_arm 390 [] [ASet "common.__plot_style_handle" RHandle];
     mk_arm 284 [] [ASet "common.shadow_mode" (REnum16 e_ShadowMode 0)];
     mk_arm 1001 [] [AXdata "common.x_data"]].
Definition common_cmds : list cmd :=
    [WPair [CHandles] 5 "common.handle" WHandle;
     WExts [CMin R14] "common.extension_data_groups";
     WPair [CHandles; CNe [("common.__owner_handle", (FHandle 0))]] 330 "common.__owner_handle" WHandle;
     WConst [CMin R13] (mk_pair 100 (VStr (str "AcDbEntity")));
     WPair [CMin R12; CNe [("common.is_in_paper_space", (FBool false))]] 67 "common.is_in_paper_space" WAsI16;
     WPair [] 8 "common.layer" WStr;
     WPair [CNe [("common.line_type_name", (FStr (str "BYLAYER")))]] 6 "common.line_type_name" WStr;
     WPair [CMax R12; CNe [("common.elevation", (FF64 0))]] 38 "common.elevation" WF64;
     WPair [CMin R2007] 347 "common.__material_handle" WHandle;
     WPair [CNe [("common.color", (FInt 256))]] 62 "common.color" WI16;
     WPair [CMin R2000] 370 "common.lineweight_enum_value" WI16;
     WPair [CMin R13; CNe [("common.line_type_scale", (FF64 4607182418800017408))]] 48 "common.line_type_scale" WF64;
     WPair [CMin R13; CNe [("common.is_visible", (FBool true))]] 60 "common.is_visible" WNotI16;
     WPair [CMin R2000; CNe [("common.image_byte_count", (FInt 0))]] 92 "common.image_byte_count" WI32;
     WEach [CMin R2000] 310 "common.preview_image_data" WBin;
     WPair [CMin R2004; CNe [("common.color_24_bit", (FInt 0))]] 420 "common.color_24_bit" WI32;
     WPair [CMin R2004] 430 "common.color_name" WStr;
     WPair [CMin R2004] 440 "common.transparency" WI32;
     WPair [CMin R2007] 390 "common.__plot_style_handle" WHandle;
     WPair [CMin R2007] 284 "common.shadow_mode" WI16].
Definition common_fields : list field :=
  [mk_field "common.handle" KHandle true [5] [mk_win None None true None] [];
   mk_field "common.extension_data_groups" (KList KExt) true [102] [mk_win (Some R14) None false None] [];
   mk_field "common.x_data" (KList KXd) true [1001] [mk_win (Some R2000) None false None] [];
   mk_field "common.__owner_handle" KHandle true [330] [mk_win None None true None] [];
   mk_field "common.is_in_paper_space" KBool true [67] [mk_win (Some R12) None false None] [];
   mk_field "common.layer" KStr true [8] [mk_win None None false None] [];
   mk_field "common.line_type_name" KStr true [6] [mk_win None None false None] [];
   mk_field "common.elevation" KF64 true [38] [mk_win None (Some R12) false None] [];
   mk_field "common.__material_handle" KHandle true [347] [mk_win (Some R2007) None false None] [];
   mk_field "common.color" (KInt (-32768) 32767) true [62] [mk_win None None false None] [];
   mk_field "common.lineweight_enum_value" (KInt (-32768) 32767) true [370] [mk_win (Some R2000) None false None] [];
   mk_field "common.line_type_scale" KF64 true [48] [mk_win (Some R13) None false None] [];
   mk_field "common.is_visible" KBool true [60] [mk_win (Some R13) None false None] [];
   mk_field "common.image_byte_count" (KInt (-2147483648) 2147483647) true [92] [mk_win (Some R2000) None false None] [];
   mk_field "common.preview_image_data" (KList KBin) true [310] [mk_win (Some R2000) None false None] [];
   mk_field "common.color_24_bit" (KInt (-2147483648) 2147483647) true [420] [mk_win (Some R2004) None false None] [];
   mk_field "common.color_name" KStr true [430] [mk_win (Some R2004) None false None] [];
   mk_field "common.transparency" (KInt (-2147483648) 2147483647) true [440] [mk_win (Some R2004) None false None] [];
   mk_field "common.__plot_style_handle" KHandle true [390] [mk_win (Some R2007) None false None] [];
   mk_field "common.shadow_mode" (KEnum e_ShadowMode) true [284] [mk_win (Some R2007) None false None] []].

(** spec/EntitiesSpec.xml:56-67, common fields 7-50; reader build/entity_generator.rs:452-535, writer build/entity_generator.rs:601-881. *)
Definition ent_face3d : itype := mk_itype
  (mk_spec "Face3D" (str "3DFACE") None None
    ([("first_corner.x", (FF64 0));
     ("first_corner.y", (FF64 0));
     ("first_corner.z", (FF64 0));
     ("second_corner.x", (FF64 0));
     ("second_corner.y", (FF64 0));
     ("second_corner.z", (FF64 0));
     ("third_corner.x", (FF64 0));
     ("third_corner.y", (FF64 0));
     ("third_corner.z", (FF64 0));
     ("fourth_corner.x", (FF64 0));
     ("fourth_corner.y", (FF64 0));
     ("fourth_corner.z", (FF64 0));
     ("edge_flags", (FInt 0))] ++ common_defaults)
    ([mk_arm 10 [] [ASet "first_corner.x" RF64];
     mk_arm 20 [] [ASet "first_corner.y" RF64];
     mk_arm 30 [] [ASet "first_corner.z" RF64];
     mk_arm 11 [] [ASet "second_corner.x" RF64];
     mk_arm 21 [] [ASet "second_corner.y" RF64];
     mk_arm 31 [] [ASet "second_corner.z" RF64];
     mk_arm 12 [] [ASet "third_corner.x" RF64];
     mk_arm 22 [] [ASet "third_corner.y" RF64];
     mk_arm 32 [] [ASet "third_corner.z" RF64];
     mk_arm 13 [] [ASet "fourth_corner.x" RF64];
     mk_arm 23 [] [ASet "fourth_corner.y" RF64];
     mk_arm 33 [] [ASet "fourth_corner.z" RF64];
     mk_arm 70 [] [ASet "edge_flags" RI16]] ++ common_arms)
    [] false [] []
    (common_cmds ++ [WConst [CMin R13] (mk_pair 100 (VStr (str "AcDbFace")));
     WPair [] 10 "first_corner.x" WF64;
     WPair [] 20 "first_corner.y" WF64;
     WPair [] 30 "first_corner.z" WF64;
     WPair [] 11 "second_corner.x" WF64;
     WPair [] 21 "second_corner.y" WF64;
     WPair [] 31 "second_corner.z" WF64;
     WPair [] 12 "third_corner.x" WF64;
     WPair [] 22 "third_corner.y" WF64;
     WPair [] 32 "third_corner.z" WF64;
     WPair [] 13 "fourth_corner.x" WF64;
     WPair [] 23 "fourth_corner.y" WF64;
     WPair [] 33 "fourth_corner.z" WF64;
     WPair [CNe [("edge_flags", (FInt 0))]] 70 "edge_flags" WI16;
     WXdatas [] "common.x_data"]))
  ([mk_field "first_corner.x" KF64 true [10] [mk_win None None false None] [];
   mk_field "first_corner.y" KF64 true [20] [mk_win None None false None] [];
   mk_field "first_corner.z" KF64 true [30] [mk_win None None false None] [];
   mk_field "second_corner.x" KF64 true [11] [mk_win None None false None] [];
   mk_field "second_corner.y" KF64 true [21] [mk_win None None false None] [];
   mk_field "second_corner.z" KF64 true [31] [mk_win None None false None] [];
   mk_field "third_corner.x" KF64 true [12] [mk_win None None false None] [];
   mk_field "third_corner.y" KF64 true [22] [mk_win None None false None] [];
   mk_field "third_corner.z" KF64 true [32] [mk_win None None false None] [];
   mk_field "fourth_corner.x" KF64 true [13] [mk_win None None false None] [];
   mk_field "fourth_corner.y" KF64 true [23] [mk_win None None false None] [];
   mk_field "fourth_corner.z" KF64 true [33] [mk_win None None false None] [];
   mk_field "edge_flags" (KInt (-2147483648) 2147483647) true [70] [mk_win None None false None] []] ++ common_fields).

(** spec/EntitiesSpec.xml:73-86, common fields 7-50; reader build/entity_generator.rs:452-535, writer build/entity_generator.rs:601-881. *)
Definition ent_solid3d : itype := mk_itype
  (mk_spec "Solid3D" (str "3DSOLID") (Some R13) None
    ([("format_version_number", (FInt 1));
     ("custom_data", (FList []));
     ("custom_data2", (FList []));
     ("__history_object_handle", (FHandle 0))] ++ common_defaults)
    ([mk_arm 70 [] [ASet "format_version_number" RI16];
     mk_arm 1 [] [APush "custom_data" RStr];
     mk_arm 3 [] [APush "custom_data2" RStr];
     mk_arm 350 [] [ASet "__history_object_handle" RHandle]] ++ common_arms)
    [] false [] []
    (common_cmds ++ [WConst [] (mk_pair 100 (VStr (str "AcDbModelerGeometry")));
     WPair [] 70 "format_version_number" WI16;
     WEach [] 1 "custom_data" WStr;
     WEach [] 3 "custom_data2" WStr;
     WConst [CMin R2007] (mk_pair 100 (VStr (str "AcDb3dSolid")));
     WPair [CMin R2007] 350 "__history_object_handle" WHandle;
     WXdatas [] "common.x_data"]))
  ([mk_field "format_version_number" (KInt (-32768) 32767) true [70] [mk_win None None false None] [];
   mk_field "custom_data" (KList KStr) true [1] [mk_win None None false None] [];
   mk_field "custom_data2" (KList KStr) true [3] [mk_win None None false None] [];
   mk_field "__history_object_handle" KHandle true [350] [mk_win (Some R2007) None false None] []] ++ common_fields).

(** spec/EntitiesSpec.xml:92-106, common fields 7-50; reader build/entity_generator.rs:452-535, writer build/entity_generator.rs:601-881. *)
Definition ent_proxy_entity : itype := mk_itype
  (mk_spec "ProxyEntity" (str "ACAD_PROXY_ENTITY") (Some R14) None
    ([("proxy_entity_class_id", (FInt 498));
     ("application_entity_class_id", (FInt 500));
     ("graphics_data_size", (FInt 0));
     ("graphics_data_string", (FList []));
     ("entity_data_size", (FInt 0));
     ("entity_data_string", (FList []));
     ("object_id_1", (FList []));
     ("object_id_2", (FList []));
     ("object_id_3", (FList []));
     ("object_id_4", (FList []));
     ("terminator", (FInt 0));
     ("__object_drawing_format", (FInt 0));
     ("original_data_format_is_dxf", (FBool true))] ++ common_defaults)
    ([mk_arm 90 [] [ASet "proxy_entity_class_id" RI32];
     mk_arm 91 [] [ASet "application_entity_class_id" RI32];
     mk_arm 92 [] [ASet "graphics_data_size" RI32];
     mk_arm 310 [] [APush "graphics_data_string" RBin];
     mk_arm 93 [] [ASet "entity_data_size" RI32];
     mk_arm 330 [] [APush "object_id_1" RStr];
     mk_arm 340 [] [APush "object_id_2" RStr];
     mk_arm 350 [] [APush "object_id_3" RStr];
     mk_arm 360 [] [APush "object_id_4" RStr];
     mk_arm 94 [] [ASet "terminator" RI32];
     mk_arm 95 [] [ASet "__object_drawing_format" RU32];
     mk_arm 70 [] [ASet "original_data_format_is_dxf" RAsBool]] ++ common_arms)
    [] false [] []
    (common_cmds ++ [WConst [CMin R13] (mk_pair 100 (VStr (str "AcDbProxyEntity")));
     WPair [] 90 "proxy_entity_class_id" WI32;
     WPair [] 91 "application_entity_class_id" WI32;
     WPair [] 92 "graphics_data_size" WI32;
     WEach [] 310 "graphics_data_string" WBin;
     WPair [] 93 "entity_data_size" WI32;
     WEach [] 310 "entity_data_string" WBin;
     WEach [] 330 "object_id_1" WStr;
     WEach [] 340 "object_id_2" WStr;
     WEach [] 350 "object_id_3" WStr;
     WEach [] 360 "object_id_4" WStr;
     WPair [] 94 "terminator" WI32;
     WPair [CMin R2000] 95 "__object_drawing_format" WI32;
     WPair [CMin R2000] 70 "original_data_format_is_dxf" WAsI16;
     WXdatas [] "common.x_data"]))
  ([mk_field "proxy_entity_class_id" (KInt (-2147483648) 2147483647) true [90] [mk_win None None false None] [];
   mk_field "application_entity_class_id" (KInt (-2147483648) 2147483647) true [91] [mk_win None None false None] [];
   mk_field "graphics_data_size" (KInt (-2147483648) 2147483647) true [92] [mk_win None None false None] [];
   mk_field "graphics_data_string" (KList KBin) true [310] [mk_win None None false None] [];
   mk_field "entity_data_size" (KInt (-2147483648) 2147483647) true [93] [mk_win None None false None] [];
   mk_field "entity_data_string" (KList KBin) true [310] [mk_win None None false None] [];
   mk_field "object_id_1" (KList KStr) true [330] [mk_win None None false None] [];
   mk_field "object_id_2" (KList KStr) true [340] [mk_win None None false None] [];
   mk_field "object_id_3" (KList KStr) true [350] [mk_win None None false None] [];
   mk_field "object_id_4" (KList KStr) true [360] [mk_win None None false None] [];
   mk_field "terminator" (KInt (-2147483648) 2147483647) true [94] [mk_win None None false None] [];
   mk_field "__object_drawing_format" KU32 false [95] [mk_win (Some R2000) None false None] [];
   mk_field "original_data_format_is_dxf" KBool true [70] [mk_win (Some R2000) None false None] []] ++ common_fields).

(** spec/EntitiesSpec.xml:112-129, common fields 7-50; reader build/entity_generator.rs:452-535, writer build/entity_generator.rs:601-881. *)
Definition ent_arc : itype := mk_itype
  (mk_spec "Arc" (str "ARC") None None
    ([("thickness", (FF64 0));
     ("center.x", (FF64 0));
     ("center.y", (FF64 0));
     ("center.z", (FF64 0));
     ("radius", (FF64 0));
     ("normal.x", (FF64 0));
     ("normal.y", (FF64 0));
     ("normal.z", (FF64 4607182418800017408));
     ("start_angle", (FF64 0));
     ("end_angle", (FF64 4645040803167600640))] ++ common_defaults)
    ([mk_arm 39 [] [ASet "thickness" RF64];
     mk_arm 10 [] [ASet "center.x" RF64];
     mk_arm 20 [] [ASet "center.y" RF64];
     mk_arm 30 [] [ASet "center.z" RF64];
     mk_arm 40 [] [ASet "radius" RF64];
     mk_arm 210 [] [ASet "normal.x" RF64];
     mk_arm 220 [] [ASet "normal.y" RF64];
     mk_arm 230 [] [ASet "normal.z" RF64];
     mk_arm 50 [] [ASet "start_angle" RF64];
     mk_arm 51 [] [ASet "end_angle" RF64]] ++ common_arms)
    [] false [] []
    (common_cmds ++ [WConst [] (mk_pair 100 (VStr (str "AcDbCircle")));
     WPair [CNe [("thickness", (FF64 0))]] 39 "thickness" WF64;
     WPair [] 10 "center.x" WF64;
     WPair [] 20 "center.y" WF64;
     WPair [] 30 "center.z" WF64;
     WPair [] 40 "radius" WF64;
     WPair [CNe [("normal.x", (FF64 0)); ("normal.y", (FF64 0)); ("normal.z", (FF64 4607182418800017408))]] 210 "normal.x" WF64;
     WPair [CNe [("normal.x", (FF64 0)); ("normal.y", (FF64 0)); ("normal.z", (FF64 4607182418800017408))]] 220 "normal.y" WF64;
     WPair [CNe [("normal.x", (FF64 0)); ("normal.y", (FF64 0)); ("normal.z", (FF64 4607182418800017408))]] 230 "normal.z" WF64;
     WConst [] (mk_pair 100 (VStr (str "AcDbArc")));
     WPair [] 50 "start_angle" WF64;
     WPair [] 51 "end_angle" WF64;
     WXdatas [] "common.x_data"]))
  ([mk_field "thickness" KF64 true [39] [mk_win None None false None] [];
   mk_field "center.x" KF64 true [10] [mk_win None None false None] [];
   mk_field "center.y" KF64 true [20] [mk_win None None false None] [];
   mk_field "center.z" KF64 true [30] [mk_win None None false None] [];
   mk_field "radius" KF64 true [40] [mk_win None None false None] [];
   mk_field "normal.x" KF64 true [210] [mk_win None None false None] [];
   mk_field "normal.y" KF64 true [220] [mk_win None None false None] [];
   mk_field "normal.z" KF64 true [230] [mk_win None None false None] [];
   mk_field "start_angle" KF64 true [50] [mk_win None None false None] [];
   mk_field "end_angle" KF64 true [51] [mk_win None None false None] []] ++ common_fields).

(** spec/EntitiesSpec.xml:135-163, common fields 7-50; reader build/entity_generator.rs:452-535, writer build/entity_generator.rs:601-881. *)
Definition ent_arc_aligned_text : itype := mk_itype
  (mk_spec "ArcAlignedText" (str "ARCALIGNEDTEXT") (Some R2000) (Some R2000)
    ([("text", (FStr []));
     ("font_name", (FStr []));
     ("bigfont_name", (FStr []));
     ("text_style_name", (FStr []));
     ("center_point.x", (FF64 0));
     ("center_point.y", (FF64 0));
     ("center_point.z", (FF64 0));
     ("arc_radius", (FF64 0));
     ("width_factor", (FF64 4607182418800017408));
     ("text_height", (FF64 0));
     ("character_spacing", (FF64 0));
     ("offset_from_arc", (FF64 0));
     ("right_offset", (FF64 0));
     ("left_offset", (FF64 0));
     ("start_angle", (FF64 0));
     ("end_angle", (FF64 0));
     ("is_character_order_reversed", (FBool false));
     ("direction_flag", (FInt 0));
     ("alignment_flag", (FInt 0));
     ("side_flag", (FInt 0));
     ("is_bold", (FBool false));
     ("is_italic", (FBool false));
     ("is_underline", (FBool false));
     ("character_set_value", (FInt 0));
     ("pitch_and_family_value", (FInt 0));
     ("font_type", (FInt 0));
     ("color_index", (FInt 0));
     ("extrusion_direction.x", (FF64 0));
     ("extrusion_direction.y", (FF64 0));
     ("extrusion_direction.z", (FF64 4607182418800017408));
     ("wizard_flag", (FInt 0))] ++ common_defaults)
    ([mk_arm 1 [] [ASet "text" RStr];
     mk_arm 2 [] [ASet "font_name" RStr];
     mk_arm 3 [] [ASet "bigfont_name" RStr];
     mk_arm 7 [] [ASet "text_style_name" RStr];
     mk_arm 10 [] [ASet "center_point.x" RF64];
     mk_arm 20 [] [ASet "center_point.y" RF64];
     mk_arm 30 [] [ASet "center_point.z" RF64];
     mk_arm 40 [] [ASet "arc_radius" RF64];
     mk_arm 41 [] [ASet "width_factor" RF64];
     mk_arm 42 [] [ASet "text_height" RF64];
     mk_arm 43 [] [ASet "character_spacing" RF64];
     mk_arm 44 [] [ASet "offset_from_arc" RF64];
     mk_arm 45 [] [ASet "right_offset" RF64];
     mk_arm 46 [] [ASet "left_offset" RF64];
     mk_arm 50 [] [ASet "start_angle" RF64];
     mk_arm 51 [] [ASet "end_angle" RF64];
     mk_arm 70 [] [ASet "is_character_order_reversed" RAsBool];
     mk_arm 71 [] [ASet "direction_flag" RI16];
     mk_arm 72 [] [ASet "alignment_flag" RI16];
     mk_arm 73 [] [ASet "side_flag" RI16];
     mk_arm 74 [] [ASet "is_bold" RAsBool];
     mk_arm 75 [] [ASet "is_italic" RAsBool];
     mk_arm 76 [] [ASet "is_underline" RAsBool];
     mk_arm 77 [] [ASet "character_set_value" RI16];
     mk_arm 78 [] [ASet "pitch_and_family_value" RI16];
     mk_arm 79 [] [ASet "font_type" (REnum16 e_FontType 0)];
     mk_arm 90 [] [ASet "color_index" RI32];
     mk_arm 210 [] [ASet "extrusion_direction.x" RF64];
     mk_arm 220 [] [ASet "extrusion_direction.y" RF64];
     mk_arm 230 [] [ASet "extrusion_direction.z" RF64];
     mk_arm 280 [] [ASet "wizard_flag" RI16]] ++ common_arms)
    [] false [] []
    (common_cmds ++ [WConst [CMin R13] (mk_pair 100 (VStr (str "AcDbArcAlignedText")));
     WPair [] 1 "text" WStr;
     WPair [] 2 "font_name" WStr;
     WPair [] 3 "bigfont_name" WStr;
     WPair [] 7 "text_style_name" WStr;
     WPair [] 10 "center_point.x" WF64;
     WPair [] 20 "center_point.y" WF64;
     WPair [] 30 "center_point.z" WF64;
     WPair [] 40 "arc_radius" WF64;
     WPair [] 41 "width_factor" WF64;
     WPair [] 42 "text_height" WF64;
     WPair [] 43 "character_spacing" WF64;
     WPair [] 44 "offset_from_arc" WF64;
     WPair [] 45 "right_offset" WF64;
     WPair [] 46 "left_offset" WF64;
     WPair [] 50 "start_angle" WF64;
     WPair [] 51 "end_angle" WF64;
     WPair [] 70 "is_character_order_reversed" WAsI16;
     WPair [] 71 "direction_flag" WI16;
     WPair [] 72 "alignment_flag" WI16;
     WPair [] 73 "side_flag" WI16;
     WPair [] 74 "is_bold" WAsI16;
     WPair [] 75 "is_italic" WAsI16;
     WPair [] 76 "is_underline" WAsI16;
     WPair [] 77 "character_set_value" WI16;
     WPair [] 78 "pitch_and_family_value" WI16;
     WPair [] 79 "font_type" WI16;
     WPair [] 90 "color_index" WI32;
     WPair [CNe [("extrusion_direction.x", (FF64 0)); ("extrusion_direction.y", (FF64 0)); ("extrusion_direction.z", (FF64 4607182418800017408))]] 210 "extrusion_direction.x" WF64;
     WPair [CNe [("extrusion_direction.x", (FF64 0)); ("extrusion_direction.y", (FF64 0)); ("extrusion_direction.z", (FF64 4607182418800017408))]] 220 "extrusion_direction.y" WF64;
     WPair [CNe [("extrusion_direction.x", (FF64 0)); ("extrusion_direction.y", (FF64 0)); ("extrusion_direction.z", (FF64 4607182418800017408))]] 230 "extrusion_direction.z" WF64;
     WPair [] 280 "wizard_flag" WI16;
     WXdatas [] "common.x_data"]))
  ([mk_field "text" KStr true [1] [mk_win None None false None] [];
   mk_field "font_name" KStr true [2] [mk_win None None false None] [];
   mk_field "bigfont_name" KStr true [3] [mk_win None None false None] [];
   mk_field "text_style_name" KStr true [7] [mk_win None None false None] [];
   mk_field "center_point.x" KF64 true [10] [mk_win None None false None] [];
   mk_field "center_point.y" KF64 true [20] [mk_win None None false None] [];
   mk_field "center_point.z" KF64 true [30] [mk_win None None false None] [];
   mk_field "arc_radius" KF64 true [40] [mk_win None None false None] [];
   mk_field "width_factor" KF64 true [41] [mk_win None None false None] [];
   mk_field "text_height" KF64 true [42] [mk_win None None false None] [];
   mk_field "character_spacing" KF64 true [43] [mk_win None None false None] [];
   mk_field "offset_from_arc" KF64 true [44] [mk_win None None false None] [];
   mk_field "right_offset" KF64 true [45] [mk_win None None false None] [];
   mk_field "left_offset" KF64 true [46] [mk_win None None false None] [];
   mk_field "start_angle" KF64 true [50] [mk_win None None false None] [];
   mk_field "end_angle" KF64 true [51] [mk_win None None false None] [];
   mk_field "is_character_order_reversed" KBool true [70] [mk_win None None false None] [];
   mk_field "direction_flag" (KInt (-32768) 32767) true [71] [mk_win None None false None] [];
   mk_field "alignment_flag" (KInt (-32768) 32767) true [72] [mk_win None None false None] [];
   mk_field "side_flag" (KInt (-32768) 32767) true [73] [mk_win None None false None] [];
   mk_field "is_bold" KBool true [74] [mk_win None None false None] [];
   mk_field "is_italic" KBool true [75] [mk_win None None false None] [];
   mk_field "is_underline" KBool true [76] [mk_win None None false None] [];
   mk_field "character_set_value" (KInt (-32768) 32767) true [77] [mk_win None None false None] [];
   mk_field "pitch_and_family_value" (KInt (-32768) 32767) true [78] [mk_win None None false None] [];
   mk_field "font_type" (KEnum e_FontType) true [79] [mk_win None None false None] [];
   mk_field "color_index" (KInt (-2147483648) 2147483647) true [90] [mk_win None None false None] [];
   mk_field "extrusion_direction.x" KF64 true [210] [mk_win None None false None] [];
   mk_field "extrusion_direction.y" KF64 true [220] [mk_win None None false None] [];
   mk_field "extrusion_direction.z" KF64 true [230] [mk_win None None false None] [];
   mk_field "wizard_flag" (KInt (-32768) 32767) true [280] [mk_win None None false None] []] ++ common_fields).

(** spec/EntitiesSpec.xml:169-239, common fields 7-50; reader src/entity.rs:953-1103, writer build/entity_generator.rs:601-881. The multi-line text is an entity of its own; it is written before the x-data (src/entity.rs:1544-1555), so the item ends before them. *)
Definition ent_attribute_definition : itype := mk_itype
  (mk_spec "AttributeDefinition" (str "ATTDEF") None None
    ([("thickness", (FF64 0));
     ("location.x", (FF64 0));
     ("location.y", (FF64 0));
     ("location.z", (FF64 0));
     ("text_height", (FF64 4607182418800017408));
     ("value", (FStr []));
     ("rotation", (FF64 0));
     ("relative_x_scale_factor", (FF64 4607182418800017408));
     ("oblique_angle", (FF64 0));
     ("text_style_name", (FStr (str "STANDARD")));
     ("text_generation_flags", (FInt 0));
     ("horizontal_text_justification", (FInt 0));
     ("second_alignment_point.x", (FF64 0));
     ("second_alignment_point.y", (FF64 0));
     ("second_alignment_point.z", (FF64 0));
     ("normal.x", (FF64 0));
     ("normal.y", (FF64 0));
     ("normal.z", (FF64 4607182418800017408));
     ("version", (FInt 0));
     ("prompt", (FStr []));
     ("text_tag", (FStr []));
     ("flags", (FInt 0));
     ("field_length", (FInt 0));
     ("vertical_text_justification", (FInt 0));
     ("is_locked_in_block", (FBool false));
     ("keep_duplicate_records", (FBool false));
     ("m_text_flag", (FInt 2));
     ("is_really_locked", (FBool false));
     ("__secondary_attribute_count", (FInt 0));
     ("__secondary_attributes_handle", (FList []));
     ("alignment_point.x", (FF64 0));
     ("alignment_point.y", (FF64 0));
     ("alignment_point.z", (FF64 0));
     ("annotation_scale", (FF64 4607182418800017408));
     ("x_record_tag", (FStr []))] ++ common_defaults)
    ([mk_arm 100 [] [AMark 0 [(str "AcDbXrecord", 1)] (Some 0)];
     mk_arm 1 [] [ASet "value" RStr];
     mk_arm 2 [GEq 0 1] [ASet "x_record_tag" RStr];
     mk_arm 2 [] [ASet "text_tag" RStr];
     mk_arm 3 [] [ASet "prompt" RStr];
     mk_arm 7 [] [ASet "text_style_name" RStr];
     mk_arm 10 [GEq 0 1] [ASet "alignment_point.x" RF64];
     mk_arm 10 [] [ASet "location.x" RF64];
     mk_arm 20 [GEq 0 1] [ASet "alignment_point.y" RF64];
     mk_arm 20 [] [ASet "location.y" RF64];
     mk_arm 30 [GEq 0 1] [ASet "alignment_point.z" RF64];
     mk_arm 30 [] [ASet "location.z" RF64];
     mk_arm 11 [] [ASet "second_alignment_point.x" RF64];
     mk_arm 21 [] [ASet "second_alignment_point.y" RF64];
     mk_arm 31 [] [ASet "second_alignment_point.z" RF64];
     mk_arm 39 [] [ASet "thickness" RF64];
     mk_arm 40 [GEq 0 1] [ASet "annotation_scale" RF64];
     mk_arm 40 [] [ASet "text_height" RF64];
     mk_arm 41 [] [ASet "relative_x_scale_factor" RF64];
     mk_arm 50 [] [ASet "rotation" RF64];
     mk_arm 51 [] [ASet "oblique_angle" RF64];
     mk_arm 70 [GEq 0 1; GEq 2 0] [ASet "m_text_flag" (REnum16 e_MTextFlag 2); AIncr 2];
     mk_arm 70 [GEq 0 1; GEq 2 1] [ASet "is_really_locked" RAsBool; AIncr 2];
     mk_arm 70 [GEq 0 1; GEq 2 2] [ASet "__secondary_attribute_count" RI16; AIncr 2];
     mk_arm 70 [GEq 0 1] [AFail];
     mk_arm 70 [] [ASet "flags" RI16];
     mk_arm 71 [] [ASet "text_generation_flags" RI16];
     mk_arm 72 [] [ASet "horizontal_text_justification" (REnum16 e_HorizontalTextJustification 0)];
     mk_arm 73 [] [ASet "field_length" RI16];
     mk_arm 74 [] [ASet "vertical_text_justification" (REnum16 e_VerticalTextJustification 0)];
     mk_arm 210 [] [ASet "normal.x" RF64];
     mk_arm 220 [] [ASet "normal.y" RF64];
     mk_arm 230 [] [ASet "normal.z" RF64];
     mk_arm 280 [GEq 0 1] [ASet "keep_duplicate_records" RAsBool];
     mk_arm 280 [GEq 1 0] [ASet "version" (REnum16 e_Version 0); AReg 1 1];
     mk_arm 280 [] [ASet "is_locked_in_block" RAsBool];
     mk_arm 340 [] [APush "__secondary_attributes_handle" RHandle]] ++ common_arms)
    [0; 0; 0] true [] []
    (common_cmds ++ [WConst [CMin R13] (mk_pair 100 (VStr (str "AcDbText")));
     WPair [CNe [("thickness", (FF64 0))]] 39 "thickness" WF64;
     WPair [] 10 "location.x" WF64;
     WPair [] 20 "location.y" WF64;
     WPair [] 30 "location.z" WF64;
     WPair [] 40 "text_height" WF64;
     WPair [] 1 "value" WStr;
     WConst [CMin R13] (mk_pair 100 (VStr (str "AcDbAttributeDefinition")));
     WPair [CNe [("rotation", (FF64 0))]] 50 "rotation" WF64;
     WPair [CNe [("relative_x_scale_factor", (FF64 4607182418800017408))]] 41 "relative_x_scale_factor" WF64;
     WPair [CNe [("oblique_angle", (FF64 0))]] 51 "oblique_angle" WF64;
     WPair [CNe [("text_style_name", (FStr (str "STANDARD")))]] 7 "text_style_name" WStr;
     WPair [CNe [("text_generation_flags", (FInt 0))]] 71 "text_generation_flags" WI16;
     WPair [CNe [("horizontal_text_justification", (FInt 0))]] 72 "horizontal_text_justification" WI16;
     WPair [] 11 "second_alignment_point.x" WF64;
     WPair [] 21 "second_alignment_point.y" WF64;
     WPair [] 31 "second_alignment_point.z" WF64;
     WPair [CNe [("normal.x", (FF64 0)); ("normal.y", (FF64 0)); ("normal.z", (FF64 4607182418800017408))]] 210 "normal.x" WF64;
     WPair [CNe [("normal.x", (FF64 0)); ("normal.y", (FF64 0)); ("normal.z", (FF64 4607182418800017408))]] 220 "normal.y" WF64;
     WPair [CNe [("normal.x", (FF64 0)); ("normal.y", (FF64 0)); ("normal.z", (FF64 4607182418800017408))]] 230 "normal.z" WF64;
     WConst [CMin R13] (mk_pair 100 (VStr (str "AcDbAttributeDefinition")));
     WPair [CMin R2010] 280 "version" WI16;
     WPair [] 3 "prompt" WStr;
     WPair [] 2 "text_tag" WStr;
     WPair [] 70 "flags" WI16;
     WPair [CNe [("field_length", (FInt 0))]] 73 "field_length" WI16;
     WPair [CMin R12; CNe [("vertical_text_justification", (FInt 0))]] 74 "vertical_text_justification" WI16;
     WPair [CMin R2007] 280 "is_locked_in_block" WAsI16;
     WConst [CMin R2007] (mk_pair 100 (VStr (str "AcDbXrecord")));
     WPair [CMin R2007] 280 "keep_duplicate_records" WAsI16;
     WPair [CMin R2007] 70 "m_text_flag" WI16;
     WPair [CMin R2007] 70 "is_really_locked" WAsI16;
     WLen [CMin R2007] 70 "__secondary_attributes_handle" LI16;
     WEach [CMin R2007] 340 "__secondary_attributes_handle" WHandle;
     WPair [CMin R2007] 10 "alignment_point.x" WF64;
     WPair [CMin R2007] 20 "alignment_point.y" WF64;
     WPair [CMin R2007] 30 "alignment_point.z" WF64;
     WPair [CMin R2007] 40 "annotation_scale" WF64;
     WPair [CMin R2007] 2 "x_record_tag" WStr]))
  ([mk_field "thickness" KF64 true [39] [mk_win None None false None] [];
   mk_field "location.x" KF64 true [10] [mk_win None None false None] [];
   mk_field "location.y" KF64 true [20] [mk_win None None false None] [];
   mk_field "location.z" KF64 true [30] [mk_win None None false None] [];
   mk_field "text_height" KF64 true [40] [mk_win None None false None] [];
   mk_field "value" KStr true [1] [mk_win None None false None] [];
   mk_field "rotation" KF64 true [50] [mk_win None None false None] [];
   mk_field "relative_x_scale_factor" KF64 true [41] [mk_win None None false None] [];
   mk_field "oblique_angle" KF64 true [51] [mk_win None None false None] [];
   mk_field "text_style_name" KStr true [7] [mk_win None None false None] [];
   mk_field "text_generation_flags" (KInt (-2147483648) 2147483647) true [71] [mk_win None None false None] [];
   mk_field "horizontal_text_justification" (KEnum e_HorizontalTextJustification) true [72] [mk_win None None false None] [];
   mk_field "second_alignment_point.x" KF64 true [11] [mk_win None None false None] [];
   mk_field "second_alignment_point.y" KF64 true [21] [mk_win None None false None] [];
   mk_field "second_alignment_point.z" KF64 true [31] [mk_win None None false None] [];
   mk_field "normal.x" KF64 true [210] [mk_win None None false None] [];
   mk_field "normal.y" KF64 true [220] [mk_win None None false None] [];
   mk_field "normal.z" KF64 true [230] [mk_win None None false None] [];
   mk_field "version" (KEnum e_Version) true [280] [mk_win (Some R2010) None false None] [];
   mk_field "prompt" KStr true [3] [mk_win None None false None] [];
   mk_field "text_tag" KStr true [2] [mk_win None None false None] [];
   mk_field "flags" (KInt (-2147483648) 2147483647) true [70] [mk_win None None false None] [];
   mk_field "field_length" (KInt (-32768) 32767) true [73] [mk_win None None false None] [];
   mk_field "vertical_text_justification" (KEnum e_VerticalTextJustification) true [74] [mk_win (Some R12) None false None] [];
   mk_field "is_locked_in_block" KBool true [280] [mk_win (Some R2007) None false None] [];
   mk_field "keep_duplicate_records" KBool true [280] [mk_win (Some R2007) None false None] [];
   mk_field "m_text_flag" (KEnum e_MTextFlag) true [70] [mk_win (Some R2007) None false None] [];
   mk_field "is_really_locked" KBool true [70] [mk_win (Some R2007) None false None] [];
   mk_field "__secondary_attribute_count" (KInt (-2147483648) 2147483647) false [70] [mk_win (Some R2007) None false None] [];
   mk_field "__secondary_attributes_handle" (KList KHandle) true [340] [mk_win (Some R2007) None false None] [];
   mk_field "alignment_point.x" KF64 true [10] [mk_win (Some R2007) None false None] [];
   mk_field "alignment_point.y" KF64 true [20] [mk_win (Some R2007) None false None] [];
   mk_field "alignment_point.z" KF64 true [30] [mk_win (Some R2007) None false None] [];
   mk_field "annotation_scale" KF64 true [40] [mk_win (Some R2007) None false None] [];
   mk_field "x_record_tag" KStr true [2] [mk_win (Some R2007) None false None] []] ++ common_fields).

(** spec/EntitiesSpec.xml:245-312, common fields 7-50; reader src/entity.rs:805-952, writer build/entity_generator.rs:601-881. The multi-line text is an entity of its own; it is written before the x-data (src/entity.rs:1544-1555), so the item ends before them. *)
Definition ent_attribute : itype := mk_itype
  (mk_spec "Attribute" (str "ATTRIB") None None
    ([("thickness", (FF64 0));
     ("location.x", (FF64 0));
     ("location.y", (FF64 0));
     ("location.z", (FF64 0));
     ("text_height", (FF64 4607182418800017408));
     ("value", (FStr []));
     ("version", (FInt 0));
     ("attribute_tag", (FStr []));
     ("flags", (FInt 0));
     ("field_length", (FInt 0));
     ("rotation", (FF64 0));
     ("relative_x_scale_factor", (FF64 4607182418800017408));
     ("oblique_angle", (FF64 0));
     ("text_style_name", (FStr (str "STANDARD")));
     ("text_generation_flags", (FInt 0));
     ("horizontal_text_justification", (FInt 0));
     ("vertical_text_justification", (FInt 0));
     ("second_alignment_point.x", (FF64 0));
     ("second_alignment_point.y", (FF64 0));
     ("second_alignment_point.z", (FF64 0));
     ("normal.x", (FF64 0));
     ("normal.y", (FF64 0));
     ("normal.z", (FF64 4607182418800017408));
     ("is_locked_in_block", (FBool false));
     ("keep_duplicate_records", (FBool false));
     ("m_text_flag", (FInt 2));
     ("is_really_locked", (FBool false));
     ("__secondary_attribute_count", (FInt 0));
     ("__secondary_attributes_handle", (FList []));
     ("alignment_point.x", (FF64 0));
     ("alignment_point.y", (FF64 0));
     ("alignment_point.z", (FF64 0));
     ("annotation_scale", (FF64 4607182418800017408));
     ("x_record_tag", (FStr []))] ++ common_defaults)
    ([mk_arm 100 [] [AMark 0 [(str "AcDbXrecord", 1)] (Some 0)];
     mk_arm 1 [] [ASet "value" RStr];
     mk_arm 2 [GEq 0 1] [ASet "x_record_tag" RStr];
     mk_arm 2 [] [ASet "attribute_tag" RStr];
     mk_arm 7 [] [ASet "text_style_name" RStr];
     mk_arm 10 [GEq 0 1] [ASet "alignment_point.x" RF64];
     mk_arm 10 [] [ASet "location.x" RF64];
     mk_arm 20 [GEq 0 1] [ASet "alignment_point.y" RF64];
     mk_arm 20 [] [ASet "location.y" RF64];
     mk_arm 30 [GEq 0 1] [ASet "alignment_point.z" RF64];
     mk_arm 30 [] [ASet "location.z" RF64];
     mk_arm 11 [] [ASet "second_alignment_point.x" RF64];
     mk_arm 21 [] [ASet "second_alignment_point.y" RF64];
     mk_arm 31 [] [ASet "second_alignment_point.z" RF64];
     mk_arm 39 [] [ASet "thickness" RF64];
     mk_arm 40 [GEq 0 1] [ASet "annotation_scale" RF64];
     mk_arm 40 [] [ASet "text_height" RF64];
     mk_arm 41 [] [ASet "relative_x_scale_factor" RF64];
     mk_arm 50 [] [ASet "rotation" RF64];
     mk_arm 51 [] [ASet "oblique_angle" RF64];
     mk_arm 70 [GEq 0 1; GEq 2 0] [ASet "m_text_flag" (REnum16 e_MTextFlag 2); AIncr 2];
     mk_arm 70 [GEq 0 1; GEq 2 1] [ASet "is_really_locked" RAsBool; AIncr 2];
     mk_arm 70 [GEq 0 1; GEq 2 2] [ASet "__secondary_attribute_count" RI16; AIncr 2];
     mk_arm 70 [GEq 0 1] [AFail];
     mk_arm 70 [] [ASet "flags" RI16];
     mk_arm 71 [] [ASet "text_generation_flags" RI16];
     mk_arm 72 [] [ASet "horizontal_text_justification" (REnum16 e_HorizontalTextJustification 0)];
     mk_arm 73 [] [ASet "field_length" RI16];
     mk_arm 74 [] [ASet "vertical_text_justification" (REnum16 e_VerticalTextJustification 0)];
     mk_arm 210 [] [ASet "normal.x" RF64];
     mk_arm 220 [] [ASet "normal.y" RF64];
     mk_arm 230 [] [ASet "normal.z" RF64];
     mk_arm 280 [GEq 0 1] [ASet "keep_duplicate_records" RAsBool];
     mk_arm 280 [GEq 1 0] [ASet "version" (REnum16 e_Version 0); AReg 1 1];
     mk_arm 280 [] [ASet "is_locked_in_block" RAsBool];
     mk_arm 340 [] [APush "__secondary_attributes_handle" RHandle]] ++ common_arms)
    [0; 0; 0] true [] []
    (common_cmds ++ [WConst [CMin R13] (mk_pair 100 (VStr (str "AcDbText")));
     WPair [CNe [("thickness", (FF64 0))]] 39 "thickness" WF64;
     WPair [] 10 "location.x" WF64;
     WPair [] 20 "location.y" WF64;
     WPair [] 30 "location.z" WF64;
     WPair [] 40 "text_height" WF64;
     WPair [] 1 "value" WStr;
     WConst [CMin R13] (mk_pair 100 (VStr (str "AcDbAttribute")));
     WPair [CMin R2010] 280 "version" WI16;
     WPair [] 2 "attribute_tag" WStr;
     WPair [] 70 "flags" WI16;
     WPair [CNe [("field_length", (FInt 0))]] 73 "field_length" WI16;
     WPair [CNe [("rotation", (FF64 0))]] 50 "rotation" WF64;
     WPair [CNe [("relative_x_scale_factor", (FF64 4607182418800017408))]] 41 "relative_x_scale_factor" WF64;
     WPair [CNe [("oblique_angle", (FF64 0))]] 51 "oblique_angle" WF64;
     WPair [CNe [("text_style_name", (FStr (str "STANDARD")))]] 7 "text_style_name" WStr;
     WPair [CNe [("text_generation_flags", (FInt 0))]] 71 "text_generation_flags" WI16;
     WPair [CNe [("horizontal_text_justification", (FInt 0))]] 72 "horizontal_text_justification" WI16;
     WPair [CMin R12; CNe [("vertical_text_justification", (FInt 0))]] 74 "vertical_text_justification" WI16;
     WPair [] 11 "second_alignment_point.x" WF64;
     WPair [] 21 "second_alignment_point.y" WF64;
     WPair [] 31 "second_alignment_point.z" WF64;
     WPair [CNe [("normal.x", (FF64 0)); ("normal.y", (FF64 0)); ("normal.z", (FF64 4607182418800017408))]] 210 "normal.x" WF64;
     WPair [CNe [("normal.x", (FF64 0)); ("normal.y", (FF64 0)); ("normal.z", (FF64 4607182418800017408))]] 220 "normal.y" WF64;
     WPair [CNe [("normal.x", (FF64 0)); ("normal.y", (FF64 0)); ("normal.z", (FF64 4607182418800017408))]] 230 "normal.z" WF64;
     WPair [CMin R2007] 280 "is_locked_in_block" WAsI16;
     WConst [CMin R2007] (mk_pair 100 (VStr (str "AcDbXrecord")));
     WPair [CMin R2007] 280 "keep_duplicate_records" WAsI16;
     WPair [CMin R2007] 70 "m_text_flag" WI16;
     WPair [CMin R2007] 70 "is_really_locked" WAsI16;
     WLen [CMin R2007] 70 "__secondary_attributes_handle" LI16;
     WEach [CMin R2007] 340 "__secondary_attributes_handle" WHandle;
     WPair [CMin R2007] 10 "alignment_point.x" WF64;
     WPair [CMin R2007] 20 "alignment_point.y" WF64;
     WPair [CMin R2007] 30 "alignment_point.z" WF64;
     WPair [CMin R2007] 40 "annotation_scale" WF64;
     WPair [CMin R2007] 2 "x_record_tag" WStr]))
  ([mk_field "thickness" KF64 true [39] [mk_win None None false None] [];
   mk_field "location.x" KF64 true [10] [mk_win None None false None] [];
   mk_field "location.y" KF64 true [20] [mk_win None None false None] [];
   mk_field "location.z" KF64 true [30] [mk_win None None false None] [];
   mk_field "text_height" KF64 true [40] [mk_win None None false None] [];
   mk_field "value" KStr true [1] [mk_win None None false None] [];
   mk_field "version" (KEnum e_Version) true [280] [mk_win (Some R2010) None false None] [];
   mk_field "attribute_tag" KStr true [2] [mk_win None None false None] [];
   mk_field "flags" (KInt (-2147483648) 2147483647) true [70] [mk_win None None false None] [];
   mk_field "field_length" (KInt (-32768) 32767) true [73] [mk_win None None false None] [];
   mk_field "rotation" KF64 true [50] [mk_win None None false None] [];
   mk_field "relative_x_scale_factor" KF64 true [41] [mk_win None None false None] [];
   mk_field "oblique_angle" KF64 true [51] [mk_win None None false None] [];
   mk_field "text_style_name" KStr true [7] [mk_win None None false None] [];
   mk_field "text_generation_flags" (KInt (-2147483648) 2147483647) true [71] [mk_win None None false None] [];
   mk_field "horizontal_text_justification" (KEnum e_HorizontalTextJustification) true [72] [mk_win None None false None] [];
   mk_field "vertical_text_justification" (KEnum e_VerticalTextJustification) true [74] [mk_win (Some R12) None false None] [];
   mk_field "second_alignment_point.x" KF64 true [11] [mk_win None None false None] [];
   mk_field "second_alignment_point.y" KF64 true [21] [mk_win None None false None] [];
   mk_field "second_alignment_point.z" KF64 true [31] [mk_win None None false None] [];
   mk_field "normal.x" KF64 true [210] [mk_win None None false None] [];
   mk_field "normal.y" KF64 true [220] [mk_win None None false None] [];
   mk_field "normal.z" KF64 true [230] [mk_win None None false None] [];
   mk_field "is_locked_in_block" KBool true [280] [mk_win (Some R2007) None false None] [];
   mk_field "keep_duplicate_records" KBool true [280] [mk_win (Some R2007) None false None] [];
   mk_field "m_text_flag" (KEnum e_MTextFlag) true [70] [mk_win (Some R2007) None false None] [];
   mk_field "is_really_locked" KBool true [70] [mk_win (Some R2007) None false None] [];
   mk_field "__secondary_attribute_count" (KInt (-2147483648) 2147483647) false [70] [mk_win (Some R2007) None false None] [];
   mk_field "__secondary_attributes_handle" (KList KHandle) true [340] [mk_win (Some R2007) None false None] [];
   mk_field "alignment_point.x" KF64 true [10] [mk_win (Some R2007) None false None] [];
   mk_field "alignment_point.y" KF64 true [20] [mk_win (Some R2007) None false None] [];
   mk_field "alignment_point.z" KF64 true [30] [mk_win (Some R2007) None false None] [];
   mk_field "annotation_scale" KF64 true [40] [mk_win (Some R2007) None false None] [];
   mk_field "x_record_tag" KStr true [2] [mk_win (Some R2007) None false None] []] ++ common_fields).

(** spec/EntitiesSpec.xml:318-322, common fields 7-50; reader build/entity_generator.rs:452-535, writer build/entity_generator.rs:601-881. *)
Definition ent_body : itype := mk_itype
  (mk_spec "Body" (str "BODY") (Some R13) None
    ([("format_version_number", (FInt 1));
     ("custom_data", (FList []));
     ("custom_data2", (FList []))] ++ common_defaults)
    ([mk_arm 70 [] [ASet "format_version_number" RI16];
     mk_arm 1 [] [APush "custom_data" RStr];
     mk_arm 3 [] [APush "custom_data2" RStr]] ++ common_arms)
    [] false [] []
    (common_cmds ++ [WConst [CMin R13] (mk_pair 100 (VStr (str "AcDbModelerGeometry")));
     WPair [] 70 "format_version_number" WI16;
     WEach [] 1 "custom_data" WStr;
     WEach [] 3 "custom_data2" WStr;
     WXdatas [] "common.x_data"]))
  ([mk_field "format_version_number" (KInt (-32768) 32767) true [70] [mk_win None None false None] [];
   mk_field "custom_data" (KList KStr) true [1] [mk_win None None false None] [];
   mk_field "custom_data2" (KList KStr) true [3] [mk_win None None false None] []] ++ common_fields).

(** spec/EntitiesSpec.xml:328-333, common fields 7-50; reader build/entity_generator.rs:452-535, writer build/entity_generator.rs:601-881. *)
Definition ent_circle : itype := mk_itype
  (mk_spec "Circle" (str "CIRCLE") None None
    ([("thickness", (FF64 0));
     ("center.x", (FF64 0));
     ("center.y", (FF64 0));
     ("center.z", (FF64 0));
     ("radius", (FF64 0));
     ("normal.x", (FF64 0));
     ("normal.y", (FF64 0));
     ("normal.z", (FF64 4607182418800017408))] ++ common_defaults)
    ([mk_arm 39 [] [ASet "thickness" RF64];
     mk_arm 10 [] [ASet "center.x" RF64];
     mk_arm 20 [] [ASet "center.y" RF64];
     mk_arm 30 [] [ASet "center.z" RF64];
     mk_arm 40 [] [ASet "radius" RF64];
     mk_arm 210 [] [ASet "normal.x" RF64];
     mk_arm 220 [] [ASet "normal.y" RF64];
     mk_arm 230 [] [ASet "normal.z" RF64]] ++ common_arms)
    [] false [] []
    (common_cmds ++ [WConst [CMin R13] (mk_pair 100 (VStr (str "AcDbCircle")));
     WPair [CNe [("thickness", (FF64 0))]] 39 "thickness" WF64;
     WPair [] 10 "center.x" WF64;
     WPair [] 20 "center.y" WF64;
     WPair [] 30 "center.z" WF64;
     WPair [] 40 "radius" WF64;
     WPair [CNe [("normal.x", (FF64 0)); ("normal.y", (FF64 0)); ("normal.z", (FF64 4607182418800017408))]] 210 "normal.x" WF64;
     WPair [CNe [("normal.x", (FF64 0)); ("normal.y", (FF64 0)); ("normal.z", (FF64 4607182418800017408))]] 220 "normal.y" WF64;
     WPair [CNe [("normal.x", (FF64 0)); ("normal.y", (FF64 0)); ("normal.z", (FF64 4607182418800017408))]] 230 "normal.z" WF64;
     WXdatas [] "common.x_data"]))
  ([mk_field "thickness" KF64 true [39] [mk_win None None false None] [];
   mk_field "center.x" KF64 true [10] [mk_win None None false None] [];
   mk_field "center.y" KF64 true [20] [mk_win None None false None] [];
   mk_field "center.z" KF64 true [30] [mk_win None None false None] [];
   mk_field "radius" KF64 true [40] [mk_win None None false None] [];
   mk_field "normal.x" KF64 true [210] [mk_win None None false None] [];
   mk_field "normal.y" KF64 true [220] [mk_win None None false None] [];
   mk_field "normal.z" KF64 true [230] [mk_win None None false None] []] ++ common_fields).

(** spec/EntitiesSpec.xml:361-367, common fields 7-50; reader src/entity.rs:236-396 and 421-598, writer src/entity.rs:1342-1428. *)
Definition ent_rotated_dimension : itype := mk_itype
  (mk_spec "RotatedDimension" (str "DIMENSION") None None
    ([("dimension_base.version", (FInt 0));
     ("dimension_base.block_name", (FStr (str "*MODEL_SPACE")));
     ("dimension_base.definition_point_1.x", (FF64 0));
     ("dimension_base.definition_point_1.y", (FF64 0));
     ("dimension_base.definition_point_1.z", (FF64 0));
     ("dimension_base.text_mid_point.x", (FF64 0));
     ("dimension_base.text_mid_point.y", (FF64 0));
     ("dimension_base.text_mid_point.z", (FF64 0));
     ("dimension_base.dimension_type", (FInt 1));
     ("dimension_base.attachment_point", (FInt 1));
     ("dimension_base.text_line_spacing_style", (FInt 1));
     ("dimension_base.text_line_spacing_factor", (FF64 4607182418800017408));
     ("dimension_base.actual_measurement", (FF64 0));
     ("dimension_base.text", (FStr (str "<>")));
     ("dimension_base.text_rotation_angle", (FF64 0));
     ("dimension_base.horizontal_direction_angle", (FF64 0));
     ("dimension_base.normal.x", (FF64 0));
     ("dimension_base.normal.y", (FF64 0));
     ("dimension_base.normal.z", (FF64 4607182418800017408));
     ("dimension_base.dimension_style_name", (FStr (str "STANDARD")));
     ("dimension_base.is_block_reference_referenced_by_this_block_only", (FBool false));
     ("dimension_base.is_ordinate_x_type", (FBool false));
     ("dimension_base.is_at_user_defined_location", (FBool false));
     ("insertion_point.x", (FF64 0));
     ("insertion_point.y", (FF64 0));
     ("insertion_point.z", (FF64 0));
     ("definition_point_2.x", (FF64 0));
     ("definition_point_2.y", (FF64 0));
     ("definition_point_2.z", (FF64 0));
     ("definition_point_3.x", (FF64 0));
     ("definition_point_3.y", (FF64 0));
     ("definition_point_3.z", (FF64 0));
     ("rotation_angle", (FF64 0));
     ("extension_line_angle", (FF64 0));
     ("RadialDimension.definition_point_2.x", (FF64 0));
     ("RadialDimension.definition_point_2.y", (FF64 0));
     ("RadialDimension.definition_point_2.z", (FF64 0));
     ("RadialDimension.leader_length", (FF64 0));
     ("DiameterDimension.definition_point_2.x", (FF64 0));
     ("DiameterDimension.definition_point_2.y", (FF64 0));
     ("DiameterDimension.definition_point_2.z", (FF64 0));
     ("DiameterDimension.leader_length", (FF64 0));
     ("AngularThreePointDimension.definition_point_2.x", (FF64 0));
     ("AngularThreePointDimension.definition_point_2.y", (FF64 0));
     ("AngularThreePointDimension.definition_point_2.z", (FF64 0));
     ("AngularThreePointDimension.definition_point_3.x", (FF64 0));
     ("AngularThreePointDimension.definition_point_3.y", (FF64 0));
     ("AngularThreePointDimension.definition_point_3.z", (FF64 0));
     ("AngularThreePointDimension.definition_point_4.x", (FF64 0));
     ("AngularThreePointDimension.definition_point_4.y", (FF64 0));
     ("AngularThreePointDimension.definition_point_4.z", (FF64 0));
     ("AngularThreePointDimension.definition_point_5.x", (FF64 0));
     ("AngularThreePointDimension.definition_point_5.y", (FF64 0));
     ("AngularThreePointDimension.definition_point_5.z", (FF64 0));
     ("OrdinateDimension.definition_point_2.x", (FF64 0));
     ("OrdinateDimension.definition_point_2.y", (FF64 0));
     ("OrdinateDimension.definition_point_2.z", (FF64 0));
     ("OrdinateDimension.definition_point_3.x", (FF64 0));
     ("OrdinateDimension.definition_point_3.y", (FF64 0));
     ("OrdinateDimension.definition_point_3.z", (FF64 0))] ++ common_defaults)
    ([mk_arm 280 [GEq 0 0] [ASet "dimension_base.version" (REnum16 e_Version 0)];
     mk_arm 2 [GEq 0 0] [ASet "dimension_base.block_name" RStr];
     mk_arm 10 [GEq 0 0] [ASet "dimension_base.definition_point_1.x" RF64];
     mk_arm 20 [GEq 0 0] [ASet "dimension_base.definition_point_1.y" RF64];
     mk_arm 30 [GEq 0 0] [ASet "dimension_base.definition_point_1.z" RF64];
     mk_arm 11 [GEq 0 0] [ASet "dimension_base.text_mid_point.x" RF64];
     mk_arm 21 [GEq 0 0] [ASet "dimension_base.text_mid_point.y" RF64];
     mk_arm 31 [GEq 0 0] [ASet "dimension_base.text_mid_point.z" RF64];
     mk_arm 71 [GEq 0 0] [ASet "dimension_base.attachment_point" (REnum16 e_AttachmentPoint 1)];
     mk_arm 72 [GEq 0 0] [ASet "dimension_base.text_line_spacing_style" (REnum16 e_TextLineSpacingStyle 1)];
     mk_arm 41 [GEq 0 0] [ASet "dimension_base.text_line_spacing_factor" RF64];
     mk_arm 42 [GEq 0 0] [ASet "dimension_base.actual_measurement" RF64];
     mk_arm 1 [GEq 0 0] [ASet "dimension_base.text" RStr];
     mk_arm 53 [GEq 0 0] [ASet "dimension_base.text_rotation_angle" RF64];
     mk_arm 51 [GEq 0 0] [ASet "dimension_base.horizontal_direction_angle" RF64];
     mk_arm 210 [GEq 0 0] [ASet "dimension_base.normal.x" RF64];
     mk_arm 220 [GEq 0 0] [ASet "dimension_base.normal.y" RF64];
     mk_arm 230 [GEq 0 0] [ASet "dimension_base.normal.z" RF64];
     mk_arm 3 [GEq 0 0] [ASet "dimension_base.dimension_style_name" RStr];
     mk_arm 70 [GEq 0 0] [AMulti ["dimension_base.dimension_type"; "dimension_base.is_block_reference_referenced_by_this_block_only"; "dimension_base.is_ordinate_x_type"; "dimension_base.is_at_user_defined_location"] MDimWord];
     mk_arm 100 [GEq 0 0] [AMark 0 [(str "AcDbAlignedDimension", 1); (str "AcDbRadialDimension", 2); (str "AcDbDiametricDimension", 3); (str "AcDb3PointAngularDimension", 4); (str "AcDbOrdinateDimension", 5)] None];
     mk_arm 12 [GEq 0 1] [ASet "insertion_point.x" RF64];
     mk_arm 22 [GEq 0 1] [ASet "insertion_point.y" RF64];
     mk_arm 32 [GEq 0 1] [ASet "insertion_point.z" RF64];
     mk_arm 13 [GEq 0 1] [ASet "definition_point_2.x" RF64];
     mk_arm 23 [GEq 0 1] [ASet "definition_point_2.y" RF64];
     mk_arm 33 [GEq 0 1] [ASet "definition_point_2.z" RF64];
     mk_arm 14 [GEq 0 1] [ASet "definition_point_3.x" RF64];
     mk_arm 24 [GEq 0 1] [ASet "definition_point_3.y" RF64];
     mk_arm 34 [GEq 0 1] [ASet "definition_point_3.z" RF64];
     mk_arm 50 [GEq 0 1] [ASet "rotation_angle" RF64];
     mk_arm 52 [GEq 0 1] [ASet "extension_line_angle" RF64];
     mk_arm 15 [GEq 0 2] [ASet "RadialDimension.definition_point_2.x" RF64];
     mk_arm 25 [GEq 0 2] [ASet "RadialDimension.definition_point_2.y" RF64];
     mk_arm 35 [GEq 0 2] [ASet "RadialDimension.definition_point_2.z" RF64];
     mk_arm 40 [GEq 0 2] [ASet "RadialDimension.leader_length" RF64];
     mk_arm 15 [GEq 0 3] [ASet "DiameterDimension.definition_point_2.x" RF64];
     mk_arm 25 [GEq 0 3] [ASet "DiameterDimension.definition_point_2.y" RF64];
     mk_arm 35 [GEq 0 3] [ASet "DiameterDimension.definition_point_2.z" RF64];
     mk_arm 40 [GEq 0 3] [ASet "DiameterDimension.leader_length" RF64];
     mk_arm 13 [GEq 0 4] [ASet "AngularThreePointDimension.definition_point_2.x" RF64];
     mk_arm 23 [GEq 0 4] [ASet "AngularThreePointDimension.definition_point_2.y" RF64];
     mk_arm 33 [GEq 0 4] [ASet "AngularThreePointDimension.definition_point_2.z" RF64];
     mk_arm 14 [GEq 0 4] [ASet "AngularThreePointDimension.definition_point_3.x" RF64];
     mk_arm 24 [GEq 0 4] [ASet "AngularThreePointDimension.definition_point_3.y" RF64];
     mk_arm 34 [GEq 0 4] [ASet "AngularThreePointDimension.definition_point_3.z" RF64];
     mk_arm 15 [GEq 0 4] [ASet "AngularThreePointDimension.definition_point_4.x" RF64];
     mk_arm 25 [GEq 0 4] [ASet "AngularThreePointDimension.definition_point_4.y" RF64];
     mk_arm 35 [GEq 0 4] [ASet "AngularThreePointDimension.definition_point_4.z" RF64];
     mk_arm 16 [GEq 0 4] [ASet "AngularThreePointDimension.definition_point_5.x" RF64];
     mk_arm 26 [GEq 0 4] [ASet "AngularThreePointDimension.definition_point_5.y" RF64];
     mk_arm 36 [GEq 0 4] [ASet "AngularThreePointDimension.definition_point_5.z" RF64];
     mk_arm 13 [GEq 0 5] [ASet "OrdinateDimension.definition_point_2.x" RF64];
     mk_arm 23 [GEq 0 5] [ASet "OrdinateDimension.definition_point_2.y" RF64];
     mk_arm 33 [GEq 0 5] [ASet "OrdinateDimension.definition_point_2.z" RF64];
     mk_arm 14 [GEq 0 5] [ASet "OrdinateDimension.definition_point_3.x" RF64];
     mk_arm 24 [GEq 0 5] [ASet "OrdinateDimension.definition_point_3.y" RF64];
     mk_arm 34 [GEq 0 5] [ASet "OrdinateDimension.definition_point_3.z" RF64]] ++ common_arms)
    [0] false [] [(0%nat, 1)]
    (common_cmds ++ [WConst [CMin R13] (mk_pair 100 (VStr (str "AcDbDimension")));
     WPair [CMin R2010] 280 "dimension_base.version" WI16;
     WPair [] 2 "dimension_base.block_name" WStr;
     WPair [] 10 "dimension_base.definition_point_1.x" WF64;
     WPair [] 20 "dimension_base.definition_point_1.y" WF64;
     WPair [] 30 "dimension_base.definition_point_1.z" WF64;
     WPair [] 11 "dimension_base.text_mid_point.x" WF64;
     WPair [] 21 "dimension_base.text_mid_point.y" WF64;
     WPair [] 31 "dimension_base.text_mid_point.z" WF64;
     WMulti [] 70 ["dimension_base.dimension_type"; "dimension_base.is_block_reference_referenced_by_this_block_only"; "dimension_base.is_ordinate_x_type"; "dimension_base.is_at_user_defined_location"] MDimWord;
     WPair [CMin R2000] 71 "dimension_base.attachment_point" WI16;
     WPair [CMin R2000; CNe [("dimension_base.text_line_spacing_style", (FInt 1))]] 72 "dimension_base.text_line_spacing_style" WI16;
     WPair [CMin R2000; CNe [("dimension_base.text_line_spacing_factor", (FF64 4607182418800017408))]] 41 "dimension_base.text_line_spacing_factor" WF64;
     WPair [CMin R2000; CNe [("dimension_base.actual_measurement", (FF64 0))]] 42 "dimension_base.actual_measurement" WF64;
     WPair [] 1 "dimension_base.text" WStr;
     WPair [CNe [("dimension_base.text_rotation_angle", (FF64 0))]] 53 "dimension_base.text_rotation_angle" WF64;
     WPair [CNe [("dimension_base.horizontal_direction_angle", (FF64 0))]] 51 "dimension_base.horizontal_direction_angle" WF64;
     WPair [CNe [("dimension_base.normal.x", (FF64 0)); ("dimension_base.normal.y", (FF64 0)); ("dimension_base.normal.z", (FF64 4607182418800017408))]] 210 "dimension_base.normal.x" WF64;
     WPair [CNe [("dimension_base.normal.x", (FF64 0)); ("dimension_base.normal.y", (FF64 0)); ("dimension_base.normal.z", (FF64 4607182418800017408))]] 220 "dimension_base.normal.y" WF64;
     WPair [CNe [("dimension_base.normal.x", (FF64 0)); ("dimension_base.normal.y", (FF64 0)); ("dimension_base.normal.z", (FF64 4607182418800017408))]] 230 "dimension_base.normal.z" WF64;
     WPair [CMin R12] 3 "dimension_base.dimension_style_name" WStr;
     WConst [CMin R13] (mk_pair 100 (VStr (str "AcDbAlignedDimension")));
     WPair [] 12 "insertion_point.x" WF64;
     WPair [] 22 "insertion_point.y" WF64;
     WPair [] 32 "insertion_point.z" WF64;
     WPair [] 13 "definition_point_2.x" WF64;
     WPair [] 23 "definition_point_2.y" WF64;
     WPair [] 33 "definition_point_2.z" WF64;
     WPair [] 14 "definition_point_3.x" WF64;
     WPair [] 24 "definition_point_3.y" WF64;
     WPair [] 34 "definition_point_3.z" WF64;
     WPair [] 50 "rotation_angle" WF64;
     WPair [] 52 "extension_line_angle" WF64;
     WConst [CMin R13] (mk_pair 100 (VStr (str "AcDbRotatedDimension")));
     WXdatas [] "common.x_data"]))
  ([mk_field "dimension_base.version" (KEnum e_Version) true [280] [mk_win (Some R2010) None false None] [];
   mk_field "dimension_base.block_name" KStr true [2] [mk_win None None false None] [];
   mk_field "dimension_base.definition_point_1.x" KF64 true [10] [mk_win None None false None] [];
   mk_field "dimension_base.definition_point_1.y" KF64 true [20] [mk_win None None false None] [];
   mk_field "dimension_base.definition_point_1.z" KF64 true [30] [mk_win None None false None] [];
   mk_field "dimension_base.text_mid_point.x" KF64 true [11] [mk_win None None false None] [];
   mk_field "dimension_base.text_mid_point.y" KF64 true [21] [mk_win None None false None] [];
   mk_field "dimension_base.text_mid_point.z" KF64 true [31] [mk_win None None false None] [];
   mk_field "dimension_base.dimension_type" (KEnum e_DimensionType) true [70] [mk_win None None false None] [];
   mk_field "dimension_base.attachment_point" (KEnum e_AttachmentPoint) true [71] [mk_win (Some R2000) None false None] [];
   mk_field "dimension_base.text_line_spacing_style" (KEnum e_TextLineSpacingStyle) true [72] [mk_win (Some R2000) None false None] [];
   mk_field "dimension_base.text_line_spacing_factor" KF64 true [41] [mk_win (Some R2000) None false None] [];
   mk_field "dimension_base.actual_measurement" KF64 true [42] [mk_win (Some R2000) None false None] [];
   mk_field "dimension_base.text" KStr true [1] [mk_win None None false None] [];
   mk_field "dimension_base.text_rotation_angle" KF64 true [53] [mk_win None None false None] [];
   mk_field "dimension_base.horizontal_direction_angle" KF64 true [51] [mk_win None None false None] [];
   mk_field "dimension_base.normal.x" KF64 true [210] [mk_win None None false None] [];
   mk_field "dimension_base.normal.y" KF64 true [220] [mk_win None None false None] [];
   mk_field "dimension_base.normal.z" KF64 true [230] [mk_win None None false None] [];
   mk_field "dimension_base.dimension_style_name" KStr true [3] [mk_win (Some R12) None false None] [];
   mk_field "dimension_base.is_block_reference_referenced_by_this_block_only" KBool true [70] [mk_win None None false None] [];
   mk_field "dimension_base.is_ordinate_x_type" KBool true [70] [mk_win None None false None] [];
   mk_field "dimension_base.is_at_user_defined_location" KBool true [70] [mk_win None None false None] [];
   mk_field "insertion_point.x" KF64 true [12] [mk_win None None false None] [];
   mk_field "insertion_point.y" KF64 true [22] [mk_win None None false None] [];
   mk_field "insertion_point.z" KF64 true [32] [mk_win None None false None] [];
   mk_field "definition_point_2.x" KF64 true [13] [mk_win None None false None] [];
   mk_field "definition_point_2.y" KF64 true [23] [mk_win None None false None] [];
   mk_field "definition_point_2.z" KF64 true [33] [mk_win None None false None] [];
   mk_field "definition_point_3.x" KF64 true [14] [mk_win None None false None] [];
   mk_field "definition_point_3.y" KF64 true [24] [mk_win None None false None] [];
   mk_field "definition_point_3.z" KF64 true [34] [mk_win None None false None] [];
   mk_field "rotation_angle" KF64 true [50] [mk_win None None false None] [];
   mk_field "extension_line_angle" KF64 true [52] [mk_win None None false None] []] ++ common_fields).

(** spec/EntitiesSpec.xml:369-372, common fields 7-50; reader src/entity.rs:236-396 and 421-598, writer src/entity.rs:1342-1428. *)
Definition ent_radial_dimension : itype := mk_itype
  (mk_spec "RadialDimension" (str "DIMENSION") None None
    ([("dimension_base.version", (FInt 0));
     ("dimension_base.block_name", (FStr (str "*MODEL_SPACE")));
     ("dimension_base.definition_point_1.x", (FF64 0));
     ("dimension_base.definition_point_1.y", (FF64 0));
     ("dimension_base.definition_point_1.z", (FF64 0));
     ("dimension_base.text_mid_point.x", (FF64 0));
     ("dimension_base.text_mid_point.y", (FF64 0));
     ("dimension_base.text_mid_point.z", (FF64 0));
     ("dimension_base.dimension_type", (FInt 1));
     ("dimension_base.attachment_point", (FInt 1));
     ("dimension_base.text_line_spacing_style", (FInt 1));
     ("dimension_base.text_line_spacing_factor", (FF64 4607182418800017408));
     ("dimension_base.actual_measurement", (FF64 0));
     ("dimension_base.text", (FStr (str "<>")));
     ("dimension_base.text_rotation_angle", (FF64 0));
     ("dimension_base.horizontal_direction_angle", (FF64 0));
     ("dimension_base.normal.x", (FF64 0));
     ("dimension_base.normal.y", (FF64 0));
     ("dimension_base.normal.z", (FF64 4607182418800017408));
     ("dimension_base.dimension_style_name", (FStr (str "STANDARD")));
     ("dimension_base.is_block_reference_referenced_by_this_block_only", (FBool false));
     ("dimension_base.is_ordinate_x_type", (FBool false));
     ("dimension_base.is_at_user_defined_location", (FBool false));
     ("RotatedDimension.insertion_point.x", (FF64 0));
     ("RotatedDimension.insertion_point.y", (FF64 0));
     ("RotatedDimension.insertion_point.z", (FF64 0));
     ("RotatedDimension.definition_point_2.x", (FF64 0));
     ("RotatedDimension.definition_point_2.y", (FF64 0));
     ("RotatedDimension.definition_point_2.z", (FF64 0));
     ("RotatedDimension.definition_point_3.x", (FF64 0));
     ("RotatedDimension.definition_point_3.y", (FF64 0));
     ("RotatedDimension.definition_point_3.z", (FF64 0));
     ("RotatedDimension.rotation_angle", (FF64 0));
     ("RotatedDimension.extension_line_angle", (FF64 0));
     ("definition_point_2.x", (FF64 0));
     ("definition_point_2.y", (FF64 0));
     ("definition_point_2.z", (FF64 0));
     ("leader_length", (FF64 0));
     ("DiameterDimension.definition_point_2.x", (FF64 0));
     ("DiameterDimension.definition_point_2.y", (FF64 0));
     ("DiameterDimension.definition_point_2.z", (FF64 0));
     ("DiameterDimension.leader_length", (FF64 0));
     ("AngularThreePointDimension.definition_point_2.x", (FF64 0));
     ("AngularThreePointDimension.definition_point_2.y", (FF64 0));
     ("AngularThreePointDimension.definition_point_2.z", (FF64 0));
     ("AngularThreePointDimension.definition_point_3.x", (FF64 0));
     ("AngularThreePointDimension.definition_point_3.y", (FF64 0));
     ("AngularThreePointDimension.definition_point_3.z", (FF64 0));
     ("AngularThreePointDimension.definition_point_4.x", (FF64 0));
     ("AngularThreePointDimension.definition_point_4.y", (FF64 0));
     ("AngularThreePointDimension.definition_point_4.z", (FF64 0));
     ("AngularThreePointDimension.definition_point_5.x", (FF64 0));
     ("AngularThreePointDimension.definition_point_5.y", (FF64 0));
     ("AngularThreePointDimension.definition_point_5.z", (FF64 0));
     ("OrdinateDimension.definition_point_2.x", (FF64 0));
     ("OrdinateDimension.definition_point_2.y", (FF64 0));
     ("OrdinateDimension.definition_point_2.z", (FF64 0));
     ("OrdinateDimension.definition_point_3.x", (FF64 0));
     ("OrdinateDimension.definition_point_3.y", (FF64 0));
     ("OrdinateDimension.definition_point_3.z", (FF64 0))] ++ common_defaults)
    ([mk_arm 280 [GEq 0 0] [ASet "dimension_base.version" (REnum16 e_Version 0)];
     mk_arm 2 [GEq 0 0] [ASet "dimension_base.block_name" RStr];
     mk_arm 10 [GEq 0 0] [ASet "dimension_base.definition_point_1.x" RF64];
     mk_arm 20 [GEq 0 0] [ASet "dimension_base.definition_point_1.y" RF64];
     mk_arm 30 [GEq 0 0] [ASet "dimension_base.definition_point_1.z" RF64];
     mk_arm 11 [GEq 0 0] [ASet "dimension_base.text_mid_point.x" RF64];
     mk_arm 21 [GEq 0 0] [ASet "dimension_base.text_mid_point.y" RF64];
     mk_arm 31 [GEq 0 0] [ASet "dimension_base.text_mid_point.z" RF64];
     mk_arm 71 [GEq 0 0] [ASet "dimension_base.attachment_point" (REnum16 e_AttachmentPoint 1)];
     mk_arm 72 [GEq 0 0] [ASet "dimension_base.text_line_spacing_style" (REnum16 e_TextLineSpacingStyle 1)];
     mk_arm 41 [GEq 0 0] [ASet "dimension_base.text_line_spacing_factor" RF64];
     mk_arm 42 [GEq 0 0] [ASet "dimension_base.actual_measurement" RF64];
     mk_arm 1 [GEq 0 0] [ASet "dimension_base.text" RStr];
     mk_arm 53 [GEq 0 0] [ASet "dimension_base.text_rotation_angle" RF64];
     mk_arm 51 [GEq 0 0] [ASet "dimension_base.horizontal_direction_angle" RF64];
     mk_arm 210 [GEq 0 0] [ASet "dimension_base.normal.x" RF64];
     mk_arm 220 [GEq 0 0] [ASet "dimension_base.normal.y" RF64];
     mk_arm 230 [GEq 0 0] [ASet "dimension_base.normal.z" RF64];
     mk_arm 3 [GEq 0 0] [ASet "dimension_base.dimension_style_name" RStr];
     mk_arm 70 [GEq 0 0] [AMulti ["dimension_base.dimension_type"; "dimension_base.is_block_reference_referenced_by_this_block_only"; "dimension_base.is_ordinate_x_type"; "dimension_base.is_at_user_defined_location"] MDimWord];
     mk_arm 100 [GEq 0 0] [AMark 0 [(str "AcDbAlignedDimension", 1); (str "AcDbRadialDimension", 2); (str "AcDbDiametricDimension", 3); (str "AcDb3PointAngularDimension", 4); (str "AcDbOrdinateDimension", 5)] None];
     mk_arm 12 [GEq 0 1] [ASet "RotatedDimension.insertion_point.x" RF64];
     mk_arm 22 [GEq 0 1] [ASet "RotatedDimension.insertion_point.y" RF64];
     mk_arm 32 [GEq 0 1] [ASet "RotatedDimension.insertion_point.z" RF64];
     mk_arm 13 [GEq 0 1] [ASet "RotatedDimension.definition_point_2.x" RF64];
     mk_arm 23 [GEq 0 1] [ASet "RotatedDimension.definition_point_2.y" RF64];
     mk_arm 33 [GEq 0 1] [ASet "RotatedDimension.definition_point_2.z" RF64];
     mk_arm 14 [GEq 0 1] [ASet "RotatedDimension.definition_point_3.x" RF64];
     mk_arm 24 [GEq 0 1] [ASet "RotatedDimension.definition_point_3.y" RF64];
     mk_arm 34 [GEq 0 1] [ASet "RotatedDimension.definition_point_3.z" RF64];
     mk_arm 50 [GEq 0 1] [ASet "RotatedDimension.rotation_angle" RF64];
     mk_arm 52 [GEq 0 1] [ASet "RotatedDimension.extension_line_angle" RF64];
     mk_arm 15 [GEq 0 2] [ASet "definition_point_2.x" RF64];
     mk_arm 25 [GEq 0 2] [ASet "definition_point_2.y" RF64];
     mk_arm 35 [GEq 0 2] [ASet "definition_point_2.z" RF64];
     mk_arm 40 [GEq 0 2] [ASet "leader_length" RF64];
     mk_arm 15 [GEq 0 3] [ASet "DiameterDimension.definition_point_2.x" RF64];
     mk_arm 25 [GEq 0 3] [ASet "DiameterDimension.definition_point_2.y" RF64];
     mk_arm 35 [GEq 0 3] [ASet "DiameterDimension.definition_point_2.z" RF64];
     mk_arm 40 [GEq 0 3] [ASet "DiameterDimension.leader_length" RF64];
     mk_arm 13 [GEq 0 4] [ASet "AngularThreePointDimension.definition_point_2.x" RF64];
     mk_arm 23 [GEq 0 4] [ASet "AngularThreePointDimension.definition_point_2.y" RF64];
     mk_arm 33 [GEq 0 4] [ASet "AngularThreePointDimension.definition_point_2.z" RF64];
     mk_arm 14 [GEq 0 4] [ASet "AngularThreePointDimension.definition_point_3.x" RF64];
     mk_arm 24 [GEq 0 4] [ASet "AngularThreePointDimension.definition_point_3.y" RF64];
     mk_arm 34 [GEq 0 4] [ASet "AngularThreePointDimension.definition_point_3.z" RF64];
     mk_arm 15 [GEq 0 4] [ASet "AngularThreePointDimension.definition_point_4.x" RF64];
     mk_arm 25 [GEq 0 4] [ASet "AngularThreePointDimension.definition_point_4.y" RF64];
     mk_arm 35 [GEq 0 4] [ASet "AngularThreePointDimension.definition_point_4.z" RF64];
     mk_arm 16 [GEq 0 4] [ASet "AngularThreePointDimension.definition_point_5.x" RF64];
     mk_arm 26 [GEq 0 4] [ASet "AngularThreePointDimension.definition_point_5.y" RF64];
     mk_arm 36 [GEq 0 4] [ASet "AngularThreePointDimension.definition_point_5.z" RF64];
     mk_arm 13 [GEq 0 5] [ASet "OrdinateDimension.definition_point_2.x" RF64];
     mk_arm 23 [GEq 0 5] [ASet "OrdinateDimension.definition_point_2.y" RF64];
     mk_arm 33 [GEq 0 5] [ASet "OrdinateDimension.definition_point_2.z" RF64];
     mk_arm 14 [GEq 0 5] [ASet "OrdinateDimension.definition_point_3.x" RF64];
     mk_arm 24 [GEq 0 5] [ASet "OrdinateDimension.definition_point_3.y" RF64];
     mk_arm 34 [GEq 0 5] [ASet "OrdinateDimension.definition_point_3.z" RF64]] ++ common_arms)
    [0] false [] [(0%nat, 2)]
    (common_cmds ++ [WConst [CMin R13] (mk_pair 100 (VStr (str "AcDbDimension")));
     WPair [CMin R2010] 280 "dimension_base.version" WI16;
     WPair [] 2 "dimension_base.block_name" WStr;
     WPair [] 10 "dimension_base.definition_point_1.x" WF64;
     WPair [] 20 "dimension_base.definition_point_1.y" WF64;
     WPair [] 30 "dimension_base.definition_point_1.z" WF64;
     WPair [] 11 "dimension_base.text_mid_point.x" WF64;
     WPair [] 21 "dimension_base.text_mid_point.y" WF64;
     WPair [] 31 "dimension_base.text_mid_point.z" WF64;
     WMulti [] 70 ["dimension_base.dimension_type"; "dimension_base.is_block_reference_referenced_by_this_block_only"; "dimension_base.is_ordinate_x_type"; "dimension_base.is_at_user_defined_location"] MDimWord;
     WPair [CMin R2000] 71 "dimension_base.attachment_point" WI16;
     WPair [CMin R2000; CNe [("dimension_base.text_line_spacing_style", (FInt 1))]] 72 "dimension_base.text_line_spacing_style" WI16;
     WPair [CMin R2000; CNe [("dimension_base.text_line_spacing_factor", (FF64 4607182418800017408))]] 41 "dimension_base.text_line_spacing_factor" WF64;
     WPair [CMin R2000; CNe [("dimension_base.actual_measurement", (FF64 0))]] 42 "dimension_base.actual_measurement" WF64;
     WPair [] 1 "dimension_base.text" WStr;
     WPair [CNe [("dimension_base.text_rotation_angle", (FF64 0))]] 53 "dimension_base.text_rotation_angle" WF64;
     WPair [CNe [("dimension_base.horizontal_direction_angle", (FF64 0))]] 51 "dimension_base.horizontal_direction_angle" WF64;
     WPair [CNe [("dimension_base.normal.x", (FF64 0)); ("dimension_base.normal.y", (FF64 0)); ("dimension_base.normal.z", (FF64 4607182418800017408))]] 210 "dimension_base.normal.x" WF64;
     WPair [CNe [("dimension_base.normal.x", (FF64 0)); ("dimension_base.normal.y", (FF64 0)); ("dimension_base.normal.z", (FF64 4607182418800017408))]] 220 "dimension_base.normal.y" WF64;
     WPair [CNe [("dimension_base.normal.x", (FF64 0)); ("dimension_base.normal.y", (FF64 0)); ("dimension_base.normal.z", (FF64 4607182418800017408))]] 230 "dimension_base.normal.z" WF64;
     WPair [CMin R12] 3 "dimension_base.dimension_style_name" WStr;
     WConst [] (mk_pair 100 (VStr (str "AcDbRadialDimension")));
     WPair [] 15 "definition_point_2.x" WF64;
     WPair [] 25 "definition_point_2.y" WF64;
     WPair [] 35 "definition_point_2.z" WF64;
     WPair [] 40 "leader_length" WF64;
     WXdatas [] "common.x_data"]))
  ([mk_field "dimension_base.version" (KEnum e_Version) true [280] [mk_win (Some R2010) None false None] [];
   mk_field "dimension_base.block_name" KStr true [2] [mk_win None None false None] [];
   mk_field "dimension_base.definition_point_1.x" KF64 true [10] [mk_win None None false None] [];
   mk_field "dimension_base.definition_point_1.y" KF64 true [20] [mk_win None None false None] [];
   mk_field "dimension_base.definition_point_1.z" KF64 true [30] [mk_win None None false None] [];
   mk_field "dimension_base.text_mid_point.x" KF64 true [11] [mk_win None None false None] [];
   mk_field "dimension_base.text_mid_point.y" KF64 true [21] [mk_win None None false None] [];
   mk_field "dimension_base.text_mid_point.z" KF64 true [31] [mk_win None None false None] [];
   mk_field "dimension_base.dimension_type" (KEnum e_DimensionType) true [70] [mk_win None None false None] [];
   mk_field "dimension_base.attachment_point" (KEnum e_AttachmentPoint) true [71] [mk_win (Some R2000) None false None] [];
   mk_field "dimension_base.text_line_spacing_style" (KEnum e_TextLineSpacingStyle) true [72] [mk_win (Some R2000) None false None] [];
   mk_field "dimension_base.text_line_spacing_factor" KF64 true [41] [mk_win (Some R2000) None false None] [];
   mk_field "dimension_base.actual_measurement" KF64 true [42] [mk_win (Some R2000) None false None] [];
   mk_field "dimension_base.text" KStr true [1] [mk_win None None false None] [];
   mk_field "dimension_base.text_rotation_angle" KF64 true [53] [mk_win None None false None] [];
   mk_field "dimension_base.horizontal_direction_angle" KF64 true [51] [mk_win None None false None] [];
   mk_field "dimension_base.normal.x" KF64 true [210] [mk_win None None false None] [];
   mk_field "dimension_base.normal.y" KF64 true [220] [mk_win None None false None] [];
   mk_field "dimension_base.normal.z" KF64 true [230] [mk_win None None false None] [];
   mk_field "dimension_base.dimension_style_name" KStr true [3] [mk_win (Some R12) None false None] [];
   mk_field "dimension_base.is_block_reference_referenced_by_this_block_only" KBool true [70] [mk_win None None false None] [];
   mk_field "dimension_base.is_ordinate_x_type" KBool true [70] [mk_win None None false None] [];
   mk_field "dimension_base.is_at_user_defined_location" KBool true [70] [mk_win None None false None] [];
   mk_field "definition_point_2.x" KF64 true [15] [mk_win None None false None] [];
   mk_field "definition_point_2.y" KF64 true [25] [mk_win None None false None] [];
   mk_field "definition_point_2.z" KF64 true [35] [mk_win None None false None] [];
   mk_field "leader_length" KF64 true [40] [mk_win None None false None] []] ++ common_fields).

(** spec/EntitiesSpec.xml:374-377, common fields 7-50; reader src/entity.rs:236-396 and 421-598, writer src/entity.rs:1342-1428. *)
Definition ent_diameter_dimension : itype := mk_itype
  (mk_spec "DiameterDimension" (str "DIMENSION") None None
    ([("dimension_base.version", (FInt 0));
     ("dimension_base.block_name", (FStr (str "*MODEL_SPACE")));
     ("dimension_base.definition_point_1.x", (FF64 0));
     ("dimension_base.definition_point_1.y", (FF64 0));
     ("dimension_base.definition_point_1.z", (FF64 0));
     ("dimension_base.text_mid_point.x", (FF64 0));
     ("dimension_base.text_mid_point.y", (FF64 0));
     ("dimension_base.text_mid_point.z", (FF64 0));
     ("dimension_base.dimension_type", (FInt 1));
     ("dimension_base.attachment_point", (FInt 1));
     ("dimension_base.text_line_spacing_style", (FInt 1));
     ("dimension_base.text_line_spacing_factor", (FF64 4607182418800017408));
     ("dimension_base.actual_measurement", (FF64 0));
     ("dimension_base.text", (FStr (str "<>")));
     ("dimension_base.text_rotation_angle", (FF64 0));
     ("dimension_base.horizontal_direction_angle", (FF64 0));
     ("dimension_base.normal.x", (FF64 0));
     ("dimension_base.normal.y", (FF64 0));
     ("dimension_base.normal.z", (FF64 4607182418800017408));
     ("dimension_base.dimension_style_name", (FStr (str "STANDARD")));
     ("dimension_base.is_block_reference_referenced_by_this_block_only", (FBool false));
     ("dimension_base.is_ordinate_x_type", (FBool false));
     ("dimension_base.is_at_user_defined_location", (FBool false));
     ("RotatedDimension.insertion_point.x", (FF64 0));
     ("RotatedDimension.insertion_point.y", (FF64 0));
     ("RotatedDimension.insertion_point.z", (FF64 0));
     ("RotatedDimension.definition_point_2.x", (FF64 0));
     ("RotatedDimension.definition_point_2.y", (FF64 0));
     ("RotatedDimension.definition_point_2.z", (FF64 0));
     ("RotatedDimension.definition_point_3.x", (FF64 0));
     ("RotatedDimension.definition_point_3.y", (FF64 0));
     ("RotatedDimension.definition_point_3.z", (FF64 0));
     ("RotatedDimension.rotation_angle", (FF64 0));
     ("RotatedDimension.extension_line_angle", (FF64 0));
     ("RadialDimension.definition_point_2.x", (FF64 0));
     ("RadialDimension.definition_point_2.y", (FF64 0));
     ("RadialDimension.definition_point_2.z", (FF64 0));
     ("RadialDimension.leader_length", (FF64 0));
     ("definition_point_2.x", (FF64 0));
     ("definition_point_2.y", (FF64 0));
     ("definition_point_2.z", (FF64 0));
     ("leader_length", (FF64 0));
     ("AngularThreePointDimension.definition_point_2.x", (FF64 0));
     ("AngularThreePointDimension.definition_point_2.y", (FF64 0));
     ("AngularThreePointDimension.definition_point_2.z", (FF64 0));
     ("AngularThreePointDimension.definition_point_3.x", (FF64 0));
     ("AngularThreePointDimension.definition_point_3.y", (FF64 0));
     ("AngularThreePointDimension.definition_point_3.z", (FF64 0));
     ("AngularThreePointDimension.definition_point_4.x", (FF64 0));
     ("AngularThreePointDimension.definition_point_4.y", (FF64 0));
     ("AngularThreePointDimension.definition_point_4.z", (FF64 0));
     ("AngularThreePointDimension.definition_point_5.x", (FF64 0));
     ("AngularThreePointDimension.definition_point_5.y", (FF64 0));
     ("AngularThreePointDimension.definition_point_5.z", (FF64 0));
     ("OrdinateDimension.definition_point_2.x", (FF64 0));
     ("OrdinateDimension.definition_point_2.y", (FF64 0));
     ("OrdinateDimension.definition_point_2.z", (FF64 0));
     ("OrdinateDimension.definition_point_3.x", (FF64 0));
     ("OrdinateDimension.definition_point_3.y", (FF64 0));
     ("OrdinateDimension.definition_point_3.z", (FF64 0))] ++ common_defaults)
    ([mk_arm 280 [GEq 0 0] [ASet "dimension_base.version" (REnum16 e_Version 0)];
     mk_arm 2 [GEq 0 0] [ASet "dimension_base.block_name" RStr];
     mk_arm 10 [GEq 0 0] [ASet "dimension_base.definition_point_1.x" RF64];
     mk_arm 20 [GEq 0 0] [ASet "dimension_base.definition_point_1.y" RF64];
     mk_arm 30 [GEq 0 0] [ASet "dimension_base.definition_point_1.z" RF64];
     mk_arm 11 [GEq 0 0] [ASet "dimension_base.text_mid_point.x" RF64];
     mk_arm 21 [GEq 0 0] [ASet "dimension_base.text_mid_point.y" RF64];
     mk_arm 31 [GEq 0 0] [ASet "dimension_base.text_mid_point.z" RF64];
     mk_arm 71 [GEq 0 0] [ASet "dimension_base.attachment_point" (REnum16 e_AttachmentPoint 1)];
     mk_arm 72 [GEq 0 0] [ASet "dimension_base.text_line_spacing_style" (REnum16 e_TextLineSpacingStyle 1)];
     mk_arm 41 [GEq 0 0] [ASet "dimension_base.text_line_spacing_factor" RF64];
     mk_arm 42 [GEq 0 0] [ASet "dimension_base.actual_measurement" RF64];
     mk_arm 1 [GEq 0 0] [ASet "dimension_base.text" RStr];
     mk_arm 53 [GEq 0 0] [ASet "dimension_base.text_rotation_angle" RF64];
     mk_arm 51 [GEq 0 0] [ASet "dimension_base.horizontal_direction_angle" RF64];
     mk_arm 210 [GEq 0 0] [ASet "dimension_base.normal.x" RF64];
     mk_arm 220 [GEq 0 0] [ASet "dimension_base.normal.y" RF64];
     mk_arm 230 [GEq 0 0] [ASet "dimension_base.normal.z" RF64];
     mk_arm 3 [GEq 0 0] [ASet "dimension_base.dimension_style_name" RStr];
     mk_arm 70 [GEq 0 0] [AMulti ["dimension_base.dimension_type"; "dimension_base.is_block_reference_referenced_by_this_block_only"; "dimension_base.is_ordinate_x_type"; "dimension_base.is_at_user_defined_location"] MDimWord];
     mk_arm 100 [GEq 0 0] [AMark 0 [(str "AcDbAlignedDimension", 1); (str "AcDbRadialDimension", 2); (str "AcDbDiametricDimension", 3); (str "AcDb3PointAngularDimension", 4); (str "AcDbOrdinateDimension", 5)] None];
     mk_arm 12 [GEq 0 1] [ASet "RotatedDimension.insertion_point.x" RF64];
     mk_arm 22 [GEq 0 1] [ASet "RotatedDimension.insertion_point.y" RF64];
     mk_arm 32 [GEq 0 1] [ASet "RotatedDimension.insertion_point.z" RF64];
     mk_arm 13 [GEq 0 1] [ASet "RotatedDimension.definition_point_2.x" RF64];
     mk_arm 23 [GEq 0 1] [ASet "RotatedDimension.definition_point_2.y" RF64];
     mk_arm 33 [GEq 0 1] [ASet "RotatedDimension.definition_point_2.z" RF64];
     mk_arm 14 [GEq 0 1] [ASet "RotatedDimension.definition_point_3.x" RF64];
     mk_arm 24 [GEq 0 1] [ASet "RotatedDimension.definition_point_3.y" RF64];
     mk_arm 34 [GEq 0 1] [ASet "RotatedDimension.definition_point_3.z" RF64];
     mk_arm 50 [GEq 0 1] [ASet "RotatedDimension.rotation_angle" RF64];
     mk_arm 52 [GEq 0 1] [ASet "RotatedDimension.extension_line_angle" RF64];
     mk_arm 15 [GEq 0 2] [ASet "RadialDimension.definition_point_2.x" RF64];
     mk_arm 25 [GEq 0 2] [ASet "RadialDimension.definition_point_2.y" RF64];
     mk_arm 35 [GEq 0 2] [ASet "RadialDimension.definition_point_2.z" RF64];
     mk_arm 40 [GEq 0 2] [ASet "RadialDimension.leader_length" RF64];
     mk_arm 15 [GEq 0 3] [ASet "definition_point_2.x" RF64];
     mk_arm 25 [GEq 0 3] [ASet "definition_point_2.y" RF64];
     mk_arm 35 [GEq 0 3] [ASet "definition_point_2.z" RF64];
     mk_arm 40 [GEq 0 3] [ASet "leader_length" RF64];
     mk_arm 13 [GEq 0 4] [ASet "AngularThreePointDimension.definition_point_2.x" RF64];
     mk_arm 23 [GEq 0 4] [ASet "AngularThreePointDimension.definition_point_2.y" RF64];
     mk_arm 33 [GEq 0 4] [ASet "AngularThreePointDimension.definition_point_2.z" RF64];
     mk_arm 14 [GEq 0 4] [ASet "AngularThreePointDimension.definition_point_3.x" RF64];
     mk_arm 24 [GEq 0 4] [ASet "AngularThreePointDimension.definition_point_3.y" RF64];
     mk_arm 34 [GEq 0 4] [ASet "AngularThreePointDimension.definition_point_3.z" RF64];
     mk_arm 15 [GEq 0 4] [ASet "AngularThreePointDimension.definition_point_4.x" RF64];
     mk_arm 25 [GEq 0 4] [ASet "AngularThreePointDimension.definition_point_4.y" RF64];
     mk_arm 35 [GEq 0 4] [ASet "AngularThreePointDimension.definition_point_4.z" RF64];
     mk_arm 16 [GEq 0 4] [ASet "AngularThreePointDimension.definition_point_5.x" RF64];
     mk_arm 26 [GEq 0 4] [ASet "AngularThreePointDimension.definition_point_5.y" RF64];
     mk_arm 36 [GEq 0 4] [ASet "AngularThreePointDimension.definition_point_5.z" RF64];
     mk_arm 13 [GEq 0 5] [ASet "OrdinateDimension.definition_point_2.x" RF64];
     mk_arm 23 [GEq 0 5] [ASet "OrdinateDimension.definition_point_2.y" RF64];
     mk_arm 33 [GEq 0 5] [ASet "OrdinateDimension.definition_point_2.z" RF64];
     mk_arm 14 [GEq 0 5] [ASet "OrdinateDimension.definition_point_3.x" RF64];
     mk_arm 24 [GEq 0 5] [ASet "OrdinateDimension.definition_point_3.y" RF64];
     mk_arm 34 [GEq 0 5] [ASet "OrdinateDimension.definition_point_3.z" RF64]] ++ common_arms)
    [0] false [] [(0%nat, 3)]
    (common_cmds ++ [WConst [CMin R13] (mk_pair 100 (VStr (str "AcDbDimension")));
     WPair [CMin R2010] 280 "dimension_base.version" WI16;
     WPair [] 2 "dimension_base.block_name" WStr;
     WPair [] 10 "dimension_base.definition_point_1.x" WF64;
     WPair [] 20 "dimension_base.definition_point_1.y" WF64;
     WPair [] 30 "dimension_base.definition_point_1.z" WF64;
     WPair [] 11 "dimension_base.text_mid_point.x" WF64;
     WPair [] 21 "dimension_base.text_mid_point.y" WF64;
     WPair [] 31 "dimension_base.text_mid_point.z" WF64;
     WMulti [] 70 ["dimension_base.dimension_type"; "dimension_base.is_block_reference_referenced_by_this_block_only"; "dimension_base.is_ordinate_x_type"; "dimension_base.is_at_user_defined_location"] MDimWord;
     WPair [CMin R2000] 71 "dimension_base.attachment_point" WI16;
     WPair [CMin R2000; CNe [("dimension_base.text_line_spacing_style", (FInt 1))]] 72 "dimension_base.text_line_spacing_style" WI16;
     WPair [CMin R2000; CNe [("dimension_base.text_line_spacing_factor", (FF64 4607182418800017408))]] 41 "dimension_base.text_line_spacing_factor" WF64;
     WPair [CMin R2000; CNe [("dimension_base.actual_measurement", (FF64 0))]] 42 "dimension_base.actual_measurement" WF64;
     WPair [] 1 "dimension_base.text" WStr;
     WPair [CNe [("dimension_base.text_rotation_angle", (FF64 0))]] 53 "dimension_base.text_rotation_angle" WF64;
     WPair [CNe [("dimension_base.horizontal_direction_angle", (FF64 0))]] 51 "dimension_base.horizontal_direction_angle" WF64;
     WPair [CNe [("dimension_base.normal.x", (FF64 0)); ("dimension_base.normal.y", (FF64 0)); ("dimension_base.normal.z", (FF64 4607182418800017408))]] 210 "dimension_base.normal.x" WF64;
     WPair [CNe [("dimension_base.normal.x", (FF64 0)); ("dimension_base.normal.y", (FF64 0)); ("dimension_base.normal.z", (FF64 4607182418800017408))]] 220 "dimension_base.normal.y" WF64;
     WPair [CNe [("dimension_base.normal.x", (FF64 0)); ("dimension_base.normal.y", (FF64 0)); ("dimension_base.normal.z", (FF64 4607182418800017408))]] 230 "dimension_base.normal.z" WF64;
     WPair [CMin R12] 3 "dimension_base.dimension_style_name" WStr;
     WConst [] (mk_pair 100 (VStr (str "AcDbDiametricDimension")));
     WPair [] 15 "definition_point_2.x" WF64;
     WPair [] 25 "definition_point_2.y" WF64;
     WPair [] 35 "definition_point_2.z" WF64;
     WPair [] 40 "leader_length" WF64;
     WXdatas [] "common.x_data"]))
  ([mk_field "dimension_base.version" (KEnum e_Version) true [280] [mk_win (Some R2010) None false None] [];
   mk_field "dimension_base.block_name" KStr true [2] [mk_win None None false None] [];
   mk_field "dimension_base.definition_point_1.x" KF64 true [10] [mk_win None None false None] [];
   mk_field "dimension_base.definition_point_1.y" KF64 true [20] [mk_win None None false None] [];
   mk_field "dimension_base.definition_point_1.z" KF64 true [30] [mk_win None None false None] [];
   mk_field "dimension_base.text_mid_point.x" KF64 true [11] [mk_win None None false None] [];
   mk_field "dimension_base.text_mid_point.y" KF64 true [21] [mk_win None None false None] [];
   mk_field "dimension_base.text_mid_point.z" KF64 true [31] [mk_win None None false None] [];
   mk_field "dimension_base.dimension_type" (KEnum e_DimensionType) true [70] [mk_win None None false None] [];
   mk_field "dimension_base.attachment_point" (KEnum e_AttachmentPoint) true [71] [mk_win (Some R2000) None false None] [];
   mk_field "dimension_base.text_line_spacing_style" (KEnum e_TextLineSpacingStyle) true [72] [mk_win (Some R2000) None false None] [];
   mk_field "dimension_base.text_line_spacing_factor" KF64 true [41] [mk_win (Some R2000) None false None] [];
   mk_field "dimension_base.actual_measurement" KF64 true [42] [mk_win (Some R2000) None false None] [];
   mk_field "dimension_base.text" KStr true [1] [mk_win None None false None] [];
   mk_field "dimension_base.text_rotation_angle" KF64 true [53] [mk_win None None false None] [];
   mk_field "dimension_base.horizontal_direction_angle" KF64 true [51] [mk_win None None false None] [];
   mk_field "dimension_base.normal.x" KF64 true [210] [mk_win None None false None] [];
   mk_field "dimension_base.normal.y" KF64 true [220] [mk_win None None false None] [];
   mk_field "dimension_base.normal.z" KF64 true [230] [mk_win None None false None] [];
   mk_field "dimension_base.dimension_style_name" KStr true [3] [mk_win (Some R12) None false None] [];
   mk_field "dimension_base.is_block_reference_referenced_by_this_block_only" KBool true [70] [mk_win None None false None] [];
   mk_field "dimension_base.is_ordinate_x_type" KBool true [70] [mk_win None None false None] [];
   mk_field "dimension_base.is_at_user_defined_location" KBool true [70] [mk_win None None false None] [];
   mk_field "definition_point_2.x" KF64 true [15] [mk_win None None false None] [];
   mk_field "definition_point_2.y" KF64 true [25] [mk_win None None false None] [];
   mk_field "definition_point_2.z" KF64 true [35] [mk_win None None false None] [];
   mk_field "leader_length" KF64 true [40] [mk_win None None false None] []] ++ common_fields).

(** spec/EntitiesSpec.xml:379-384, common fields 7-50; reader src/entity.rs:236-396 and 421-598, writer src/entity.rs:1342-1428. *)
Definition ent_angular_three_point_dimension : itype := mk_itype
  (mk_spec "AngularThreePointDimension" (str "DIMENSION") None None
    ([("dimension_base.version", (FInt 0));
     ("dimension_base.block_name", (FStr (str "*MODEL_SPACE")));
     ("dimension_base.definition_point_1.x", (FF64 0));
     ("dimension_base.definition_point_1.y", (FF64 0));
     ("dimension_base.definition_point_1.z", (FF64 0));
     ("dimension_base.text_mid_point.x", (FF64 0));
     ("dimension_base.text_mid_point.y", (FF64 0));
     ("dimension_base.text_mid_point.z", (FF64 0));
     ("dimension_base.dimension_type", (FInt 1));
     ("dimension_base.attachment_point", (FInt 1));
     ("dimension_base.text_line_spacing_style", (FInt 1));
     ("dimension_base.text_line_spacing_factor", (FF64 4607182418800017408));
     ("dimension_base.actual_measurement", (FF64 0));
     ("dimension_base.text", (FStr (str "<>")));
     ("dimension_base.text_rotation_angle", (FF64 0));
     ("dimension_base.horizontal_direction_angle", (FF64 0));
     ("dimension_base.normal.x", (FF64 0));
     ("dimension_base.normal.y", (FF64 0));
     ("dimension_base.normal.z", (FF64 4607182418800017408));
     ("dimension_base.dimension_style_name", (FStr (str "STANDARD")));
     ("dimension_base.is_block_reference_referenced_by_this_block_only", (FBool false));
     ("dimension_base.is_ordinate_x_type", (FBool false));
     ("dimension_base.is_at_user_defined_location", (FBool false));
     ("RotatedDimension.insertion_point.x", (FF64 0));
     ("RotatedDimension.insertion_point.y", (FF64 0));
     ("RotatedDimension.insertion_point.z", (FF64 0));
     ("RotatedDimension.definition_point_2.x", (FF64 0));
     ("RotatedDimension.definition_point_2.y", (FF64 0));
     ("RotatedDimension.definition_point_2.z", (FF64 0));
     ("RotatedDimension.definition_point_3.x", (FF64 0));
     ("RotatedDimension.definition_point_3.y", (FF64 0));
     ("RotatedDimension.definition_point_3.z", (FF64 0));
     ("RotatedDimension.rotation_angle", (FF64 0));
     ("RotatedDimension.extension_line_angle", (FF64 0));
     ("RadialDimension.definition_point_2.x", (FF64 0));
     ("RadialDimension.definition_point_2.y", (FF64 0));
     ("RadialDimension.definition_point_2.z", (FF64 0));
     ("RadialDimension.leader_length", (FF64 0));
     ("DiameterDimension.definition_point_2.x", (FF64 0));
     ("DiameterDimension.definition_point_2.y", (FF64 0));
     ("DiameterDimension.definition_point_2.z", (FF64 0));
     ("DiameterDimension.leader_length", (FF64 0));
     ("definition_point_2.x", (FF64 0));
     ("definition_point_2.y", (FF64 0));
     ("definition_point_2.z", (FF64 0));
     ("definition_point_3.x", (FF64 0));
     ("definition_point_3.y", (FF64 0));
     ("definition_point_3.z", (FF64 0));
     ("definition_point_4.x", (FF64 0));
     ("definition_point_4.y", (FF64 0));
     ("definition_point_4.z", (FF64 0));
     ("definition_point_5.x", (FF64 0));
     ("definition_point_5.y", (FF64 0));
     ("definition_point_5.z", (FF64 0));
     ("OrdinateDimension.definition_point_2.x", (FF64 0));
     ("OrdinateDimension.definition_point_2.y", (FF64 0));
     ("OrdinateDimension.definition_point_2.z", (FF64 0));
     ("OrdinateDimension.definition_point_3.x", (FF64 0));
     ("OrdinateDimension.definition_point_3.y", (FF64 0));
     ("OrdinateDimension.definition_point_3.z", (FF64 0))] ++ common_defaults)
    ([mk_arm 280 [GEq 0 0] [ASet "dimension_base.version" (REnum16 e_Version 0)];
     mk_arm 2 [GEq 0 0] [ASet "dimension_base.block_name" RStr];
     mk_arm 10 [GEq 0 0] [ASet "dimension_base.definition_point_1.x" RF64];
     mk_arm 20 [GEq 0 0] [ASet "dimension_base.definition_point_1.y" RF64];
     mk_arm 30 [GEq 0 0] [ASet "dimension_base.definition_point_1.z" RF64];
     mk_arm 11 [GEq 0 0] [ASet "dimension_base.text_mid_point.x" RF64];
     mk_arm 21 [GEq 0 0] [ASet "dimension_base.text_mid_point.y" RF64];
     mk_arm 31 [GEq 0 0] [ASet "dimension_base.text_mid_point.z" RF64];
     mk_arm 71 [GEq 0 0] [ASet "dimension_base.attachment_point" (REnum16 e_AttachmentPoint 1)];
     mk_arm 72 [GEq 0 0] [ASet "dimension_base.text_line_spacing_style" (REnum16 e_TextLineSpacingStyle 1)];
     mk_arm 41 [GEq 0 0] [ASet "dimension_base.text_line_spacing_factor" RF64];
     mk_arm 42 [GEq 0 0] [ASet "dimension_base.actual_measurement" RF64];
     mk_arm 1 [GEq 0 0] [ASet "dimension_base.text" RStr];
     mk_arm 53 [GEq 0 0] [ASet "dimension_base.text_rotation_angle" RF64];
     mk_arm 51 [GEq 0 0] [ASet "dimension_base.horizontal_direction_angle" RF64];
     mk_arm 210 [GEq 0 0] [ASet "dimension_base.normal.x" RF64];
     mk_arm 220 [GEq 0 0] [ASet "dimension_base.normal.y" RF64];
     mk_arm 230 [GEq 0 0] [ASet "dimension_base.normal.z" RF64];
     mk_arm 3 [GEq 0 0] [ASet "dimension_base.dimension_style_name" RStr];
     mk_arm 70 [GEq 0 0] [AMulti ["dimension_base.dimension_type"; "dimension_base.is_block_reference_referenced_by_this_block_only"; "dimension_base.is_ordinate_x_type"; "dimension_base.is_at_user_defined_location"] MDimWord];
     mk_arm 100 [GEq 0 0] [AMark 0 [(str "AcDbAlignedDimension", 1); (str "AcDbRadialDimension", 2); (str "AcDbDiametricDimension", 3); (str "AcDb3PointAngularDimension", 4); (str "AcDbOrdinateDimension", 5)] None];
     mk_arm 12 [GEq 0 1] [ASet "RotatedDimension.insertion_point.x" RF64];
     mk_arm 22 [GEq 0 1] [ASet "RotatedDimension.insertion_point.y" RF64];
     mk_arm 32 [GEq 0 1] [ASet "RotatedDimension.insertion_point.z" RF64];
     mk_arm 13 [GEq 0 1] [ASet "RotatedDimension.definition_point_2.x" RF64];
     mk_arm 23 [GEq 0 1] [ASet "RotatedDimension.definition_point_2.y" RF64];
     mk_arm 33 [GEq 0 1] [ASet "RotatedDimension.definition_point_2.z" RF64];
     mk_arm 14 [GEq 0 1] [ASet "RotatedDimension.definition_point_3.x" RF64];
     mk_arm 24 [GEq 0 1] [ASet "RotatedDimension.definition_point_3.y" RF64];
     mk_arm 34 [GEq 0 1] [ASet "RotatedDimension.definition_point_3.z" RF64];
     mk_arm 50 [GEq 0 1] [ASet "RotatedDimension.rotation_angle" RF64];
     mk_arm 52 [GEq 0 1] [ASet "RotatedDimension.extension_line_angle" RF64];
     mk_arm 15 [GEq 0 2] [ASet "RadialDimension.definition_point_2.x" RF64];
     mk_arm 25 [GEq 0 2] [ASet "RadialDimension.definition_point_2.y" RF64];
     mk_arm 35 [GEq 0 2] [ASet "RadialDimension.definition_point_2.z" RF64];
     mk_arm 40 [GEq 0 2] [ASet "RadialDimension.leader_length" RF64];
     mk_arm 15 [GEq 0 3] [ASet "DiameterDimension.definition_point_2.x" RF64];
     mk_arm 25 [GEq 0 3] [ASet "DiameterDimension.definition_point_2.y" RF64];
     mk_arm 35 [GEq 0 3] [ASet "DiameterDimension.definition_point_2.z" RF64];
     mk_arm 40 [GEq 0 3] [ASet "DiameterDimension.leader_length" RF64];
     mk_arm 13 [GEq 0 4] [ASet "definition_point_2.x" RF64];
     mk_arm 23 [GEq 0 4] [ASet "definition_point_2.y" RF64];
     mk_arm 33 [GEq 0 4] [ASet "definition_point_2.z" RF64];
     mk_arm 14 [GEq 0 4] [ASet "definition_point_3.x" RF64];
     mk_arm 24 [GEq 0 4] [ASet "definition_point_3.y" RF64];
     mk_arm 34 [GEq 0 4] [ASet "definition_point_3.z" RF64];
     mk_arm 15 [GEq 0 4] [ASet "definition_point_4.x" RF64];
     mk_arm 25 [GEq 0 4] [ASet "definition_point_4.y" RF64];
     mk_arm 35 [GEq 0 4] [ASet "definition_point_4.z" RF64];
     mk_arm 16 [GEq 0 4] [ASet "definition_point_5.x" RF64];
     mk_arm 26 [GEq 0 4] [ASet "definition_point_5.y" RF64];
     mk_arm 36 [GEq 0 4] [ASet "definition_point_5.z" RF64];
     mk_arm 13 [GEq 0 5] [ASet "OrdinateDimension.definition_point_2.x" RF64];
     mk_arm 23 [GEq 0 5] [ASet "OrdinateDimension.definition_point_2.y" RF64];
     mk_arm 33 [GEq 0 5] [ASet "OrdinateDimension.definition_point_2.z" RF64];
     mk_arm 14 [GEq 0 5] [ASet "OrdinateDimension.definition_point_3.x" RF64];
     mk_arm 24 [GEq 0 5] [ASet "OrdinateDimension.definition_point_3.y" RF64];
     mk_arm 34 [GEq 0 5] [ASet "OrdinateDimension.definition_point_3.z" RF64]] ++ common_arms)
    [0] false [] [(0%nat, 4)]
    (common_cmds ++ [WConst [CMin R13] (mk_pair 100 (VStr (str "AcDbDimension")));
     WPair [CMin R2010] 280 "dimension_base.version" WI16;
     WPair [] 2 "dimension_base.block_name" WStr;
     WPair [] 10 "dimension_base.definition_point_1.x" WF64;
     WPair [] 20 "dimension_base.definition_point_1.y" WF64;
     WPair [] 30 "dimension_base.definition_point_1.z" WF64;
     WPair [] 11 "dimension_base.text_mid_point.x" WF64;
     WPair [] 21 "dimension_base.text_mid_point.y" WF64;
     WPair [] 31 "dimension_base.text_mid_point.z" WF64;
     WMulti [] 70 ["dimension_base.dimension_type"; "dimension_base.is_block_reference_referenced_by_this_block_only"; "dimension_base.is_ordinate_x_type"; "dimension_base.is_at_user_defined_location"] MDimWord;
     WPair [CMin R2000] 71 "dimension_base.attachment_point" WI16;
     WPair [CMin R2000; CNe [("dimension_base.text_line_spacing_style", (FInt 1))]] 72 "dimension_base.text_line_spacing_style" WI16;
     WPair [CMin R2000; CNe [("dimension_base.text_line_spacing_factor", (FF64 4607182418800017408))]] 41 "dimension_base.text_line_spacing_factor" WF64;
     WPair [CMin R2000; CNe [("dimension_base.actual_measurement", (FF64 0))]] 42 "dimension_base.actual_measurement" WF64;
     WPair [] 1 "dimension_base.text" WStr;
     WPair [CNe [("dimension_base.text_rotation_angle", (FF64 0))]] 53 "dimension_base.text_rotation_angle" WF64;
     WPair [CNe [("dimension_base.horizontal_direction_angle", (FF64 0))]] 51 "dimension_base.horizontal_direction_angle" WF64;
     WPair [CNe [("dimension_base.normal.x", (FF64 0)); ("dimension_base.normal.y", (FF64 0)); ("dimension_base.normal.z", (FF64 4607182418800017408))]] 210 "dimension_base.normal.x" WF64;
     WPair [CNe [("dimension_base.normal.x", (FF64 0)); ("dimension_base.normal.y", (FF64 0)); ("dimension_base.normal.z", (FF64 4607182418800017408))]] 220 "dimension_base.normal.y" WF64;
     WPair [CNe [("dimension_base.normal.x", (FF64 0)); ("dimension_base.normal.y", (FF64 0)); ("dimension_base.normal.z", (FF64 4607182418800017408))]] 230 "dimension_base.normal.z" WF64;
     WPair [CMin R12] 3 "dimension_base.dimension_style_name" WStr;
     WConst [] (mk_pair 100 (VStr (str "AcDb3PointAngularDimension")));
     WPair [] 13 "definition_point_2.x" WF64;
     WPair [] 23 "definition_point_2.y" WF64;
     WPair [] 33 "definition_point_2.z" WF64;
     WPair [] 14 "definition_point_3.x" WF64;
     WPair [] 24 "definition_point_3.y" WF64;
     WPair [] 34 "definition_point_3.z" WF64;
     WPair [] 15 "definition_point_4.x" WF64;
     WPair [] 25 "definition_point_4.y" WF64;
     WPair [] 35 "definition_point_4.z" WF64;
     WPair [] 16 "definition_point_5.x" WF64;
     WPair [] 26 "definition_point_5.y" WF64;
     WPair [] 36 "definition_point_5.z" WF64;
     WXdatas [] "common.x_data"]))
  ([mk_field "dimension_base.version" (KEnum e_Version) true [280] [mk_win (Some R2010) None false None] [];
   mk_field "dimension_base.block_name" KStr true [2] [mk_win None None false None] [];
   mk_field "dimension_base.definition_point_1.x" KF64 true [10] [mk_win None None false None] [];
   mk_field "dimension_base.definition_point_1.y" KF64 true [20] [mk_win None None false None] [];
   mk_field "dimension_base.definition_point_1.z" KF64 true [30] [mk_win None None false None] [];
   mk_field "dimension_base.text_mid_point.x" KF64 true [11] [mk_win None None false None] [];
   mk_field "dimension_base.text_mid_point.y" KF64 true [21] [mk_win None None false None] [];
   mk_field "dimension_base.text_mid_point.z" KF64 true [31] [mk_win None None false None] [];
   mk_field "dimension_base.dimension_type" (KEnum e_DimensionType) true [70] [mk_win None None false None] [];
   mk_field "dimension_base.attachment_point" (KEnum e_AttachmentPoint) true [71] [mk_win (Some R2000) None false None] [];
   mk_field "dimension_base.text_line_spacing_style" (KEnum e_TextLineSpacingStyle) true [72] [mk_win (Some R2000) None false None] [];
   mk_field "dimension_base.text_line_spacing_factor" KF64 true [41] [mk_win (Some R2000) None false None] [];
   mk_field "dimension_base.actual_measurement" KF64 true [42] [mk_win (Some R2000) None false None] [];
   mk_field "dimension_base.text" KStr true [1] [mk_win None None false None] [];
   mk_field "dimension_base.text_rotation_angle" KF64 true [53] [mk_win None None false None] [];
   mk_field "dimension_base.horizontal_direction_angle" KF64 true [51] [mk_win None None false None] [];
   mk_field "dimension_base.normal.x" KF64 true [210] [mk_win None None false None] [];
   mk_field "dimension_base.normal.y" KF64 true [220] [mk_win None None false None] [];
   mk_field "dimension_base.normal.z" KF64 true [230] [mk_win None None false None] [];
   mk_field "dimension_base.dimension_style_name" KStr true [3] [mk_win (Some R12) None false None] [];
   mk_field "dimension_base.is_block_reference_referenced_by_this_block_only" KBool true [70] [mk_win None None false None] [];
   mk_field "dimension_base.is_ordinate_x_type" KBool true [70] [mk_win None None false None] [];
   mk_field "dimension_base.is_at_user_defined_location" KBool true [70] [mk_win None None false None] [];
   mk_field "definition_point_2.x" KF64 true [13] [mk_win None None false None] [];
   mk_field "definition_point_2.y" KF64 true [23] [mk_win None None false None] [];
   mk_field "definition_point_2.z" KF64 true [33] [mk_win None None false None] [];
   mk_field "definition_point_3.x" KF64 true [14] [mk_win None None false None] [];
   mk_field "definition_point_3.y" KF64 true [24] [mk_win None None false None] [];
   mk_field "definition_point_3.z" KF64 true [34] [mk_win None None false None] [];
   mk_field "definition_point_4.x" KF64 true [15] [mk_win None None false None] [];
   mk_field "definition_point_4.y" KF64 true [25] [mk_win None None false None] [];
   mk_field "definition_point_4.z" KF64 true [35] [mk_win None None false None] [];
   mk_field "definition_point_5.x" KF64 true [16] [mk_win None None false None] [];
   mk_field "definition_point_5.y" KF64 true [26] [mk_win None None false None] [];
   mk_field "definition_point_5.z" KF64 true [36] [mk_win None None false None] []] ++ common_fields).

(** spec/EntitiesSpec.xml:386-389, common fields 7-50; reader src/entity.rs:236-396 and 421-598, writer src/entity.rs:1342-1428. *)
Definition ent_ordinate_dimension : itype := mk_itype
  (mk_spec "OrdinateDimension" (str "DIMENSION") None None
    ([("dimension_base.version", (FInt 0));
     ("dimension_base.block_name", (FStr (str "*MODEL_SPACE")));
     ("dimension_base.definition_point_1.x", (FF64 0));
     ("dimension_base.definition_point_1.y", (FF64 0));
     ("dimension_base.definition_point_1.z", (FF64 0));
     ("dimension_base.text_mid_point.x", (FF64 0));
     ("dimension_base.text_mid_point.y", (FF64 0));
     ("dimension_base.text_mid_point.z", (FF64 0));
     ("dimension_base.dimension_type", (FInt 1));
     ("dimension_base.attachment_point", (FInt 1));
     ("dimension_base.text_line_spacing_style", (FInt 1));
     ("dimension_base.text_line_spacing_factor", (FF64 4607182418800017408));
     ("dimension_base.actual_measurement", (FF64 0));
     ("dimension_base.text", (FStr (str "<>")));
     ("dimension_base.text_rotation_angle", (FF64 0));
     ("dimension_base.horizontal_direction_angle", (FF64 0));
     ("dimension_base.normal.x", (FF64 0));
     ("dimension_base.normal.y", (FF64 0));
     ("dimension_base.normal.z", (FF64 4607182418800017408));
     ("dimension_base.dimension_style_name", (FStr (str "STANDARD")));
     ("dimension_base.is_block_reference_referenced_by_this_block_only", (FBool false));
     ("dimension_base.is_ordinate_x_type", (FBool false));
     ("dimension_base.is_at_user_defined_location", (FBool false));
     ("RotatedDimension.insertion_point.x", (FF64 0));
     ("RotatedDimension.insertion_point.y", (FF64 0));
     ("RotatedDimension.insertion_point.z", (FF64 0));
     ("RotatedDimension.definition_point_2.x", (FF64 0));
     ("RotatedDimension.definition_point_2.y", (FF64 0));
     ("RotatedDimension.definition_point_2.z", (FF64 0));
     ("RotatedDimension.definition_point_3.x", (FF64 0));
     ("RotatedDimension.definition_point_3.y", (FF64 0));
     ("RotatedDimension.definition_point_3.z", (FF64 0));
     ("RotatedDimension.rotation_angle", (FF64 0));
     ("RotatedDimension.extension_line_angle", (FF64 0));
     ("RadialDimension.definition_point_2.x", (FF64 0));
     ("RadialDimension.definition_point_2.y", (FF64 0));
     ("RadialDimension.definition_point_2.z", (FF64 0));
     ("RadialDimension.leader_length", (FF64 0));
     ("DiameterDimension.definition_point_2.x", (FF64 0));
     ("DiameterDimension.definition_point_2.y", (FF64 0));
     ("DiameterDimension.definition_point_2.z", (FF64 0));
     ("DiameterDimension.leader_length", (FF64 0));
     ("AngularThreePointDimension.definition_point_2.x", (FF64 0));
     ("AngularThreePointDimension.definition_point_2.y", (FF64 0));
     ("AngularThreePointDimension.definition_point_2.z", (FF64 0));
     ("AngularThreePointDimension.definition_point_3.x", (FF64 0));
     ("AngularThreePointDimension.definition_point_3.y", (FF64 0));
     ("AngularThreePointDimension.definition_point_3.z", (FF64 0));
     ("AngularThreePointDimension.definition_point_4.x", (FF64 0));
     ("AngularThreePointDimension.definition_point_4.y", (FF64 0));
     ("AngularThreePointDimension.definition_point_4.z", (FF64 0));
     ("AngularThreePointDimension.definition_point_5.x", (FF64 0));
     ("AngularThreePointDimension.definition_point_5.y", (FF64 0));
     ("AngularThreePointDimension.definition_point_5.z", (FF64 0));
     ("definition_point_2.x", (FF64 0));
     ("definition_point_2.y", (FF64 0));
     ("definition_point_2.z", (FF64 0));
     ("definition_point_3.x", (FF64 0));
     ("definition_point_3.y", (FF64 0));
     ("definition_point_3.z", (FF64 0))] ++ common_defaults)
    ([mk_arm 280 [GEq 0 0] [ASet "dimension_base.version" (REnum16 e_Version 0)];
     mk_arm 2 [GEq 0 0] [ASet "dimension_base.block_name" RStr];
     mk_arm 10 [GEq 0 0] [ASet "dimension_base.definition_point_1.x" RF64];
     mk_arm 20 [GEq 0 0] [ASet "dimension_base.definition_point_1.y" RF64];
     mk_arm 30 [GEq 0 0] [ASet "dimension_base.definition_point_1.z" RF64];
     mk_arm 11 [GEq 0 0] [ASet "dimension_base.text_mid_point.x" RF64];
     mk_arm 21 [GEq 0 0] [ASet "dimension_base.text_mid_point.y" RF64];
     mk_arm 31 [GEq 0 0] [ASet "dimension_base.text_mid_point.z" RF64];
     mk_arm 71 [GEq 0 0] [ASet "dimension_base.attachment_point" (REnum16 e_AttachmentPoint 1)];
     mk_arm 72 [GEq 0 0] [ASet "dimension_base.text_line_spacing_style" (REnum16 e_TextLineSpacingStyle 1)];
     mk_arm 41 [GEq 0 0] [ASet "dimension_base.text_line_spacing_factor" RF64];
     mk_arm 42 [GEq 0 0] [ASet "dimension_base.actual_measurement" RF64];
     mk_arm 1 [GEq 0 0] [ASet "dimension_base.text" RStr];
     mk_arm 53 [GEq 0 0] [ASet "dimension_base.text_rotation_angle" RF64];
     mk_arm 51 [GEq 0 0] [ASet "dimension_base.horizontal_direction_angle" RF64];
     mk_arm 210 [GEq 0 0] [ASet "dimension_base.normal.x" RF64];
     mk_arm 220 [GEq 0 0] [ASet "dimension_base.normal.y" RF64];
     mk_arm 230 [GEq 0 0] [ASet "dimension_base.normal.z" RF64];
     mk_arm 3 [GEq 0 0] [ASet "dimension_base.dimension_style_name" RStr];
     mk_arm 70 [GEq 0 0] [AMulti ["dimension_base.dimension_type"; "dimension_base.is_block_reference_referenced_by_this_block_only"; "dimension_base.is_ordinate_x_type"; "dimension_base.is_at_user_defined_location"] MDimWord];
     mk_arm 100 [GEq 0 0] [AMark 0 [(str "AcDbAlignedDimension", 1); (str "AcDbRadialDimension", 2); (str "AcDbDiametricDimension", 3); (str "AcDb3PointAngularDimension", 4); (str "AcDbOrdinateDimension", 5)] None];
     mk_arm 12 [GEq 0 1] [ASet "RotatedDimension.insertion_point.x" RF64];
     mk_arm 22 [GEq 0 1] [ASet "RotatedDimension.insertion_point.y" RF64];
     mk_arm 32 [GEq 0 1] [ASet "RotatedDimension.insertion_point.z" RF64];
     mk_arm 13 [GEq 0 1] [ASet "RotatedDimension.definition_point_2.x" RF64];
     mk_arm 23 [GEq 0 1] [ASet "RotatedDimension.definition_point_2.y" RF64];
     mk_arm 33 [GEq 0 1] [ASet "RotatedDimension.definition_point_2.z" RF64];
     mk_arm 14 [GEq 0 1] [ASet "RotatedDimension.definition_point_3.x" RF64];
     mk_arm 24 [GEq 0 1] [ASet "RotatedDimension.definition_point_3.y" RF64];
     mk_arm 34 [GEq 0 1] [ASet "RotatedDimension.definition_point_3.z" RF64];
     mk_arm 50 [GEq 0 1] [ASet "RotatedDimension.rotation_angle" RF64];
     mk_arm 52 [GEq 0 1] [ASet "RotatedDimension.extension_line_angle" RF64];
     mk_arm 15 [GEq 0 2] [ASet "RadialDimension.definition_point_2.x" RF64];
     mk_arm 25 [GEq 0 2] [ASet "RadialDimension.definition_point_2.y" RF64];
     mk_arm 35 [GEq 0 2] [ASet "RadialDimension.definition_point_2.z" RF64];
     mk_arm 40 [GEq 0 2] [ASet "RadialDimension.leader_length" RF64];
     mk_arm 15 [GEq 0 3] [ASet "DiameterDimension.definition_point_2.x" RF64];
     mk_arm 25 [GEq 0 3] [ASet "DiameterDimension.definition_point_2.y" RF64];
     mk_arm 35 [GEq 0 3] [ASet "DiameterDimension.definition_point_2.z" RF64];
     mk_arm 40 [GEq 0 3] [ASet "DiameterDimension.leader_length" RF64];
     mk_arm 13 [GEq 0 4] [ASet "AngularThreePointDimension.definition_point_2.x" RF64];
     mk_arm 23 [GEq 0 4] [ASet "AngularThreePointDimension.definition_point_2.y" RF64];
     mk_arm 33 [GEq 0 4] [ASet "AngularThreePointDimension.definition_point_2.z" RF64];
     mk_arm 14 [GEq 0 4] [ASet "AngularThreePointDimension.definition_point_3.x" RF64];
     mk_arm 24 [GEq 0 4] [ASet "AngularThreePointDimension.definition_point_3.y" RF64];
     mk_arm 34 [GEq 0 4] [ASet "AngularThreePointDimension.definition_point_3.z" RF64];
     mk_arm 15 [GEq 0 4] [ASet "AngularThreePointDimension.definition_point_4.x" RF64];
     mk_arm 25 [GEq 0 4] [ASet "AngularThreePointDimension.definition_point_4.y" RF64];
     mk_arm 35 [GEq 0 4] [ASet "AngularThreePointDimension.definition_point_4.z" RF64];
     mk_arm 16 [GEq 0 4] [ASet "AngularThreePointDimension.definition_point_5.x" RF64];
     mk_arm 26 [GEq 0 4] [ASet "AngularThreePointDimension.definition_point_5.y" RF64];
     mk_arm 36 [GEq 0 4] [ASet "AngularThreePointDimension.definition_point_5.z" RF64];
     mk_arm 13 [GEq 0 5] [ASet "definition_point_2.x" RF64];
     mk_arm 23 [GEq 0 5] [ASet "definition_point_2.y" RF64];
     mk_arm 33 [GEq 0 5] [ASet "definition_point_2.z" RF64];
     mk_arm 14 [GEq 0 5] [ASet "definition_point_3.x" RF64];
     mk_arm 24 [GEq 0 5] [ASet "definition_point_3.y" RF64];
     mk_arm 34 [GEq 0 5] [ASet "definition_point_3.z" RF64]] ++ common_arms)
    [0] false [] [(0%nat, 5)]
    (common_cmds ++ [WConst [CMin R13] (mk_pair 100 (VStr (str "AcDbDimension")));
     WPair [CMin R2010] 280 "dimension_base.version" WI16;
     WPair [] 2 "dimension_base.block_name" WStr;
     WPair [] 10 "dimension_base.definition_point_1.x" WF64;
     WPair [] 20 "dimension_base.definition_point_1.y" WF64;
     WPair [] 30 "dimension_base.definition_point_1.z" WF64;
     WPair [] 11 "dimension_base.text_mid_point.x" WF64;
     WPair [] 21 "dimension_base.text_mid_point.y" WF64;
     WPair [] 31 "dimension_base.text_mid_point.z" WF64;
     WMulti [] 70 ["dimension_base.dimension_type"; "dimension_base.is_block_reference_referenced_by_this_block_only"; "dimension_base.is_ordinate_x_type"; "dimension_base.is_at_user_defined_location"] MDimWord;
     WPair [CMin R2000] 71 "dimension_base.attachment_point" WI16;
     WPair [CMin R2000; CNe [("dimension_base.text_line_spacing_style", (FInt 1))]] 72 "dimension_base.text_line_spacing_style" WI16;
     WPair [CMin R2000; CNe [("dimension_base.text_line_spacing_factor", (FF64 4607182418800017408))]] 41 "dimension_base.text_line_spacing_factor" WF64;
     WPair [CMin R2000; CNe [("dimension_base.actual_measurement", (FF64 0))]] 42 "dimension_base.actual_measurement" WF64;
     WPair [] 1 "dimension_base.text" WStr;
     WPair [CNe [("dimension_base.text_rotation_angle", (FF64 0))]] 53 "dimension_base.text_rotation_angle" WF64;
     WPair [CNe [("dimension_base.horizontal_direction_angle", (FF64 0))]] 51 "dimension_base.horizontal_direction_angle" WF64;
     WPair [CNe [("dimension_base.normal.x", (FF64 0)); ("dimension_base.normal.y", (FF64 0)); ("dimension_base.normal.z", (FF64 4607182418800017408))]] 210 "dimension_base.normal.x" WF64;
     WPair [CNe [("dimension_base.normal.x", (FF64 0)); ("dimension_base.normal.y", (FF64 0)); ("dimension_base.normal.z", (FF64 4607182418800017408))]] 220 "dimension_base.normal.y" WF64;
     WPair [CNe [("dimension_base.normal.x", (FF64 0)); ("dimension_base.normal.y", (FF64 0)); ("dimension_base.normal.z", (FF64 4607182418800017408))]] 230 "dimension_base.normal.z" WF64;
     WPair [CMin R12] 3 "dimension_base.dimension_style_name" WStr;
     WConst [] (mk_pair 100 (VStr (str "AcDbOrdinateDimension")));
     WPair [] 13 "definition_point_2.x" WF64;
     WPair [] 23 "definition_point_2.y" WF64;
     WPair [] 33 "definition_point_2.z" WF64;
     WPair [] 14 "definition_point_3.x" WF64;
     WPair [] 24 "definition_point_3.y" WF64;
     WPair [] 34 "definition_point_3.z" WF64;
     WXdatas [] "common.x_data"]))
  ([mk_field "dimension_base.version" (KEnum e_Version) true [280] [mk_win (Some R2010) None false None] [];
   mk_field "dimension_base.block_name" KStr true [2] [mk_win None None false None] [];
   mk_field "dimension_base.definition_point_1.x" KF64 true [10] [mk_win None None false None] [];
   mk_field "dimension_base.definition_point_1.y" KF64 true [20] [mk_win None None false None] [];
   mk_field "dimension_base.definition_point_1.z" KF64 true [30] [mk_win None None false None] [];
   mk_field "dimension_base.text_mid_point.x" KF64 true [11] [mk_win None None false None] [];
   mk_field "dimension_base.text_mid_point.y" KF64 true [21] [mk_win None None false None] [];
   mk_field "dimension_base.text_mid_point.z" KF64 true [31] [mk_win None None false None] [];
   mk_field "dimension_base.dimension_type" (KEnum e_DimensionType) true [70] [mk_win None None false None] [];
   mk_field "dimension_base.attachment_point" (KEnum e_AttachmentPoint) true [71] [mk_win (Some R2000) None false None] [];
   mk_field "dimension_base.text_line_spacing_style" (KEnum e_TextLineSpacingStyle) true [72] [mk_win (Some R2000) None false None] [];
   mk_field "dimension_base.text_line_spacing_factor" KF64 true [41] [mk_win (Some R2000) None false None] [];
   mk_field "dimension_base.actual_measurement" KF64 true [42] [mk_win (Some R2000) None false None] [];
   mk_field "dimension_base.text" KStr true [1] [mk_win None None false None] [];
   mk_field "dimension_base.text_rotation_angle" KF64 true [53] [mk_win None None false None] [];
   mk_field "dimension_base.horizontal_direction_angle" KF64 true [51] [mk_win None None false None] [];
   mk_field "dimension_base.normal.x" KF64 true [210] [mk_win None None false None] [];
   mk_field "dimension_base.normal.y" KF64 true [220] [mk_win None None false None] [];
   mk_field "dimension_base.normal.z" KF64 true [230] [mk_win None None false None] [];
   mk_field "dimension_base.dimension_style_name" KStr true [3] [mk_win (Some R12) None false None] [];
   mk_field "dimension_base.is_block_reference_referenced_by_this_block_only" KBool true [70] [mk_win None None false None] [];
   mk_field "dimension_base.is_ordinate_x_type" KBool true [70] [mk_win None None false None] [];
   mk_field "dimension_base.is_at_user_defined_location" KBool true [70] [mk_win None None false None] [];
   mk_field "definition_point_2.x" KF64 true [13] [mk_win None None false None] [];
   mk_field "definition_point_2.y" KF64 true [23] [mk_win None None false None] [];
   mk_field "definition_point_2.z" KF64 true [33] [mk_win None None false None] [];
   mk_field "definition_point_3.x" KF64 true [14] [mk_win None None false None] [];
   mk_field "definition_point_3.y" KF64 true [24] [mk_win None None false None] [];
   mk_field "definition_point_3.z" KF64 true [34] [mk_win None None false None] []] ++ common_fields).

(** spec/EntitiesSpec.xml:395-402, common fields 7-50; reader build/entity_generator.rs:452-535, writer build/entity_generator.rs:601-881. *)
Definition ent_ellipse : itype := mk_itype
  (mk_spec "Ellipse" (str "ELLIPSE") (Some R13) None
    ([("center.x", (FF64 0));
     ("center.y", (FF64 0));
     ("center.z", (FF64 0));
     ("major_axis.x", (FF64 4607182418800017408));
     ("major_axis.y", (FF64 0));
     ("major_axis.z", (FF64 0));
     ("normal.x", (FF64 0));
     ("normal.y", (FF64 0));
     ("normal.z", (FF64 4607182418800017408));
     ("minor_axis_ratio", (FF64 4607182418800017408));
     ("start_parameter", (FF64 0));
     ("end_parameter", (FF64 4618760256179416344))] ++ common_defaults)
    ([mk_arm 10 [] [ASet "center.x" RF64];
     mk_arm 20 [] [ASet "center.y" RF64];
     mk_arm 30 [] [ASet "center.z" RF64];
     mk_arm 11 [] [ASet "major_axis.x" RF64];
     mk_arm 21 [] [ASet "major_axis.y" RF64];
     mk_arm 31 [] [ASet "major_axis.z" RF64];
     mk_arm 210 [] [ASet "normal.x" RF64];
     mk_arm 220 [] [ASet "normal.y" RF64];
     mk_arm 230 [] [ASet "normal.z" RF64];
     mk_arm 40 [] [ASet "minor_axis_ratio" RF64];
     mk_arm 41 [] [ASet "start_parameter" RF64];
     mk_arm 42 [] [ASet "end_parameter" RF64]] ++ common_arms)
    [] false [] []
    (common_cmds ++ [WConst [CMin R13] (mk_pair 100 (VStr (str "AcDbEllipse")));
     WPair [] 10 "center.x" WF64;
     WPair [] 20 "center.y" WF64;
     WPair [] 30 "center.z" WF64;
     WPair [] 11 "major_axis.x" WF64;
     WPair [] 21 "major_axis.y" WF64;
     WPair [] 31 "major_axis.z" WF64;
     WPair [CNe [("normal.x", (FF64 0)); ("normal.y", (FF64 0)); ("normal.z", (FF64 4607182418800017408))]] 210 "normal.x" WF64;
     WPair [CNe [("normal.x", (FF64 0)); ("normal.y", (FF64 0)); ("normal.z", (FF64 4607182418800017408))]] 220 "normal.y" WF64;
     WPair [CNe [("normal.x", (FF64 0)); ("normal.y", (FF64 0)); ("normal.z", (FF64 4607182418800017408))]] 230 "normal.z" WF64;
     WPair [] 40 "minor_axis_ratio" WF64;
     WPair [] 41 "start_parameter" WF64;
     WPair [] 42 "end_parameter" WF64;
     WXdatas [] "common.x_data"]))
  ([mk_field "center.x" KF64 true [10] [mk_win None None false None] [];
   mk_field "center.y" KF64 true [20] [mk_win None None false None] [];
   mk_field "center.z" KF64 true [30] [mk_win None None false None] [];
   mk_field "major_axis.x" KF64 true [11] [mk_win None None false None] [];
   mk_field "major_axis.y" KF64 true [21] [mk_win None None false None] [];
   mk_field "major_axis.z" KF64 true [31] [mk_win None None false None] [];
   mk_field "normal.x" KF64 true [210] [mk_win None None false None] [];
   mk_field "normal.y" KF64 true [220] [mk_win None None false None] [];
   mk_field "normal.z" KF64 true [230] [mk_win None None false None] [];
   mk_field "minor_axis_ratio" KF64 true [40] [mk_win None None false None] [];
   mk_field "start_parameter" KF64 true [41] [mk_win None None false None] [];
   mk_field "end_parameter" KF64 true [42] [mk_win None None false None] []] ++ common_fields).

(** spec/EntitiesSpec.xml:414-425, common fields 7-50; reader build/entity_generator.rs:452-535, writer build/entity_generator.rs:601-881. *)
Definition ent_helix : itype := mk_itype
  (mk_spec "Helix" (str "HELIX") (Some R2007) None
    ([("major_release_number", (FInt 0));
     ("maintainence_release_number", (FInt 0));
     ("axis_base_point.x", (FF64 0));
     ("axis_base_point.y", (FF64 0));
     ("axis_base_point.z", (FF64 0));
     ("start_point.x", (FF64 0));
     ("start_point.y", (FF64 0));
     ("start_point.z", (FF64 0));
     ("axis_vector.x", (FF64 0));
     ("axis_vector.y", (FF64 0));
     ("axis_vector.z", (FF64 4607182418800017408));
     ("radius", (FF64 0));
     ("number_of_turns", (FF64 0));
     ("turn_height", (FF64 0));
     ("is_right_handed", (FBool false));
     ("constraint", (FInt 0))] ++ common_defaults)
    ([mk_arm 90 [] [ASet "major_release_number" RI32];
     mk_arm 91 [] [ASet "maintainence_release_number" RI32];
     mk_arm 10 [] [ASet "axis_base_point.x" RF64];
     mk_arm 20 [] [ASet "axis_base_point.y" RF64];
     mk_arm 30 [] [ASet "axis_base_point.z" RF64];
     mk_arm 11 [] [ASet "start_point.x" RF64];
     mk_arm 21 [] [ASet "start_point.y" RF64];
     mk_arm 31 [] [ASet "start_point.z" RF64];
     mk_arm 12 [] [ASet "axis_vector.x" RF64];
     mk_arm 22 [] [ASet "axis_vector.y" RF64];
     mk_arm 32 [] [ASet "axis_vector.z" RF64];
     mk_arm 40 [] [ASet "radius" RF64];
     mk_arm 41 [] [ASet "number_of_turns" RF64];
     mk_arm 42 [] [ASet "turn_height" RF64];
     mk_arm 290 [] [ASet "is_right_handed" RBool];
     mk_arm 280 [] [ASet "constraint" (REnum16 e_HelixConstraint 0)]] ++ common_arms)
    [] false [] []
    (common_cmds ++ [WConst [CMin R13] (mk_pair 100 (VStr (str "AcDbHelix")));
     WPair [] 90 "major_release_number" WI32;
     WPair [] 91 "maintainence_release_number" WI32;
     WPair [] 10 "axis_base_point.x" WF64;
     WPair [] 20 "axis_base_point.y" WF64;
     WPair [] 30 "axis_base_point.z" WF64;
     WPair [] 11 "start_point.x" WF64;
     WPair [] 21 "start_point.y" WF64;
     WPair [] 31 "start_point.z" WF64;
     WPair [] 12 "axis_vector.x" WF64;
     WPair [] 22 "axis_vector.y" WF64;
     WPair [] 32 "axis_vector.z" WF64;
     WPair [] 40 "radius" WF64;
     WPair [] 41 "number_of_turns" WF64;
     WPair [] 42 "turn_height" WF64;
     WPair [] 290 "is_right_handed" WBool;
     WPair [] 280 "constraint" WI16;
     WXdatas [] "common.x_data"]))
  ([mk_field "major_release_number" (KInt (-2147483648) 2147483647) true [90] [mk_win None None false None] [];
   mk_field "maintainence_release_number" (KInt (-2147483648) 2147483647) true [91] [mk_win None None false None] [];
   mk_field "axis_base_point.x" KF64 true [10] [mk_win None None false None] [];
   mk_field "axis_base_point.y" KF64 true [20] [mk_win None None false None] [];
   mk_field "axis_base_point.z" KF64 true [30] [mk_win None None false None] [];
   mk_field "start_point.x" KF64 true [11] [mk_win None None false None] [];
   mk_field "start_point.y" KF64 true [21] [mk_win None None false None] [];
   mk_field "start_point.z" KF64 true [31] [mk_win None None false None] [];
   mk_field "axis_vector.x" KF64 true [12] [mk_win None None false None] [];
   mk_field "axis_vector.y" KF64 true [22] [mk_win None None false None] [];
   mk_field "axis_vector.z" KF64 true [32] [mk_win None None false None] [];
   mk_field "radius" KF64 true [40] [mk_win None None false None] [];
   mk_field "number_of_turns" KF64 true [41] [mk_win None None false None] [];
   mk_field "turn_height" KF64 true [42] [mk_win None None false None] [];
   mk_field "is_right_handed" KBool true [290] [mk_win None None false None] [];
   mk_field "constraint" (KEnum e_HelixConstraint) true [280] [mk_win None None false None] []] ++ common_fields).

(** spec/EntitiesSpec.xml:431-477, common fields 7-50; reader build/entity_generator.rs:452-535, writer build/entity_generator.rs:601-881. *)
Definition ent_image : itype := mk_itype
  (mk_spec "Image" (str "IMAGE") (Some R14) None
    ([("class_version", (FInt 0));
     ("location.x", (FF64 0));
     ("location.y", (FF64 0));
     ("location.z", (FF64 0));
     ("u_vector.x", (FF64 4607182418800017408));
     ("u_vector.y", (FF64 0));
     ("u_vector.z", (FF64 0));
     ("v_vector.x", (FF64 0));
     ("v_vector.y", (FF64 4607182418800017408));
     ("v_vector.z", (FF64 0));
     ("image_size.x", (FF64 0));
     ("image_size.y", (FF64 0));
     ("image_size.z", (FF64 0));
     ("image_def_reference", (FStr []));
     ("display_options_flags", (FInt 0));
     ("use_clipping", (FBool true));
     ("brightness", (FInt 50));
     ("contrast", (FInt 50));
     ("fade", (FInt 0));
     ("image_def_reactor_reference", (FStr []));
     ("clipping_type", (FInt 1));
     ("clipping_vertex_count", (FInt 0));
     ("__clipping_vertices_x", (FList []));
     ("__clipping_vertices_y", (FList []));
     ("clipping_vertices", (FList []));
     ("is_inside_clipping", (FBool false))] ++ common_defaults)
    ([mk_arm 90 [] [ASet "class_version" RI32];
     mk_arm 10 [] [ASet "location.x" RF64];
     mk_arm 20 [] [ASet "location.y" RF64];
     mk_arm 30 [] [ASet "location.z" RF64];
     mk_arm 11 [] [ASet "u_vector.x" RF64];
     mk_arm 21 [] [ASet "u_vector.y" RF64];
     mk_arm 31 [] [ASet "u_vector.z" RF64];
     mk_arm 12 [] [ASet "v_vector.x" RF64];
     mk_arm 22 [] [ASet "v_vector.y" RF64];
     mk_arm 32 [] [ASet "v_vector.z" RF64];
     mk_arm 13 [] [ASet "image_size.x" RF64];
     mk_arm 23 [] [ASet "image_size.y" RF64];
     mk_arm 340 [] [ASet "image_def_reference" RStr];
     mk_arm 70 [] [ASet "display_options_flags" RI16];
     mk_arm 280 [] [ASet "use_clipping" RAsBool];
     mk_arm 281 [] [ASet "brightness" RI16];
     mk_arm 282 [] [ASet "contrast" RI16];
     mk_arm 283 [] [ASet "fade" RI16];
     mk_arm 360 [] [ASet "image_def_reactor_reference" RStr];
     mk_arm 71 [] [ASet "clipping_type" (REnum16 e_ImageClippingBoundaryType 1)];
     mk_arm 91 [] [ASet "clipping_vertex_count" RI32];
     mk_arm 14 [] [APush "__clipping_vertices_x" RF64];
     mk_arm 24 [] [APush "__clipping_vertices_y" RF64];
     mk_arm 290 [] [ASet "is_inside_clipping" RBool]] ++ common_arms)
    [] false [PCombine ["__clipping_vertices_x"; "__clipping_vertices_y"] "clipping_vertices"] []
    (common_cmds ++ [WConst [] (mk_pair 100 (VStr (str "AcDbRasterImage")));
     WPair [] 90 "class_version" WI32;
     WPair [] 10 "location.x" WF64;
     WPair [] 20 "location.y" WF64;
     WPair [] 30 "location.z" WF64;
     WPair [] 11 "u_vector.x" WF64;
     WPair [] 21 "u_vector.y" WF64;
     WPair [] 31 "u_vector.z" WF64;
     WPair [] 12 "v_vector.x" WF64;
     WPair [] 22 "v_vector.y" WF64;
     WPair [] 32 "v_vector.z" WF64;
     WPair [] 13 "image_size.x" WF64;
     WPair [] 23 "image_size.y" WF64;
     WPair [] 340 "image_def_reference" WStr;
     WPair [] 70 "display_options_flags" WI16;
     WPair [] 280 "use_clipping" WAsI16;
     WPair [] 281 "brightness" WI16;
     WPair [] 282 "contrast" WI16;
     WPair [] 283 "fade" WI16;
     WPair [] 360 "image_def_reactor_reference" WStr;
     WPair [] 71 "clipping_type" WI16;
     WLen [] 91 "clipping_vertices" LI32;
     WEachRec [] "clipping_vertices" [mk_part [] 14 0 WF64; mk_part [] 24 1 WF64];
     WPair [CMin R2010] 290 "is_inside_clipping" WBool;
     WXdatas [] "common.x_data"]))
  ([mk_field "class_version" (KInt (-2147483648) 2147483647) true [90] [mk_win None None false None] [];
   mk_field "location.x" KF64 true [10] [mk_win None None false None] [];
   mk_field "location.y" KF64 true [20] [mk_win None None false None] [];
   mk_field "location.z" KF64 true [30] [mk_win None None false None] [];
   mk_field "u_vector.x" KF64 true [11] [mk_win None None false None] [];
   mk_field "u_vector.y" KF64 true [21] [mk_win None None false None] [];
   mk_field "u_vector.z" KF64 true [31] [mk_win None None false None] [];
   mk_field "v_vector.x" KF64 true [12] [mk_win None None false None] [];
   mk_field "v_vector.y" KF64 true [22] [mk_win None None false None] [];
   mk_field "v_vector.z" KF64 true [32] [mk_win None None false None] [];
   mk_field "image_size.x" KF64 true [13] [mk_win None None false None] [];
   mk_field "image_size.y" KF64 true [23] [mk_win None None false None] [];
   mk_field "image_size.z" KF64 true [] [] [];
   mk_field "image_def_reference" KStr true [340] [mk_win None None false None] [];
   mk_field "display_options_flags" (KInt (-2147483648) 2147483647) true [70] [mk_win None None false None] [];
   mk_field "use_clipping" KBool true [280] [mk_win None None false None] [];
   mk_field "brightness" (KInt (-32768) 32767) true [281] [mk_win None None false None] [];
   mk_field "contrast" (KInt (-32768) 32767) true [282] [mk_win None None false None] [];
   mk_field "fade" (KInt (-32768) 32767) true [283] [mk_win None None false None] [];
   mk_field "image_def_reactor_reference" KStr true [360] [mk_win None None false None] [];
   mk_field "clipping_type" (KEnum e_ImageClippingBoundaryType) true [71] [mk_win None None false None] [];
   mk_field "clipping_vertex_count" (KInt (-2147483648) 2147483647) true [91] [mk_win None None false None] [];
   mk_field "__clipping_vertices_x" (KList KF64) false [14] [mk_win None None false None] [];
   mk_field "__clipping_vertices_y" (KList KF64) false [24] [mk_win None None false None] [];
   mk_field "clipping_vertices" (KList (KRec [KF64; KF64; KConst (FF64 0)])) true [14] [mk_win None None false None] [];
   mk_field "is_inside_clipping" KBool true [290] [mk_win (Some R2010) None false None] []] ++ common_fields).

(** spec/EntitiesSpec.xml:483-513, common fields 7-50; reader build/entity_generator.rs:452-535, writer build/entity_generator.rs:601-881. Without attributes. *)
Definition ent_insert : itype := mk_itype
  (mk_spec "Insert" (str "INSERT") None None
    ([("__has_attributes", (FBool false));
     ("name", (FStr []));
     ("location.x", (FF64 0));
     ("location.y", (FF64 0));
     ("location.z", (FF64 0));
     ("x_scale_factor", (FF64 4607182418800017408));
     ("y_scale_factor", (FF64 4607182418800017408));
     ("z_scale_factor", (FF64 4607182418800017408));
     ("rotation", (FF64 0));
     ("column_count", (FInt 1));
     ("row_count", (FInt 1));
     ("column_spacing", (FF64 0));
     ("row_spacing", (FF64 0));
     ("extrusion_direction.x", (FF64 0));
     ("extrusion_direction.y", (FF64 0));
     ("extrusion_direction.z", (FF64 4607182418800017408))] ++ common_defaults)
    ([mk_arm 66 [] [ASet "__has_attributes" RAsBool];
     mk_arm 2 [] [ASet "name" RStr];
     mk_arm 10 [] [ASet "location.x" RF64];
     mk_arm 20 [] [ASet "location.y" RF64];
     mk_arm 30 [] [ASet "location.z" RF64];
     mk_arm 41 [] [ASet "x_scale_factor" RF64];
     mk_arm 42 [] [ASet "y_scale_factor" RF64];
     mk_arm 43 [] [ASet "z_scale_factor" RF64];
     mk_arm 50 [] [ASet "rotation" RF64];
     mk_arm 70 [] [ASet "column_count" RI16];
     mk_arm 71 [] [ASet "row_count" RI16];
     mk_arm 44 [] [ASet "column_spacing" RF64];
     mk_arm 45 [] [ASet "row_spacing" RF64];
     mk_arm 210 [] [ASet "extrusion_direction.x" RF64];
     mk_arm 220 [] [ASet "extrusion_direction.y" RF64];
     mk_arm 230 [] [ASet "extrusion_direction.z" RF64]] ++ common_arms)
    [] false [] []
    (common_cmds ++ [WConst [CMin R13] (mk_pair 100 (VStr (str "AcDbBlockReference")));
     WPair [] 2 "name" WStr;
     WPair [] 10 "location.x" WF64;
     WPair [] 20 "location.y" WF64;
     WPair [] 30 "location.z" WF64;
     WPair [CNe [("x_scale_factor", (FF64 4607182418800017408))]] 41 "x_scale_factor" WF64;
     WPair [CNe [("y_scale_factor", (FF64 4607182418800017408))]] 42 "y_scale_factor" WF64;
     WPair [CNe [("z_scale_factor", (FF64 4607182418800017408))]] 43 "z_scale_factor" WF64;
     WPair [CNe [("rotation", (FF64 0))]] 50 "rotation" WF64;
     WPair [CNe [("column_count", (FInt 1))]] 70 "column_count" WI16;
     WPair [CNe [("row_count", (FInt 1))]] 71 "row_count" WI16;
     WPair [CNe [("column_spacing", (FF64 0))]] 44 "column_spacing" WF64;
     WPair [CNe [("row_spacing", (FF64 0))]] 45 "row_spacing" WF64;
     WPair [CMin R12] 210 "extrusion_direction.x" WF64;
     WPair [CMin R12] 220 "extrusion_direction.y" WF64;
     WPair [CMin R12] 230 "extrusion_direction.z" WF64;
     WXdatas [] "common.x_data"]))
  ([mk_field "__has_attributes" KBool false [66] [mk_win None None false None] [];
   mk_field "name" KStr true [2] [mk_win None None false None] [];
   mk_field "location.x" KF64 true [10] [mk_win None None false None] [];
   mk_field "location.y" KF64 true [20] [mk_win None None false None] [];
   mk_field "location.z" KF64 true [30] [mk_win None None false None] [];
   mk_field "x_scale_factor" KF64 true [41] [mk_win None None false None] [];
   mk_field "y_scale_factor" KF64 true [42] [mk_win None None false None] [];
   mk_field "z_scale_factor" KF64 true [43] [mk_win None None false None] [];
   mk_field "rotation" KF64 true [50] [mk_win None None false None] [];
   mk_field "column_count" (KInt (-32768) 32767) true [70] [mk_win None None false None] [];
   mk_field "row_count" (KInt (-32768) 32767) true [71] [mk_win None None false None] [];
   mk_field "column_spacing" KF64 true [44] [mk_win None None false None] [];
   mk_field "row_spacing" KF64 true [45] [mk_win None None false None] [];
   mk_field "extrusion_direction.x" KF64 true [210] [mk_win (Some R12) None false None] [];
   mk_field "extrusion_direction.y" KF64 true [220] [mk_win (Some R12) None false None] [];
   mk_field "extrusion_direction.z" KF64 true [230] [mk_win (Some R12) None false None] []] ++ common_fields).

(** spec/EntitiesSpec.xml:483-513, common fields 7-50; reader build/entity_generator.rs:452-535, writer build/entity_generator.rs:601-881. With attributes: they and the end are written before the x-data (src/entity.rs:1556-1569), so the item ends before them. *)
Definition ent_insert_group : itype := mk_itype
  (mk_spec "InsertWithAttributes" (str "INSERT") None None
    ([("__has_attributes", (FBool false));
     ("name", (FStr []));
     ("location.x", (FF64 0));
     ("location.y", (FF64 0));
     ("location.z", (FF64 0));
     ("x_scale_factor", (FF64 4607182418800017408));
     ("y_scale_factor", (FF64 4607182418800017408));
     ("z_scale_factor", (FF64 4607182418800017408));
     ("rotation", (FF64 0));
     ("column_count", (FInt 1));
     ("row_count", (FInt 1));
     ("column_spacing", (FF64 0));
     ("row_spacing", (FF64 0));
     ("extrusion_direction.x", (FF64 0));
     ("extrusion_direction.y", (FF64 0));
     ("extrusion_direction.z", (FF64 4607182418800017408))] ++ common_defaults)
    ([mk_arm 66 [] [ASet "__has_attributes" RAsBool];
     mk_arm 2 [] [ASet "name" RStr];
     mk_arm 10 [] [ASet "location.x" RF64];
     mk_arm 20 [] [ASet "location.y" RF64];
     mk_arm 30 [] [ASet "location.z" RF64];
     mk_arm 41 [] [ASet "x_scale_factor" RF64];
     mk_arm 42 [] [ASet "y_scale_factor" RF64];
     mk_arm 43 [] [ASet "z_scale_factor" RF64];
     mk_arm 50 [] [ASet "rotation" RF64];
     mk_arm 70 [] [ASet "column_count" RI16];
     mk_arm 71 [] [ASet "row_count" RI16];
     mk_arm 44 [] [ASet "column_spacing" RF64];
     mk_arm 45 [] [ASet "row_spacing" RF64];
     mk_arm 210 [] [ASet "extrusion_direction.x" RF64];
     mk_arm 220 [] [ASet "extrusion_direction.y" RF64];
     mk_arm 230 [] [ASet "extrusion_direction.z" RF64]] ++ common_arms)
    [] false [] []
    (common_cmds ++ [WConst [CMin R13] (mk_pair 100 (VStr (str "AcDbBlockReference")));
     WConst [] (mk_pair 66 (VShort 1));
     WPair [] 2 "name" WStr;
     WPair [] 10 "location.x" WF64;
     WPair [] 20 "location.y" WF64;
     WPair [] 30 "location.z" WF64;
     WPair [CNe [("x_scale_factor", (FF64 4607182418800017408))]] 41 "x_scale_factor" WF64;
     WPair [CNe [("y_scale_factor", (FF64 4607182418800017408))]] 42 "y_scale_factor" WF64;
     WPair [CNe [("z_scale_factor", (FF64 4607182418800017408))]] 43 "z_scale_factor" WF64;
     WPair [CNe [("rotation", (FF64 0))]] 50 "rotation" WF64;
     WPair [CNe [("column_count", (FInt 1))]] 70 "column_count" WI16;
     WPair [CNe [("row_count", (FInt 1))]] 71 "row_count" WI16;
     WPair [CNe [("column_spacing", (FF64 0))]] 44 "column_spacing" WF64;
     WPair [CNe [("row_spacing", (FF64 0))]] 45 "row_spacing" WF64;
     WPair [CMin R12] 210 "extrusion_direction.x" WF64;
     WPair [CMin R12] 220 "extrusion_direction.y" WF64;
     WPair [CMin R12] 230 "extrusion_direction.z" WF64]))
  ([mk_field "__has_attributes" KBool false [66] [mk_win None None false None] [];
   mk_field "name" KStr true [2] [mk_win None None false None] [];
   mk_field "location.x" KF64 true [10] [mk_win None None false None] [];
   mk_field "location.y" KF64 true [20] [mk_win None None false None] [];
   mk_field "location.z" KF64 true [30] [mk_win None None false None] [];
   mk_field "x_scale_factor" KF64 true [41] [mk_win None None false None] [];
   mk_field "y_scale_factor" KF64 true [42] [mk_win None None false None] [];
   mk_field "z_scale_factor" KF64 true [43] [mk_win None None false None] [];
   mk_field "rotation" KF64 true [50] [mk_win None None false None] [];
   mk_field "column_count" (KInt (-32768) 32767) true [70] [mk_win None None false None] [];
   mk_field "row_count" (KInt (-32768) 32767) true [71] [mk_win None None false None] [];
   mk_field "column_spacing" KF64 true [44] [mk_win None None false None] [];
   mk_field "row_spacing" KF64 true [45] [mk_win None None false None] [];
   mk_field "extrusion_direction.x" KF64 true [210] [mk_win (Some R12) None false None] [];
   mk_field "extrusion_direction.y" KF64 true [220] [mk_win (Some R12) None false None] [];
   mk_field "extrusion_direction.z" KF64 true [230] [mk_win (Some R12) None false None] []] ++ common_fields).

(** spec/EntitiesSpec.xml:519-562, common fields 7-50; reader build/entity_generator.rs:452-535, writer build/entity_generator.rs:601-881. *)
Definition ent_leader : itype := mk_itype
  (mk_spec "Leader" (str "LEADER") (Some R13) None
    ([("dimension_style_name", (FStr []));
     ("use_arrowheads", (FBool true));
     ("path_type", (FInt 0));
     ("annotation_type", (FInt 3));
     ("hookline_direction", (FInt 0));
     ("use_hookline", (FBool true));
     ("text_annotation_height", (FF64 4607182418800017408));
     ("text_annotation_width", (FF64 4607182418800017408));
     ("vertex_count", (FInt 0));
     ("__vertices_x", (FList []));
     ("__vertices_y", (FList []));
     ("__vertices_z", (FList []));
     ("vertices", (FList []));
     ("override_color", (FInt 0));
     ("associated_annotation_reference", (FStr []));
     ("normal.x", (FF64 0));
     ("normal.y", (FF64 0));
     ("normal.z", (FF64 4607182418800017408));
     ("right.x", (FF64 4607182418800017408));
     ("right.y", (FF64 0));
     ("right.z", (FF64 0));
     ("block_offset.x", (FF64 0));
     ("block_offset.y", (FF64 0));
     ("block_offset.z", (FF64 0));
     ("annotation_offset.x", (FF64 4607182418800017408));
     ("annotation_offset.y", (FF64 0));
     ("annotation_offset.z", (FF64 0))] ++ common_defaults)
    ([mk_arm 3 [] [ASet "dimension_style_name" RStr];
     mk_arm 71 [] [ASet "use_arrowheads" RAsBool];
     mk_arm 72 [] [ASet "path_type" (REnum16 e_LeaderPathType 0)];
     mk_arm 73 [] [ASet "annotation_type" (REnum16 e_LeaderCreationAnnotationType 3)];
     mk_arm 74 [] [ASet "hookline_direction" (REnum16 e_LeaderHooklineDirection 0)];
     mk_arm 75 [] [ASet "use_hookline" RAsBool];
     mk_arm 40 [] [ASet "text_annotation_height" RF64];
     mk_arm 41 [] [ASet "text_annotation_width" RF64];
     mk_arm 76 [] [ASet "vertex_count" RI16];
     mk_arm 10 [] [APush "__vertices_x" RF64];
     mk_arm 20 [] [APush "__vertices_y" RF64];
     mk_arm 30 [] [APush "__vertices_z" RF64];
     mk_arm 77 [] [ASet "override_color" RI16];
     mk_arm 340 [] [ASet "associated_annotation_reference" RStr];
     mk_arm 210 [] [ASet "normal.x" RF64];
     mk_arm 220 [] [ASet "normal.y" RF64];
     mk_arm 230 [] [ASet "normal.z" RF64];
     mk_arm 211 [] [ASet "right.x" RF64];
     mk_arm 221 [] [ASet "right.y" RF64];
     mk_arm 231 [] [ASet "right.z" RF64];
     mk_arm 212 [] [ASet "block_offset.x" RF64];
     mk_arm 222 [] [ASet "block_offset.y" RF64];
     mk_arm 232 [] [ASet "block_offset.z" RF64];
     mk_arm 213 [] [ASet "annotation_offset.x" RF64];
     mk_arm 223 [] [ASet "annotation_offset.y" RF64];
     mk_arm 233 [] [ASet "annotation_offset.z" RF64]] ++ common_arms)
    [] false [PCombine ["__vertices_x"; "__vertices_y"; "__vertices_z"] "vertices"] []
    (common_cmds ++ [WConst [] (mk_pair 100 (VStr (str "AcDbLeader")));
     WPair [] 3 "dimension_style_name" WStr;
     WPair [] 71 "use_arrowheads" WAsI16;
     WPair [] 72 "path_type" WI16;
     WPair [] 73 "annotation_type" WI16;
     WPair [] 74 "hookline_direction" WI16;
     WPair [] 75 "use_hookline" WAsI16;
     WPair [] 40 "text_annotation_height" WF64;
     WPair [] 41 "text_annotation_width" WF64;
     WLen [] 76 "vertices" LI16;
     WEachRec [] "vertices" [mk_part [] 10 0 WF64; mk_part [] 20 1 WF64; mk_part [] 30 2 WF64];
     WPair [CNe [("override_color", (FInt 0))]] 77 "override_color" WI16;
     WPair [] 340 "associated_annotation_reference" WStr;
     WPair [] 210 "normal.x" WF64;
     WPair [] 220 "normal.y" WF64;
     WPair [] 230 "normal.z" WF64;
     WPair [] 211 "right.x" WF64;
     WPair [] 221 "right.y" WF64;
     WPair [] 231 "right.z" WF64;
     WPair [] 212 "block_offset.x" WF64;
     WPair [] 222 "block_offset.y" WF64;
     WPair [] 232 "block_offset.z" WF64;
     WPair [CMin R14] 213 "annotation_offset.x" WF64;
     WPair [CMin R14] 223 "annotation_offset.y" WF64;
     WPair [CMin R14] 233 "annotation_offset.z" WF64;
     WXdatas [] "common.x_data"]))
  ([mk_field "dimension_style_name" KStr true [3] [mk_win None None false None] [];
   mk_field "use_arrowheads" KBool true [71] [mk_win None None false None] [];
   mk_field "path_type" (KEnum e_LeaderPathType) true [72] [mk_win None None false None] [];
   mk_field "annotation_type" (KEnum e_LeaderCreationAnnotationType) true [73] [mk_win None None false None] [];
   mk_field "hookline_direction" (KEnum e_LeaderHooklineDirection) true [74] [mk_win None None false None] [];
   mk_field "use_hookline" KBool true [75] [mk_win None None false None] [];
   mk_field "text_annotation_height" KF64 true [40] [mk_win None None false None] [];
   mk_field "text_annotation_width" KF64 true [41] [mk_win None None false None] [];
   mk_field "vertex_count" (KInt (-2147483648) 2147483647) true [76] [mk_win None None false None] [];
   mk_field "__vertices_x" (KList KF64) false [10] [mk_win None None false None] [];
   mk_field "__vertices_y" (KList KF64) false [20] [mk_win None None false None] [];
   mk_field "__vertices_z" (KList KF64) false [30] [mk_win None None false None] [];
   mk_field "vertices" (KList (KRec [KF64; KF64; KF64])) true [10] [mk_win None None false None] [];
   mk_field "override_color" (KInt (-32768) 32767) true [77] [mk_win None None false None] [];
   mk_field "associated_annotation_reference" KStr true [340] [mk_win None None false None] [];
   mk_field "normal.x" KF64 true [210] [mk_win None None false None] [];
   mk_field "normal.y" KF64 true [220] [mk_win None None false None] [];
   mk_field "normal.z" KF64 true [230] [mk_win None None false None] [];
   mk_field "right.x" KF64 true [211] [mk_win None None false None] [];
   mk_field "right.y" KF64 true [221] [mk_win None None false None] [];
   mk_field "right.z" KF64 true [231] [mk_win None None false None] [];
   mk_field "block_offset.x" KF64 true [212] [mk_win None None false None] [];
   mk_field "block_offset.y" KF64 true [222] [mk_win None None false None] [];
   mk_field "block_offset.z" KF64 true [232] [mk_win None None false None] [];
   mk_field "annotation_offset.x" KF64 true [213] [mk_win (Some R14) None false None] [];
   mk_field "annotation_offset.y" KF64 true [223] [mk_win (Some R14) None false None] [];
   mk_field "annotation_offset.z" KF64 true [233] [mk_win (Some R14) None false None] []] ++ common_fields).

(** spec/EntitiesSpec.xml:568-587, common fields 7-50; reader build/entity_generator.rs:452-535, writer build/entity_generator.rs:601-881. *)
Definition ent_light : itype := mk_itype
  (mk_spec "Light" (str "LIGHT") (Some R2007) None
    ([("version_number", (FInt 0));
     ("name", (FStr []));
     ("light_type", (FInt 1));
     ("is_active", (FBool true));
     ("plot_glyph", (FBool true));
     ("intensity", (FF64 4607182418800017408));
     ("position.x", (FF64 0));
     ("position.y", (FF64 0));
     ("position.z", (FF64 0));
     ("target_location.x", (FF64 0));
     ("target_location.y", (FF64 0));
     ("target_location.z", (FF64 0));
     ("attentuation_type", (FInt 0));
     ("use_attenuation_limits", (FBool true));
     ("attenuation_start_limit", (FF64 0));
     ("attenuation_end_limit", (FF64 4607182418800017408));
     ("hotspot_angle", (FF64 0));
     ("falloff_angle", (FF64 0));
     ("cast_shadows", (FBool true));
     ("shadow_type", (FInt 0));
     ("shadow_map_size", (FInt 0));
     ("shadow_map_softness", (FInt 0))] ++ common_defaults)
    ([mk_arm 90 [] [ASet "version_number" RI32];
     mk_arm 1 [] [ASet "name" RStr];
     mk_arm 70 [] [ASet "light_type" (REnum16 e_LightType 1)];
     mk_arm 290 [] [ASet "is_active" RBool];
     mk_arm 291 [] [ASet "plot_glyph" RBool];
     mk_arm 40 [] [ASet "intensity" RF64];
     mk_arm 10 [] [ASet "position.x" RF64];
     mk_arm 20 [] [ASet "position.y" RF64];
     mk_arm 30 [] [ASet "position.z" RF64];
     mk_arm 11 [] [ASet "target_location.x" RF64];
     mk_arm 21 [] [ASet "target_location.y" RF64];
     mk_arm 31 [] [ASet "target_location.z" RF64];
     mk_arm 72 [] [ASet "attentuation_type" (REnum16 e_LightAttenuationType 0)];
     mk_arm 292 [] [ASet "use_attenuation_limits" RBool];
     mk_arm 41 [] [ASet "attenuation_start_limit" RF64];
     mk_arm 42 [] [ASet "attenuation_end_limit" RF64];
     mk_arm 50 [] [ASet "hotspot_angle" RF64];
     mk_arm 51 [] [ASet "falloff_angle" RF64];
     mk_arm 293 [] [ASet "cast_shadows" RBool];
     mk_arm 73 [] [ASet "shadow_type" (REnum16 e_ShadowType 0)];
     mk_arm 91 [] [ASet "shadow_map_size" RI32];
     mk_arm 280 [] [ASet "shadow_map_softness" RI16]] ++ common_arms)
    [] false [] []
    (common_cmds ++ [WConst [CMin R13] (mk_pair 100 (VStr (str "AcDbLight")));
     WPair [] 90 "version_number" WI32;
     WPair [] 1 "name" WStr;
     WPair [] 70 "light_type" WI16;
     WPair [] 290 "is_active" WBool;
     WPair [] 291 "plot_glyph" WBool;
     WPair [] 40 "intensity" WF64;
     WPair [] 10 "position.x" WF64;
     WPair [] 20 "position.y" WF64;
     WPair [] 30 "position.z" WF64;
     WPair [] 11 "target_location.x" WF64;
     WPair [] 21 "target_location.y" WF64;
     WPair [] 31 "target_location.z" WF64;
     WPair [] 72 "attentuation_type" WI16;
     WPair [] 292 "use_attenuation_limits" WBool;
     WPair [] 41 "attenuation_start_limit" WF64;
     WPair [] 42 "attenuation_end_limit" WF64;
     WPair [] 50 "hotspot_angle" WF64;
     WPair [] 51 "falloff_angle" WF64;
     WPair [] 293 "cast_shadows" WBool;
     WPair [] 73 "shadow_type" WI16;
     WPair [] 91 "shadow_map_size" WI32;
     WPair [] 280 "shadow_map_softness" WI16;
     WXdatas [] "common.x_data"]))
  ([mk_field "version_number" (KInt (-2147483648) 2147483647) true [90] [mk_win None None false None] [];
   mk_field "name" KStr true [1] [mk_win None None false None] [];
   mk_field "light_type" (KEnum e_LightType) true [70] [mk_win None None false None] [];
   mk_field "is_active" KBool true [290] [mk_win None None false None] [];
   mk_field "plot_glyph" KBool true [291] [mk_win None None false None] [];
   mk_field "intensity" KF64 true [40] [mk_win None None false None] [];
   mk_field "position.x" KF64 true [10] [mk_win None None false None] [];
   mk_field "position.y" KF64 true [20] [mk_win None None false None] [];
   mk_field "position.z" KF64 true [30] [mk_win None None false None] [];
   mk_field "target_location.x" KF64 true [11] [mk_win None None false None] [];
   mk_field "target_location.y" KF64 true [21] [mk_win None None false None] [];
   mk_field "target_location.z" KF64 true [31] [mk_win None None false None] [];
   mk_field "attentuation_type" (KEnum e_LightAttenuationType) true [72] [mk_win None None false None] [];
   mk_field "use_attenuation_limits" KBool true [292] [mk_win None None false None] [];
   mk_field "attenuation_start_limit" KF64 true [41] [mk_win None None false None] [];
   mk_field "attenuation_end_limit" KF64 true [42] [mk_win None None false None] [];
   mk_field "hotspot_angle" KF64 true [50] [mk_win None None false None] [];
   mk_field "falloff_angle" KF64 true [51] [mk_win None None false None] [];
   mk_field "cast_shadows" KBool true [293] [mk_win None None false None] [];
   mk_field "shadow_type" (KEnum e_ShadowType) true [73] [mk_win None None false None] [];
   mk_field "shadow_map_size" (KInt (-2147483648) 2147483647) true [91] [mk_win None None false None] [];
   mk_field "shadow_map_softness" (KInt (-32768) 32767) true [280] [mk_win None None false None] []] ++ common_fields).

(** spec/EntitiesSpec.xml:593-598, common fields 7-50; reader build/entity_generator.rs:452-535, writer build/entity_generator.rs:601-881. *)
Definition ent_line : itype := mk_itype
  (mk_spec "Line" (str "LINE") None None
    ([("thickness", (FF64 0));
     ("p1.x", (FF64 0));
     ("p1.y", (FF64 0));
     ("p1.z", (FF64 0));
     ("p2.x", (FF64 0));
     ("p2.y", (FF64 0));
     ("p2.z", (FF64 0));
     ("extrusion_direction.x", (FF64 0));
     ("extrusion_direction.y", (FF64 0));
     ("extrusion_direction.z", (FF64 4607182418800017408))] ++ common_defaults)
    ([mk_arm 39 [] [ASet "thickness" RF64];
     mk_arm 10 [] [ASet "p1.x" RF64];
     mk_arm 20 [] [ASet "p1.y" RF64];
     mk_arm 30 [] [ASet "p1.z" RF64];
     mk_arm 11 [] [ASet "p2.x" RF64];
     mk_arm 21 [] [ASet "p2.y" RF64];
     mk_arm 31 [] [ASet "p2.z" RF64];
     mk_arm 210 [] [ASet "extrusion_direction.x" RF64];
     mk_arm 220 [] [ASet "extrusion_direction.y" RF64];
     mk_arm 230 [] [ASet "extrusion_direction.z" RF64]] ++ common_arms)
    [] false [] []
    (common_cmds ++ [WConst [CMin R13] (mk_pair 100 (VStr (str "AcDbLine")));
     WPair [CNe [("thickness", (FF64 0))]] 39 "thickness" WF64;
     WPair [] 10 "p1.x" WF64;
     WPair [] 20 "p1.y" WF64;
     WPair [] 30 "p1.z" WF64;
     WPair [] 11 "p2.x" WF64;
     WPair [] 21 "p2.y" WF64;
     WPair [] 31 "p2.z" WF64;
     WPair [CNe [("extrusion_direction.x", (FF64 0)); ("extrusion_direction.y", (FF64 0)); ("extrusion_direction.z", (FF64 4607182418800017408))]] 210 "extrusion_direction.x" WF64;
     WPair [CNe [("extrusion_direction.x", (FF64 0)); ("extrusion_direction.y", (FF64 0)); ("extrusion_direction.z", (FF64 4607182418800017408))]] 220 "extrusion_direction.y" WF64;
     WPair [CNe [("extrusion_direction.x", (FF64 0)); ("extrusion_direction.y", (FF64 0)); ("extrusion_direction.z", (FF64 4607182418800017408))]] 230 "extrusion_direction.z" WF64;
     WXdatas [] "common.x_data"]))
  ([mk_field "thickness" KF64 true [39] [mk_win None None false None] [];
   mk_field "p1.x" KF64 true [10] [mk_win None None false None] [];
   mk_field "p1.y" KF64 true [20] [mk_win None None false None] [];
   mk_field "p1.z" KF64 true [30] [mk_win None None false None] [];
   mk_field "p2.x" KF64 true [11] [mk_win None None false None] [];
   mk_field "p2.y" KF64 true [21] [mk_win None None false None] [];
   mk_field "p2.z" KF64 true [31] [mk_win None None false None] [];
   mk_field "extrusion_direction.x" KF64 true [210] [mk_win None None false None] [];
   mk_field "extrusion_direction.y" KF64 true [220] [mk_win None None false None] [];
   mk_field "extrusion_direction.z" KF64 true [230] [mk_win None None false None] []] ++ common_fields).

(** spec/EntitiesSpec.xml:604-630, common fields 7-50; reader src/entity.rs:1104-1157, writer build/entity_generator.rs:601-881. *)
Definition ent_lw_polyline : itype := mk_itype
  (mk_spec "LwPolyline" (str "LWPOLYLINE") (Some R14) None
    ([("flags", (FInt 0));
     ("constant_width", (FF64 0));
     ("thickness", (FF64 0));
     ("vertices", (FList []));
     ("extrusion_direction.x", (FF64 0));
     ("extrusion_direction.y", (FF64 0));
     ("extrusion_direction.z", (FF64 4607182418800017408))] ++ common_defaults)
    ([mk_arm 10 [] [ANewRec "vertices" [(FF64 0); (FF64 0); (FF64 0); (FF64 0); (FF64 0); (FInt 0)] 0 RF64];
     mk_arm 20 [] [ALast "vertices" 1 RF64];
     mk_arm 40 [] [ALast "vertices" 2 RF64];
     mk_arm 41 [] [ALast "vertices" 3 RF64];
     mk_arm 42 [] [ALast "vertices" 4 RF64];
     mk_arm 91 [] [ALast "vertices" 5 RI32];
     mk_arm 39 [] [ASet "thickness" RF64];
     mk_arm 43 [] [ASet "constant_width" RF64];
     mk_arm 70 [] [ASet "flags" RI16];
     mk_arm 210 [] [ASet "extrusion_direction.x" RF64];
     mk_arm 220 [] [ASet "extrusion_direction.y" RF64];
     mk_arm 230 [] [ASet "extrusion_direction.z" RF64]] ++ common_arms)
    [] true [] []
    (common_cmds ++ [WConst [] (mk_pair 100 (VStr (str "AcDbPolyline")));
     WLen [] 90 "vertices" LI32;
     WPair [] 70 "flags" WI16;
     WPair [CNe [("constant_width", (FF64 0))]] 43 "constant_width" WF64;
     WPair [CNe [("common.elevation", (FF64 0))]] 38 "common.elevation" WF64;
     WPair [CNe [("thickness", (FF64 0))]] 39 "thickness" WF64;
     WEachRec [] "vertices" [mk_part [] 10 0 WF64; mk_part [] 20 1 WF64; mk_part [RcMin R2013] 91 5 WI32; mk_part [RcNe 2 (FF64 0)] 40 2 WF64; mk_part [RcNe 3 (FF64 0)] 41 3 WF64; mk_part [RcNe 4 (FF64 0)] 42 4 WF64];
     WPair [CNe [("extrusion_direction.x", (FF64 0)); ("extrusion_direction.y", (FF64 0)); ("extrusion_direction.z", (FF64 4607182418800017408))]] 210 "extrusion_direction.x" WF64;
     WPair [CNe [("extrusion_direction.x", (FF64 0)); ("extrusion_direction.y", (FF64 0)); ("extrusion_direction.z", (FF64 4607182418800017408))]] 220 "extrusion_direction.y" WF64;
     WPair [CNe [("extrusion_direction.x", (FF64 0)); ("extrusion_direction.y", (FF64 0)); ("extrusion_direction.z", (FF64 4607182418800017408))]] 230 "extrusion_direction.z" WF64;
     WXdatas [] "common.x_data"]))
  [mk_field "flags" (KInt (-2147483648) 2147483647) true [70] [mk_win None None false None] [];
   mk_field "constant_width" KF64 true [43] [mk_win None None false None] [];
   mk_field "thickness" KF64 true [39] [mk_win None None false None] [];
   mk_field "vertices" (KList (KRec [KF64; KF64; KF64; KF64; KF64; (KInt (-2147483648) 2147483647)])) true [10] [mk_win None None false None] [(5%nat, R2013, (FInt 0))];
   mk_field "extrusion_direction.x" KF64 true [210] [mk_win None None false None] [];
   mk_field "extrusion_direction.y" KF64 true [220] [mk_win None None false None] [];
   mk_field "extrusion_direction.z" KF64 true [230] [mk_win None None false None] [];
   mk_field "common.handle" KHandle true [5] [mk_win None None true None] [];
   mk_field "common.extension_data_groups" (KList KExt) true [102] [mk_win (Some R14) None false None] [];
   mk_field "common.x_data" (KList KXd) true [1001] [mk_win (Some R2000) None false None] [];
   mk_field "common.__owner_handle" KHandle true [330] [mk_win None None true None] [];
   mk_field "common.is_in_paper_space" KBool true [67] [mk_win (Some R12) None false None] [];
   mk_field "common.layer" KStr true [8] [mk_win None None false None] [];
   mk_field "common.line_type_name" KStr true [6] [mk_win None None false None] [];
   mk_field "common.elevation" KF64 true [38] [mk_win None (Some R12) false None; mk_win None None false None] [];
   mk_field "common.__material_handle" KHandle true [347] [mk_win (Some R2007) None false None] [];
   mk_field "common.color" (KInt (-32768) 32767) true [62] [mk_win None None false None] [];
   mk_field "common.lineweight_enum_value" (KInt (-32768) 32767) true [370] [mk_win (Some R2000) None false None] [];
   mk_field "common.line_type_scale" KF64 true [48] [mk_win (Some R13) None false None] [];
   mk_field "common.is_visible" KBool true [60] [mk_win (Some R13) None false None] [];
   mk_field "common.image_byte_count" (KInt (-2147483648) 2147483647) true [92] [mk_win (Some R2000) None false None] [];
   mk_field "common.preview_image_data" (KList KBin) true [310] [mk_win (Some R2000) None false None] [];
   mk_field "common.color_24_bit" (KInt (-2147483648) 2147483647) true [420] [mk_win (Some R2004) None false None] [];
   mk_field "common.color_name" KStr true [430] [mk_win (Some R2004) None false None] [];
   mk_field "common.transparency" (KInt (-2147483648) 2147483647) true [440] [mk_win (Some R2004) None false None] [];
   mk_field "common.__plot_style_handle" KHandle true [390] [mk_win (Some R2007) None false None] [];
   mk_field "common.shadow_mode" (KEnum e_ShadowMode) true [284] [mk_win (Some R2007) None false None] []].

(** spec/EntitiesSpec.xml:642-704, common fields 7-50; reader build/entity_generator.rs:452-535, writer build/entity_generator.rs:601-881. *)
Definition ent_mline : itype := mk_itype
  (mk_spec "MLine" (str "MLINE") (Some R13) None
    ([("style_name", (FStr []));
     ("__style_handle", (FHandle 0));
     ("scale_factor", (FF64 4607182418800017408));
     ("justification", (FInt 0));
     ("flags", (FInt 0));
     ("__vertex_count", (FInt 0));
     ("style_element_count", (FInt 0));
     ("start_point.x", (FF64 0));
     ("start_point.y", (FF64 0));
     ("start_point.z", (FF64 0));
     ("normal.x", (FF64 0));
     ("normal.y", (FF64 0));
     ("normal.z", (FF64 4607182418800017408));
     ("__vertices_x", (FList []));
     ("__vertices_y", (FList []));
     ("__vertices_z", (FList []));
     ("vertices", (FList []));
     ("__segment_direction_x", (FList []));
     ("__segment_direction_y", (FList []));
     ("__segment_direction_z", (FList []));
     ("segment_directions", (FList []));
     ("__miter_direction_x", (FList []));
     ("__miter_direction_y", (FList []));
     ("__miter_direction_z", (FList []));
     ("miter_directions", (FList []));
     ("__parameter_count", (FInt 0));
     ("parameters", (FList []));
     ("__area_fill_parameter_count", (FInt 0));
     ("area_fill_parameters", (FList []))] ++ common_defaults)
    ([mk_arm 2 [] [ASet "style_name" RStr];
     mk_arm 340 [] [ASet "__style_handle" RHandle];
     mk_arm 40 [] [ASet "scale_factor" RF64];
     mk_arm 70 [] [ASet "justification" (REnum16 e_Justification 0)];
     mk_arm 71 [] [ASet "flags" RI16];
     mk_arm 72 [] [ASet "__vertex_count" RI16];
     mk_arm 73 [] [ASet "style_element_count" RI16];
     mk_arm 10 [] [ASet "start_point.x" RF64];
     mk_arm 20 [] [ASet "start_point.y" RF64];
     mk_arm 30 [] [ASet "start_point.z" RF64];
     mk_arm 210 [] [ASet "normal.x" RF64];
     mk_arm 220 [] [ASet "normal.y" RF64];
     mk_arm 230 [] [ASet "normal.z" RF64];
     mk_arm 11 [] [APush "__vertices_x" RF64];
     mk_arm 21 [] [APush "__vertices_y" RF64];
     mk_arm 31 [] [APush "__vertices_z" RF64];
     mk_arm 12 [] [APush "__segment_direction_x" RF64];
     mk_arm 22 [] [APush "__segment_direction_y" RF64];
     mk_arm 32 [] [APush "__segment_direction_z" RF64];
     mk_arm 13 [] [APush "__miter_direction_x" RF64];
     mk_arm 23 [] [APush "__miter_direction_y" RF64];
     mk_arm 33 [] [APush "__miter_direction_z" RF64];
     mk_arm 74 [] [ASet "__parameter_count" RI16];
     mk_arm 41 [] [APush "parameters" RF64];
     mk_arm 75 [] [ASet "__area_fill_parameter_count" RI16];
     mk_arm 42 [] [APush "area_fill_parameters" RF64]] ++ common_arms)
    [] false [PCombine ["__vertices_x"; "__vertices_y"; "__vertices_z"] "vertices"; PCombine ["__segment_direction_x"; "__segment_direction_y"; "__segment_direction_z"] "segment_directions"; PCombine ["__miter_direction_x"; "__miter_direction_y"; "__miter_direction_z"] "miter_directions"] []
    (common_cmds ++ [WConst [] (mk_pair 100 (VStr (str "AcDbMline")));
     WPair [] 2 "style_name" WStr;
     WPair [] 340 "__style_handle" WHandle;
     WPair [] 40 "scale_factor" WF64;
     WPair [] 70 "justification" WI16;
     WPair [] 71 "flags" WI16;
     WLen [] 72 "vertices" LI16;
     WPair [] 73 "style_element_count" WI16;
     WPair [] 10 "start_point.x" WF64;
     WPair [] 20 "start_point.y" WF64;
     WPair [] 30 "start_point.z" WF64;
     WPair [CNe [("normal.x", (FF64 0)); ("normal.y", (FF64 0)); ("normal.z", (FF64 4607182418800017408))]] 210 "normal.x" WF64;
     WPair [CNe [("normal.x", (FF64 0)); ("normal.y", (FF64 0)); ("normal.z", (FF64 4607182418800017408))]] 220 "normal.y" WF64;
     WPair [CNe [("normal.x", (FF64 0)); ("normal.y", (FF64 0)); ("normal.z", (FF64 4607182418800017408))]] 230 "normal.z" WF64;
     WEachRec [] "vertices" [mk_part [] 10 0 WF64; mk_part [] 20 1 WF64; mk_part [] 30 2 WF64];
     WEachRec [] "segment_directions" [mk_part [] 11 0 WF64; mk_part [] 21 1 WF64; mk_part [] 31 2 WF64];
     WEachRec [] "miter_directions" [mk_part [] 12 0 WF64; mk_part [] 22 1 WF64; mk_part [] 32 2 WF64];
     WLen [] 74 "parameters" LI16;
     WEach [] 41 "parameters" WF64;
     WLen [] 75 "area_fill_parameters" LI16;
     WEach [] 42 "area_fill_parameters" WF64;
     WXdatas [] "common.x_data"]))
  ([mk_field "style_name" KStr true [2] [mk_win None None false None] [];
   mk_field "__style_handle" KHandle true [340] [mk_win None None false None] [];
   mk_field "scale_factor" KF64 true [40] [mk_win None None false None] [];
   mk_field "justification" (KEnum e_Justification) true [70] [mk_win None None false None] [];
   mk_field "flags" (KInt (-2147483648) 2147483647) true [71] [mk_win None None false None] [];
   mk_field "__vertex_count" (KInt (-2147483648) 2147483647) false [72] [mk_win None None false None] [];
   mk_field "style_element_count" (KInt (-2147483648) 2147483647) true [73] [mk_win None None false None] [];
   mk_field "start_point.x" KF64 true [10] [mk_win None None false None] [];
   mk_field "start_point.y" KF64 true [20] [mk_win None None false None] [];
   mk_field "start_point.z" KF64 true [30] [mk_win None None false None] [];
   mk_field "normal.x" KF64 true [210] [mk_win None None false None] [];
   mk_field "normal.y" KF64 true [220] [mk_win None None false None] [];
   mk_field "normal.z" KF64 true [230] [mk_win None None false None] [];
   mk_field "__vertices_x" (KList KF64) false [11] [mk_win None None false None] [];
   mk_field "__vertices_y" (KList KF64) false [21] [mk_win None None false None] [];
   mk_field "__vertices_z" (KList KF64) false [31] [mk_win None None false None] [];
   mk_field "vertices" (KList (KRec [KF64; KF64; KF64])) true [11] [mk_win None None false None] [];
   mk_field "__segment_direction_x" (KList KF64) false [12] [mk_win None None false None] [];
   mk_field "__segment_direction_y" (KList KF64) false [22] [mk_win None None false None] [];
   mk_field "__segment_direction_z" (KList KF64) false [32] [mk_win None None false None] [];
   mk_field "segment_directions" (KList (KRec [KF64; KF64; KF64])) true [12] [mk_win None None false None] [];
   mk_field "__miter_direction_x" (KList KF64) false [13] [mk_win None None false None] [];
   mk_field "__miter_direction_y" (KList KF64) false [23] [mk_win None None false None] [];
   mk_field "__miter_direction_z" (KList KF64) false [33] [mk_win None None false None] [];
   mk_field "miter_directions" (KList (KRec [KF64; KF64; KF64])) true [13] [mk_win None None false None] [];
   mk_field "__parameter_count" (KInt (-2147483648) 2147483647) false [74] [mk_win None None false None] [];
   mk_field "parameters" (KList KF64) true [41] [mk_win None None false None] [];
   mk_field "__area_fill_parameter_count" (KInt (-2147483648) 2147483647) false [75] [mk_win None None false None] [];
   mk_field "area_fill_parameters" (KList KF64) true [42] [mk_win None None false None] []] ++ common_fields).

(** spec/EntitiesSpec.xml:716-777, common fields 7-50; reader src/entity.rs:1158-1294, writer build/entity_generator.rs:601-881. *)
Definition ent_mtext : itype := mk_itype
  (mk_spec "MText" (str "MTEXT") (Some R13) None
    ([("insertion_point.x", (FF64 0));
     ("insertion_point.y", (FF64 0));
     ("insertion_point.z", (FF64 0));
     ("initial_text_height", (FF64 4607182418800017408));
     ("reference_rectangle_width", (FF64 4607182418800017408));
     ("attachment_point", (FInt 1));
     ("drawing_direction", (FInt 1));
     ("extended_text", (FList []));
     ("text", (FStr []));
     ("text_style_name", (FStr (str "STANDARD")));
     ("extrusion_direction.x", (FF64 0));
     ("extrusion_direction.y", (FF64 0));
     ("extrusion_direction.z", (FF64 4607182418800017408));
     ("x_axis_direction.x", (FF64 4607182418800017408));
     ("x_axis_direction.y", (FF64 0));
     ("x_axis_direction.z", (FF64 0));
     ("horizontal_width", (FF64 4607182418800017408));
     ("vertical_height", (FF64 4607182418800017408));
     ("rotation_angle", (FF64 0));
     ("line_spacing_style", (FInt 1));
     ("line_spacing_factor", (FF64 4607182418800017408));
     ("background_fill_setting", (FInt 0));
     ("background_color_rgb", (FInt 0));
     ("background_color_name", (FStr []));
     ("fill_box_scale", (FF64 4607182418800017408));
     ("background_fill_color", (FInt 256));
     ("background_fill_color_transparency", (FInt 0));
     ("column_type", (FInt 0));
     ("column_count", (FInt 0));
     ("is_column_flow_reversed", (FBool false));
     ("is_column_auto_height", (FBool true));
     ("column_width", (FF64 0));
     ("column_gutter", (FF64 0));
     ("column_heights", (FList []))] ++ common_defaults)
    ([mk_arm 10 [] [ASet "insertion_point.x" RF64];
     mk_arm 20 [] [ASet "insertion_point.y" RF64];
     mk_arm 30 [] [ASet "insertion_point.z" RF64];
     mk_arm 40 [] [ASet "initial_text_height" RF64];
     mk_arm 41 [] [ASet "reference_rectangle_width" RF64];
     mk_arm 71 [] [ASet "attachment_point" (REnum16 e_AttachmentPoint 1)];
     mk_arm 72 [] [ASet "drawing_direction" (REnum16 e_DrawingDirection 1)];
     mk_arm 3 [] [APush "extended_text" RStr];
     mk_arm 1 [] [ASet "text" RStr];
     mk_arm 7 [] [ASet "text_style_name" RStr];
     mk_arm 210 [] [ASet "extrusion_direction.x" RF64];
     mk_arm 220 [] [ASet "extrusion_direction.y" RF64];
     mk_arm 230 [] [ASet "extrusion_direction.z" RF64];
     mk_arm 11 [] [ASet "x_axis_direction.x" RF64];
     mk_arm 21 [] [ASet "x_axis_direction.y" RF64];
     mk_arm 31 [] [ASet "x_axis_direction.z" RF64];
     mk_arm 42 [] [ASet "horizontal_width" RF64];
     mk_arm 43 [] [ASet "vertical_height" RF64];
     mk_arm 50 [GEq 0 1; GEq 1 1] [APush "column_heights" RF64];
     mk_arm 50 [GEq 0 1] [ASet "column_count" RI32ofF64; AReg 1 1];
     mk_arm 50 [] [ASet "rotation_angle" RF64];
     mk_arm 73 [] [ASet "line_spacing_style" (REnum16 e_MTextLineSpacingStyle 1)];
     mk_arm 44 [] [ASet "line_spacing_factor" RF64];
     mk_arm 90 [] [ASet "background_fill_setting" (REnum32 e_BackgroundFillSetting 0)];
     mk_arm 420 [] [ASet "background_color_rgb" RI32];
     mk_arm 430 [] [ASet "background_color_name" RStr];
     mk_arm 45 [] [ASet "fill_box_scale" RF64];
     mk_arm 63 [] [ASet "background_fill_color" RI16];
     mk_arm 441 [] [ASet "background_fill_color_transparency" RI32];
     mk_arm 75 [] [ASet "column_type" RI16; AReg 0 1];
     mk_arm 76 [] [ASet "column_count" RI16];
     mk_arm 78 [] [ASet "is_column_flow_reversed" RAsBool];
     mk_arm 79 [] [ASet "is_column_auto_height" RAsBool];
     mk_arm 48 [] [ASet "column_width" RF64];
     mk_arm 49 [] [ASet "column_gutter" RF64]] ++ common_arms)
    [0; 0] true [] []
    (common_cmds ++ [WConst [] (mk_pair 100 (VStr (str "AcDbMText")));
     WPair [] 10 "insertion_point.x" WF64;
     WPair [] 20 "insertion_point.y" WF64;
     WPair [] 30 "insertion_point.z" WF64;
     WPair [] 40 "initial_text_height" WF64;
     WPair [] 41 "reference_rectangle_width" WF64;
     WPair [] 71 "attachment_point" WI16;
     WPair [] 72 "drawing_direction" WI16;
     WEach [] 3 "extended_text" WStr;
     WPair [] 1 "text" WStr;
     WPair [CNe [("text_style_name", (FStr (str "STANDARD")))]] 7 "text_style_name" WStr;
     WPair [CNe [("extrusion_direction.x", (FF64 0)); ("extrusion_direction.y", (FF64 0)); ("extrusion_direction.z", (FF64 4607182418800017408))]] 210 "extrusion_direction.x" WF64;
     WPair [CNe [("extrusion_direction.x", (FF64 0)); ("extrusion_direction.y", (FF64 0)); ("extrusion_direction.z", (FF64 4607182418800017408))]] 220 "extrusion_direction.y" WF64;
     WPair [CNe [("extrusion_direction.x", (FF64 0)); ("extrusion_direction.y", (FF64 0)); ("extrusion_direction.z", (FF64 4607182418800017408))]] 230 "extrusion_direction.z" WF64;
     WPair [] 11 "x_axis_direction.x" WF64;
     WPair [] 21 "x_axis_direction.y" WF64;
     WPair [] 31 "x_axis_direction.z" WF64;
     WPair [] 42 "horizontal_width" WF64;
     WPair [] 43 "vertical_height" WF64;
     WPair [] 50 "rotation_angle" WF64;
     WPair [] 73 "line_spacing_style" WI16;
     WPair [] 44 "line_spacing_factor" WF64;
     WPair [] 90 "background_fill_setting" WI32;
     WPair [] 420 "background_color_rgb" WI32;
     WPair [] 430 "background_color_name" WStr;
     WPair [CNe [("fill_box_scale", (FF64 4607182418800017408))]] 45 "fill_box_scale" WF64;
     WPair [] 63 "background_fill_color" WI16;
     WPair [] 441 "background_fill_color_transparency" WI32;
     WPair [] 75 "column_type" WI16;
     WPair [] 76 "column_count" WI16;
     WPair [] 78 "is_column_flow_reversed" WAsI16;
     WPair [] 79 "is_column_auto_height" WAsI16;
     WPair [] 48 "column_width" WF64;
     WPair [] 49 "column_gutter" WF64;
     WLen [] 50 "column_heights" LF64;
     WEach [] 50 "column_heights" WF64;
     WXdatas [] "common.x_data"]))
  ([mk_field "insertion_point.x" KF64 true [10] [mk_win None None false None] [];
   mk_field "insertion_point.y" KF64 true [20] [mk_win None None false None] [];
   mk_field "insertion_point.z" KF64 true [30] [mk_win None None false None] [];
   mk_field "initial_text_height" KF64 true [40] [mk_win None None false None] [];
   mk_field "reference_rectangle_width" KF64 true [41] [mk_win None None false None] [];
   mk_field "attachment_point" (KEnum e_AttachmentPoint) true [71] [mk_win None None false None] [];
   mk_field "drawing_direction" (KEnum e_DrawingDirection) true [72] [mk_win None None false None] [];
   mk_field "extended_text" (KList KStr) true [3] [mk_win None None false None] [];
   mk_field "text" KStr true [1] [mk_win None None false None] [];
   mk_field "text_style_name" KStr true [7] [mk_win None None false None] [];
   mk_field "extrusion_direction.x" KF64 true [210] [mk_win None None false None] [];
   mk_field "extrusion_direction.y" KF64 true [220] [mk_win None None false None] [];
   mk_field "extrusion_direction.z" KF64 true [230] [mk_win None None false None] [];
   mk_field "x_axis_direction.x" KF64 true [11] [mk_win None None false None] [];
   mk_field "x_axis_direction.y" KF64 true [21] [mk_win None None false None] [];
   mk_field "x_axis_direction.z" KF64 true [31] [mk_win None None false None] [];
   mk_field "horizontal_width" KF64 true [42] [mk_win None None false None] [];
   mk_field "vertical_height" KF64 true [43] [mk_win None None false None] [];
   mk_field "rotation_angle" KF64 true [50] [mk_win None None false None] [];
   mk_field "line_spacing_style" (KEnum e_MTextLineSpacingStyle) true [73] [mk_win None None false None] [];
   mk_field "line_spacing_factor" KF64 true [44] [mk_win None None false None] [];
   mk_field "background_fill_setting" (KEnum e_BackgroundFillSetting) true [90] [mk_win None None false None] [];
   mk_field "background_color_rgb" (KInt (-2147483648) 2147483647) true [420] [mk_win None None false None] [];
   mk_field "background_color_name" KStr true [430] [mk_win None None false None] [];
   mk_field "fill_box_scale" KF64 true [45] [mk_win None None false None] [];
   mk_field "background_fill_color" (KInt (-32768) 32767) true [63] [mk_win None None false None] [];
   mk_field "background_fill_color_transparency" (KInt (-2147483648) 2147483647) true [441] [mk_win None None false None] [];
   mk_field "column_type" (KInt (-32768) 32767) true [75] [mk_win None None false None] [];
   mk_field "column_count" (KInt (-2147483648) 2147483647) true [76] [mk_win None None false None] [];
   mk_field "is_column_flow_reversed" KBool true [78] [mk_win None None false None] [];
   mk_field "is_column_auto_height" KBool true [79] [mk_win None None false None] [];
   mk_field "column_width" KF64 true [48] [mk_win None None false None] [];
   mk_field "column_gutter" KF64 true [49] [mk_win None None false None] [];
   mk_field "column_heights" (KList KF64) true [50] [mk_win None None false None] []] ++ common_fields).

(** spec/EntitiesSpec.xml:783-796, common fields 7-50; reader build/entity_generator.rs:452-535, writer build/entity_generator.rs:601-881. *)
Definition ent_ole_frame : itype := mk_itype
  (mk_spec "OleFrame" (str "OLEFRAME") (Some R13) None
    ([("version_number", (FInt 0));
     ("binary_data_length", (FInt 0));
     ("binary_data_strings", (FList []))] ++ common_defaults)
    ([mk_arm 70 [] [ASet "version_number" RI16];
     mk_arm 90 [] [ASet "binary_data_length" RI32];
     mk_arm 310 [] [APush "binary_data_strings" RBin]] ++ common_arms)
    [] false [] []
    (common_cmds ++ [WConst [] (mk_pair 100 (VStr (str "AcDbOleFrame")));
     WPair [] 70 "version_number" WI16;
     WPair [] 90 "binary_data_length" WI32;
     WEach [] 310 "binary_data_strings" WBin;
     WConst [] (mk_pair 1 (VStr (str "OLE")));
     WXdatas [] "common.x_data"]))
  ([mk_field "version_number" (KInt (-2147483648) 2147483647) true [70] [mk_win None None false None] [];
   mk_field "binary_data_length" (KInt (-2147483648) 2147483647) true [90] [mk_win None None false None] [];
   mk_field "binary_data_strings" (KList KBin) true [310] [mk_win None None false None] []] ++ common_fields).

(** spec/EntitiesSpec.xml:802-825, common fields 7-50; reader build/entity_generator.rs:452-535, writer build/entity_generator.rs:601-881. *)
Definition ent_ole2frame : itype := mk_itype
  (mk_spec "Ole2Frame" (str "OLE2FRAME") (Some R14) None
    ([("version_number", (FInt 0));
     ("description", (FStr []));
     ("upper_left_corner.x", (FF64 0));
     ("upper_left_corner.y", (FF64 0));
     ("upper_left_corner.z", (FF64 0));
     ("lower_right_corner.x", (FF64 0));
     ("lower_right_corner.y", (FF64 0));
     ("lower_right_corner.z", (FF64 0));
     ("object_type", (FInt 3));
     ("tile_mode", (FInt 0));
     ("binary_data_length", (FInt 0));
     ("binary_data_strings", (FList []))] ++ common_defaults)
    ([mk_arm 70 [] [ASet "version_number" RI16];
     mk_arm 3 [] [ASet "description" RStr];
     mk_arm 10 [] [ASet "upper_left_corner.x" RF64];
     mk_arm 20 [] [ASet "upper_left_corner.y" RF64];
     mk_arm 30 [] [ASet "upper_left_corner.z" RF64];
     mk_arm 11 [] [ASet "lower_right_corner.x" RF64];
     mk_arm 21 [] [ASet "lower_right_corner.y" RF64];
     mk_arm 31 [] [ASet "lower_right_corner.z" RF64];
     mk_arm 71 [] [ASet "object_type" (REnum16 e_OleObjectType 3)];
     mk_arm 72 [] [ASet "tile_mode" (REnum16 e_TileModeDescriptor 0)];
     mk_arm 90 [] [ASet "binary_data_length" RI32];
     mk_arm 310 [] [APush "binary_data_strings" RBin]] ++ common_arms)
    [] false [] []
    (common_cmds ++ [WConst [] (mk_pair 100 (VStr (str "AcDbOle2Frame")));
     WPair [] 70 "version_number" WI16;
     WPair [] 3 "description" WStr;
     WPair [] 10 "upper_left_corner.x" WF64;
     WPair [] 20 "upper_left_corner.y" WF64;
     WPair [] 30 "upper_left_corner.z" WF64;
     WPair [] 11 "lower_right_corner.x" WF64;
     WPair [] 21 "lower_right_corner.y" WF64;
     WPair [] 31 "lower_right_corner.z" WF64;
     WPair [] 71 "object_type" WI16;
     WPair [] 72 "tile_mode" WI16;
     WPair [] 90 "binary_data_length" WI32;
     WEach [] 310 "binary_data_strings" WBin;
     WConst [] (mk_pair 1 (VStr (str "OLE")));
     WXdatas [] "common.x_data"]))
  ([mk_field "version_number" (KInt (-2147483648) 2147483647) true [70] [mk_win None None false None] [];
   mk_field "description" KStr true [3] [mk_win None None false None] [];
   mk_field "upper_left_corner.x" KF64 true [10] [mk_win None None false None] [];
   mk_field "upper_left_corner.y" KF64 true [20] [mk_win None None false None] [];
   mk_field "upper_left_corner.z" KF64 true [30] [mk_win None None false None] [];
   mk_field "lower_right_corner.x" KF64 true [11] [mk_win None None false None] [];
   mk_field "lower_right_corner.y" KF64 true [21] [mk_win None None false None] [];
   mk_field "lower_right_corner.z" KF64 true [31] [mk_win None None false None] [];
   mk_field "object_type" (KEnum e_OleObjectType) true [71] [mk_win None None false None] [];
   mk_field "tile_mode" (KEnum e_TileModeDescriptor) true [72] [mk_win None None false None] [];
   mk_field "binary_data_length" (KInt (-2147483648) 2147483647) true [90] [mk_win None None false None] [];
   mk_field "binary_data_strings" (KList KBin) true [310] [mk_win None None false None] []] ++ common_fields).

(** spec/EntitiesSpec.xml:831-836, common fields 7-50; reader build/entity_generator.rs:452-535, writer build/entity_generator.rs:601-881. *)
Definition ent_model_point : itype := mk_itype
  (mk_spec "ModelPoint" (str "POINT") None None
    ([("location.x", (FF64 0));
     ("location.y", (FF64 0));
     ("location.z", (FF64 0));
     ("thickness", (FF64 0));
     ("extrusion_direction.x", (FF64 0));
     ("extrusion_direction.y", (FF64 0));
     ("extrusion_direction.z", (FF64 4607182418800017408));
     ("angle", (FF64 0))] ++ common_defaults)
    ([mk_arm 10 [] [ASet "location.x" RF64];
     mk_arm 20 [] [ASet "location.y" RF64];
     mk_arm 30 [] [ASet "location.z" RF64];
     mk_arm 39 [] [ASet "thickness" RF64];
     mk_arm 210 [] [ASet "extrusion_direction.x" RF64];
     mk_arm 220 [] [ASet "extrusion_direction.y" RF64];
     mk_arm 230 [] [ASet "extrusion_direction.z" RF64];
     mk_arm 50 [] [ASet "angle" RF64]] ++ common_arms)
    [] false [] []
    (common_cmds ++ [WConst [CMin R13] (mk_pair 100 (VStr (str "AcDbPoint")));
     WPair [] 10 "location.x" WF64;
     WPair [] 20 "location.y" WF64;
     WPair [] 30 "location.z" WF64;
     WPair [CNe [("thickness", (FF64 0))]] 39 "thickness" WF64;
     WPair [CNe [("extrusion_direction.x", (FF64 0)); ("extrusion_direction.y", (FF64 0)); ("extrusion_direction.z", (FF64 4607182418800017408))]] 210 "extrusion_direction.x" WF64;
     WPair [CNe [("extrusion_direction.x", (FF64 0)); ("extrusion_direction.y", (FF64 0)); ("extrusion_direction.z", (FF64 4607182418800017408))]] 220 "extrusion_direction.y" WF64;
     WPair [CNe [("extrusion_direction.x", (FF64 0)); ("extrusion_direction.y", (FF64 0)); ("extrusion_direction.z", (FF64 4607182418800017408))]] 230 "extrusion_direction.z" WF64;
     WPair [CNe [("angle", (FF64 0))]] 50 "angle" WF64;
     WXdatas [] "common.x_data"]))
  ([mk_field "location.x" KF64 true [10] [mk_win None None false None] [];
   mk_field "location.y" KF64 true [20] [mk_win None None false None] [];
   mk_field "location.z" KF64 true [30] [mk_win None None false None] [];
   mk_field "thickness" KF64 true [39] [mk_win None None false None] [];
   mk_field "extrusion_direction.x" KF64 true [210] [mk_win None None false None] [];
   mk_field "extrusion_direction.y" KF64 true [220] [mk_win None None false None] [];
   mk_field "extrusion_direction.z" KF64 true [230] [mk_win None None false None] [];
   mk_field "angle" KF64 true [50] [mk_win None None false None] []] ++ common_fields).

(** spec/EntitiesSpec.xml:842-866, common fields 7-50; reader build/entity_generator.rs:452-535, writer src/entity.rs:1429-1489. The vertices and the end are written before the x-data (src/entity.rs:1570-1592), so the item ends before them. *)
Definition ent_polyline : itype := mk_itype
  (mk_spec "Polyline" (str "POLYLINE") None None
    ([("contains_vertices", (FBool true));
     ("location.x", (FF64 0));
     ("location.y", (FF64 0));
     ("location.z", (FF64 0));
     ("thickness", (FF64 0));
     ("flags", (FInt 0));
     ("default_starting_width", (FF64 0));
     ("default_ending_width", (FF64 0));
     ("polygon_mesh_m_vertex_count", (FInt 0));
     ("polygon_mesh_n_vertex_count", (FInt 0));
     ("smooth_surface_m_density", (FInt 0));
     ("smooth_surface_n_density", (FInt 0));
     ("surface_type", (FInt 0));
     ("normal.x", (FF64 0));
     ("normal.y", (FF64 0));
     ("normal.z", (FF64 4607182418800017408))] ++ common_defaults)
    ([mk_arm 66 [] [ASet "contains_vertices" RAsBool];
     mk_arm 10 [] [ASet "location.x" RF64];
     mk_arm 20 [] [ASet "location.y" RF64];
     mk_arm 30 [] [ASet "location.z" RF64];
     mk_arm 39 [] [ASet "thickness" RF64];
     mk_arm 70 [] [ASet "flags" RI16];
     mk_arm 40 [] [ASet "default_starting_width" RF64];
     mk_arm 41 [] [ASet "default_ending_width" RF64];
     mk_arm 71 [] [ASet "polygon_mesh_m_vertex_count" RI16];
     mk_arm 72 [] [ASet "polygon_mesh_n_vertex_count" RI16];
     mk_arm 73 [] [ASet "smooth_surface_m_density" RI16];
     mk_arm 74 [] [ASet "smooth_surface_n_density" RI16];
     mk_arm 75 [] [ASet "surface_type" (REnum16 e_PolylineCurvedAndSmoothSurfaceType 0)];
     mk_arm 210 [] [ASet "normal.x" RF64];
     mk_arm 220 [] [ASet "normal.y" RF64];
     mk_arm 230 [] [ASet "normal.z" RF64]] ++ common_arms)
    [] false [] []
    (common_cmds ++ [WConst [CMin R13; CMask "flags" 24 true] (mk_pair 100 (VStr (str "AcDb3dPolyline")));
     WConst [CMin R13; CMask "flags" 24 false] (mk_pair 100 (VStr (str "AcDb2dPolyline")));
     WPair [CMax R13] 66 "contains_vertices" WAsI16;
     WPair [CMin R12] 10 "location.x" WF64;
     WPair [CMin R12] 20 "location.y" WF64;
     WPair [CMin R12] 30 "location.z" WF64;
     WPair [CNe [("thickness", (FF64 0))]] 39 "thickness" WF64;
     WPair [CNe [("flags", (FInt 0))]] 70 "flags" WI16;
     WPair [CNe [("default_starting_width", (FF64 0))]] 40 "default_starting_width" WF64;
     WPair [CNe [("default_ending_width", (FF64 0))]] 41 "default_ending_width" WF64;
     WPair [CNe [("polygon_mesh_m_vertex_count", (FInt 0))]] 71 "polygon_mesh_m_vertex_count" WI16;
     WPair [CNe [("polygon_mesh_n_vertex_count", (FInt 0))]] 72 "polygon_mesh_n_vertex_count" WI16;
     WPair [CNe [("smooth_surface_m_density", (FInt 0))]] 73 "smooth_surface_m_density" WI16;
     WPair [CNe [("smooth_surface_n_density", (FInt 0))]] 74 "smooth_surface_n_density" WI16;
     WPair [CNe [("surface_type", (FInt 0))]] 75 "surface_type" WI16;
     WPair [CNe [("normal.x", (FF64 0)); ("normal.y", (FF64 0)); ("normal.z", (FF64 4607182418800017408))]] 210 "normal.x" WF64;
     WPair [CNe [("normal.x", (FF64 0)); ("normal.y", (FF64 0)); ("normal.z", (FF64 4607182418800017408))]] 220 "normal.y" WF64;
     WPair [CNe [("normal.x", (FF64 0)); ("normal.y", (FF64 0)); ("normal.z", (FF64 4607182418800017408))]] 230 "normal.z" WF64]))
  ([mk_field "contains_vertices" KBool true [66] [mk_win None (Some R13) false None] [];
   mk_field "location.x" KF64 true [10] [mk_win (Some R12) None false None] [];
   mk_field "location.y" KF64 true [20] [mk_win (Some R12) None false None] [];
   mk_field "location.z" KF64 true [30] [mk_win (Some R12) None false None] [];
   mk_field "thickness" KF64 true [39] [mk_win None None false None] [];
   mk_field "flags" (KInt (-2147483648) 2147483647) true [70] [mk_win None None false None] [];
   mk_field "default_starting_width" KF64 true [40] [mk_win None None false None] [];
   mk_field "default_ending_width" KF64 true [41] [mk_win None None false None] [];
   mk_field "polygon_mesh_m_vertex_count" (KInt (-2147483648) 2147483647) true [71] [mk_win None None false None] [];
   mk_field "polygon_mesh_n_vertex_count" (KInt (-2147483648) 2147483647) true [72] [mk_win None None false None] [];
   mk_field "smooth_surface_m_density" (KInt (-2147483648) 2147483647) true [73] [mk_win None None false None] [];
   mk_field "smooth_surface_n_density" (KInt (-2147483648) 2147483647) true [74] [mk_win None None false None] [];
   mk_field "surface_type" (KEnum e_PolylineCurvedAndSmoothSurfaceType) true [75] [mk_win None None false None] [];
   mk_field "normal.x" KF64 true [210] [mk_win None None false None] [];
   mk_field "normal.y" KF64 true [220] [mk_win None None false None] [];
   mk_field "normal.z" KF64 true [230] [mk_win None None false None] []] ++ common_fields).

(** spec/EntitiesSpec.xml:872-875, common fields 7-50; reader build/entity_generator.rs:452-535, writer build/entity_generator.rs:601-881. *)
Definition ent_ray : itype := mk_itype
  (mk_spec "Ray" (str "RAY") (Some R13) None
    ([("start_point.x", (FF64 0));
     ("start_point.y", (FF64 0));
     ("start_point.z", (FF64 0));
     ("unit_direction_vector.x", (FF64 4607182418800017408));
     ("unit_direction_vector.y", (FF64 0));
     ("unit_direction_vector.z", (FF64 0))] ++ common_defaults)
    ([mk_arm 10 [] [ASet "start_point.x" RF64];
     mk_arm 20 [] [ASet "start_point.y" RF64];
     mk_arm 30 [] [ASet "start_point.z" RF64];
     mk_arm 11 [] [ASet "unit_direction_vector.x" RF64];
     mk_arm 21 [] [ASet "unit_direction_vector.y" RF64];
     mk_arm 31 [] [ASet "unit_direction_vector.z" RF64]] ++ common_arms)
    [] false [] []
    (common_cmds ++ [WConst [CMin R13] (mk_pair 100 (VStr (str "AcDbRay")));
     WPair [] 10 "start_point.x" WF64;
     WPair [] 20 "start_point.y" WF64;
     WPair [] 30 "start_point.z" WF64;
     WPair [] 11 "unit_direction_vector.x" WF64;
     WPair [] 21 "unit_direction_vector.y" WF64;
     WPair [] 31 "unit_direction_vector.z" WF64;
     WXdatas [] "common.x_data"]))
  ([mk_field "start_point.x" KF64 true [10] [mk_win None None false None] [];
   mk_field "start_point.y" KF64 true [20] [mk_win None None false None] [];
   mk_field "start_point.z" KF64 true [30] [mk_win None None false None] [];
   mk_field "unit_direction_vector.x" KF64 true [11] [mk_win None None false None] [];
   mk_field "unit_direction_vector.y" KF64 true [21] [mk_win None None false None] [];
   mk_field "unit_direction_vector.z" KF64 true [31] [mk_win None None false None] []] ++ common_fields).

(** spec/EntitiesSpec.xml:881-885, common fields 7-50; reader build/entity_generator.rs:452-535, writer build/entity_generator.rs:601-881. *)
Definition ent_region : itype := mk_itype
  (mk_spec "Region" (str "REGION") (Some R13) None
    ([("format_version_number", (FInt 1));
     ("custom_data", (FList []));
     ("custom_data2", (FList []))] ++ common_defaults)
    ([mk_arm 70 [] [ASet "format_version_number" RI16];
     mk_arm 1 [] [APush "custom_data" RStr];
     mk_arm 3 [] [APush "custom_data2" RStr]] ++ common_arms)
    [] false [] []
    (common_cmds ++ [WConst [CMin R13] (mk_pair 100 (VStr (str "AcDbModelerGeometry")));
     WPair [] 70 "format_version_number" WI16;
     WEach [] 1 "custom_data" WStr;
     WEach [] 3 "custom_data2" WStr;
     WXdatas [] "common.x_data"]))
  ([mk_field "format_version_number" (KInt (-32768) 32767) true [70] [mk_win None None false None] [];
   mk_field "custom_data" (KList KStr) true [1] [mk_win None None false None] [];
   mk_field "custom_data2" (KList KStr) true [3] [mk_win None None false None] []] ++ common_fields).

(** spec/EntitiesSpec.xml:891-902, common fields 7-50; reader build/entity_generator.rs:452-535, writer build/entity_generator.rs:601-881. *)
Definition ent_rtext : itype := mk_itype
  (mk_spec "RText" (str "RTEXT") (Some R2000) (Some R2000)
    ([("insertion_point.x", (FF64 0));
     ("insertion_point.y", (FF64 0));
     ("insertion_point.z", (FF64 0));
     ("extrusion_direction.x", (FF64 0));
     ("extrusion_direction.y", (FF64 0));
     ("extrusion_direction.z", (FF64 4607182418800017408));
     ("rotation_angle", (FF64 0));
     ("text_height", (FF64 0));
     ("text_style", (FStr (str "STANDARD")));
     ("type_flags", (FInt 0));
     ("contents", (FStr []))] ++ common_defaults)
    ([mk_arm 10 [] [ASet "insertion_point.x" RF64];
     mk_arm 20 [] [ASet "insertion_point.y" RF64];
     mk_arm 30 [] [ASet "insertion_point.z" RF64];
     mk_arm 210 [] [ASet "extrusion_direction.x" RF64];
     mk_arm 220 [] [ASet "extrusion_direction.y" RF64];
     mk_arm 230 [] [ASet "extrusion_direction.z" RF64];
     mk_arm 50 [] [ASet "rotation_angle" RF64];
     mk_arm 40 [] [ASet "text_height" RF64];
     mk_arm 7 [] [ASet "text_style" RStr];
     mk_arm 70 [] [ASet "type_flags" RI16];
     mk_arm 1 [] [ASet "contents" RStr]] ++ common_arms)
    [] false [] []
    (common_cmds ++ [WConst [CMin R13] (mk_pair 100 (VStr (str "RText")));
     WPair [] 10 "insertion_point.x" WF64;
     WPair [] 20 "insertion_point.y" WF64;
     WPair [] 30 "insertion_point.z" WF64;
     WPair [CNe [("extrusion_direction.x", (FF64 0)); ("extrusion_direction.y", (FF64 0)); ("extrusion_direction.z", (FF64 4607182418800017408))]] 210 "extrusion_direction.x" WF64;
     WPair [CNe [("extrusion_direction.x", (FF64 0)); ("extrusion_direction.y", (FF64 0)); ("extrusion_direction.z", (FF64 4607182418800017408))]] 220 "extrusion_direction.y" WF64;
     WPair [CNe [("extrusion_direction.x", (FF64 0)); ("extrusion_direction.y", (FF64 0)); ("extrusion_direction.z", (FF64 4607182418800017408))]] 230 "extrusion_direction.z" WF64;
     WPair [] 50 "rotation_angle" WF64;
     WPair [] 40 "text_height" WF64;
     WPair [] 7 "text_style" WStr;
     WPair [] 70 "type_flags" WI16;
     WPair [] 1 "contents" WStr;
     WXdatas [] "common.x_data"]))
  ([mk_field "insertion_point.x" KF64 true [10] [mk_win None None false None] [];
   mk_field "insertion_point.y" KF64 true [20] [mk_win None None false None] [];
   mk_field "insertion_point.z" KF64 true [30] [mk_win None None false None] [];
   mk_field "extrusion_direction.x" KF64 true [210] [mk_win None None false None] [];
   mk_field "extrusion_direction.y" KF64 true [220] [mk_win None None false None] [];
   mk_field "extrusion_direction.z" KF64 true [230] [mk_win None None false None] [];
   mk_field "rotation_angle" KF64 true [50] [mk_win None None false None] [];
   mk_field "text_height" KF64 true [40] [mk_win None None false None] [];
   mk_field "text_style" KStr true [7] [mk_win None None false None] [];
   mk_field "type_flags" (KInt (-2147483648) 2147483647) true [70] [mk_win None None false None] [];
   mk_field "contents" KStr true [1] [mk_win None None false None] []] ++ common_fields).

(** spec/EntitiesSpec.xml:908-954, common fields 7-50; reader build/entity_generator.rs:452-535, writer build/entity_generator.rs:601-881. *)
Definition ent_section : itype := mk_itype
  (mk_spec "Section" (str "SECTION") (Some R2007) None
    ([("state", (FInt 0));
     ("flags", (FInt 0));
     ("name", (FStr []));
     ("vertical_direction.x", (FF64 0));
     ("vertical_direction.y", (FF64 0));
     ("vertical_direction.z", (FF64 4607182418800017408));
     ("top_height", (FF64 0));
     ("bottom_height", (FF64 0));
     ("indicator_transparency", (FInt 0));
     ("indicator_color", (FInt 256));
     ("indicator_color_name", (FStr []));
     ("__vertex_count", (FInt 0));
     ("__vertices_x", (FList []));
     ("__vertices_y", (FList []));
     ("__vertices_z", (FList []));
     ("vertices", (FList []));
     ("__back_line_vertex_count", (FInt 0));
     ("__back_line_vertices_x", (FList []));
     ("__back_line_vertices_y", (FList []));
     ("__back_line_vertices_z", (FList []));
     ("back_line_vertices", (FList []));
     ("__geometry_settings_handle", (FHandle 0))] ++ common_defaults)
    ([mk_arm 90 [] [ASet "state" RI32];
     mk_arm 91 [] [ASet "flags" RI32];
     mk_arm 1 [] [ASet "name" RStr];
     mk_arm 10 [] [ASet "vertical_direction.x" RF64];
     mk_arm 20 [] [ASet "vertical_direction.y" RF64];
     mk_arm 30 [] [ASet "vertical_direction.z" RF64];
     mk_arm 40 [] [ASet "top_height" RF64];
     mk_arm 41 [] [ASet "bottom_height" RF64];
     mk_arm 70 [] [ASet "indicator_transparency" RI16];
     mk_arm 63 [] [ASet "indicator_color" RI16];
     mk_arm 411 [] [ASet "indicator_color_name" RStr];
     mk_arm 92 [] [ASet "__vertex_count" RI32];
     mk_arm 11 [] [APush "__vertices_x" RF64];
     mk_arm 21 [] [APush "__vertices_y" RF64];
     mk_arm 31 [] [APush "__vertices_z" RF64];
     mk_arm 93 [] [ASet "__back_line_vertex_count" RI32];
     mk_arm 12 [] [APush "__back_line_vertices_x" RF64];
     mk_arm 22 [] [APush "__back_line_vertices_y" RF64];
     mk_arm 32 [] [APush "__back_line_vertices_z" RF64];
     mk_arm 360 [] [ASet "__geometry_settings_handle" RHandle]] ++ common_arms)
    [] false [PCombine ["__vertices_x"; "__vertices_y"; "__vertices_z"] "vertices"; PCombine ["__back_line_vertices_x"; "__back_line_vertices_y"; "__back_line_vertices_z"] "back_line_vertices"] []
    (common_cmds ++ [WConst [] (mk_pair 100 (VStr (str "AcDbSection")));
     WPair [] 90 "state" WI32;
     WPair [] 91 "flags" WI32;
     WPair [] 1 "name" WStr;
     WPair [] 10 "vertical_direction.x" WF64;
     WPair [] 20 "vertical_direction.y" WF64;
     WPair [] 30 "vertical_direction.z" WF64;
     WPair [] 40 "top_height" WF64;
     WPair [] 41 "bottom_height" WF64;
     WPair [] 70 "indicator_transparency" WI16;
     WPair [] 63 "indicator_color" WI16;
     WPair [] 411 "indicator_color_name" WStr;
     WLen [] 92 "vertices" LI32;
     WEachRec [] "vertices" [mk_part [] 11 0 WF64; mk_part [] 21 1 WF64; mk_part [] 31 2 WF64];
     WLen [] 93 "back_line_vertices" LI32;
     WEachRec [] "back_line_vertices" [mk_part [] 12 0 WF64; mk_part [] 22 1 WF64; mk_part [] 32 2 WF64];
     WPair [] 360 "__geometry_settings_handle" WHandle;
     WXdatas [] "common.x_data"]))
  ([mk_field "state" (KInt (-2147483648) 2147483647) true [90] [mk_win None None false None] [];
   mk_field "flags" (KInt (-2147483648) 2147483647) true [91] [mk_win None None false None] [];
   mk_field "name" KStr true [1] [mk_win None None false None] [];
   mk_field "vertical_direction.x" KF64 true [10] [mk_win None None false None] [];
   mk_field "vertical_direction.y" KF64 true [20] [mk_win None None false None] [];
   mk_field "vertical_direction.z" KF64 true [30] [mk_win None None false None] [];
   mk_field "top_height" KF64 true [40] [mk_win None None false None] [];
   mk_field "bottom_height" KF64 true [41] [mk_win None None false None] [];
   mk_field "indicator_transparency" (KInt (-32768) 32767) true [70] [mk_win None None false None] [];
   mk_field "indicator_color" (KInt (-32768) 32767) true [63] [mk_win None None false None] [];
   mk_field "indicator_color_name" KStr true [411] [mk_win None None false None] [];
   mk_field "__vertex_count" (KInt (-2147483648) 2147483647) false [92] [mk_win None None false None] [];
   mk_field "__vertices_x" (KList KF64) false [11] [mk_win None None false None] [];
   mk_field "__vertices_y" (KList KF64) false [21] [mk_win None None false None] [];
   mk_field "__vertices_z" (KList KF64) false [31] [mk_win None None false None] [];
   mk_field "vertices" (KList (KRec [KF64; KF64; KF64])) true [11] [mk_win None None false None] [];
   mk_field "__back_line_vertex_count" (KInt (-2147483648) 2147483647) false [93] [mk_win None None false None] [];
   mk_field "__back_line_vertices_x" (KList KF64) false [12] [mk_win None None false None] [];
   mk_field "__back_line_vertices_y" (KList KF64) false [22] [mk_win None None false None] [];
   mk_field "__back_line_vertices_z" (KList KF64) false [32] [mk_win None None false None] [];
   mk_field "back_line_vertices" (KList (KRec [KF64; KF64; KF64])) true [12] [mk_win None None false None] [];
   mk_field "__geometry_settings_handle" KHandle true [360] [mk_win None None false None] []] ++ common_fields).

(** spec/EntitiesSpec.xml:960-962, common fields 7-50; reader build/entity_generator.rs:452-535, writer build/entity_generator.rs:601-881. *)
Definition ent_seqend : itype := mk_itype
  (mk_spec "Seqend" (str "SEQEND") None None
    ([] ++ common_defaults)
    ([] ++ common_arms)
    [] false [] []
    (common_cmds ++ [WXdatas [] "common.x_data"]))
  ([] ++ common_fields).

(** spec/EntitiesSpec.xml:968-977, common fields 7-50; reader build/entity_generator.rs:452-535, writer build/entity_generator.rs:601-881. *)
Definition ent_shape : itype := mk_itype
  (mk_spec "Shape" (str "SHAPE") None None
    ([("thickness", (FF64 0));
     ("location.x", (FF64 0));
     ("location.y", (FF64 0));
     ("location.z", (FF64 0));
     ("size", (FF64 0));
     ("name", (FStr []));
     ("rotation_angle", (FF64 0));
     ("relative_x_scale_factor", (FF64 4607182418800017408));
     ("oblique_angle", (FF64 0));
     ("extrusion_direction.x", (FF64 0));
     ("extrusion_direction.y", (FF64 0));
     ("extrusion_direction.z", (FF64 4607182418800017408))] ++ common_defaults)
    ([mk_arm 39 [] [ASet "thickness" RF64];
     mk_arm 10 [] [ASet "location.x" RF64];
     mk_arm 20 [] [ASet "location.y" RF64];
     mk_arm 30 [] [ASet "location.z" RF64];
     mk_arm 40 [] [ASet "size" RF64];
     mk_arm 2 [] [ASet "name" RStr];
     mk_arm 50 [] [ASet "rotation_angle" RF64];
     mk_arm 41 [] [ASet "relative_x_scale_factor" RF64];
     mk_arm 51 [] [ASet "oblique_angle" RF64];
     mk_arm 210 [] [ASet "extrusion_direction.x" RF64];
     mk_arm 220 [] [ASet "extrusion_direction.y" RF64];
     mk_arm 230 [] [ASet "extrusion_direction.z" RF64]] ++ common_arms)
    [] false [] []
    (common_cmds ++ [WConst [CMin R13] (mk_pair 100 (VStr (str "AcDbShape")));
     WPair [CNe [("thickness", (FF64 0))]] 39 "thickness" WF64;
     WPair [] 10 "location.x" WF64;
     WPair [] 20 "location.y" WF64;
     WPair [] 30 "location.z" WF64;
     WPair [] 40 "size" WF64;
     WPair [] 2 "name" WStr;
     WPair [CNe [("rotation_angle", (FF64 0))]] 50 "rotation_angle" WF64;
     WPair [CNe [("relative_x_scale_factor", (FF64 4607182418800017408))]] 41 "relative_x_scale_factor" WF64;
     WPair [CNe [("oblique_angle", (FF64 0))]] 51 "oblique_angle" WF64;
     WPair [CNe [("extrusion_direction.x", (FF64 0)); ("extrusion_direction.y", (FF64 0)); ("extrusion_direction.z", (FF64 4607182418800017408))]] 210 "extrusion_direction.x" WF64;
     WPair [CNe [("extrusion_direction.x", (FF64 0)); ("extrusion_direction.y", (FF64 0)); ("extrusion_direction.z", (FF64 4607182418800017408))]] 220 "extrusion_direction.y" WF64;
     WPair [CNe [("extrusion_direction.x", (FF64 0)); ("extrusion_direction.y", (FF64 0)); ("extrusion_direction.z", (FF64 4607182418800017408))]] 230 "extrusion_direction.z" WF64;
     WXdatas [] "common.x_data"]))
  ([mk_field "thickness" KF64 true [39] [mk_win None None false None] [];
   mk_field "location.x" KF64 true [10] [mk_win None None false None] [];
   mk_field "location.y" KF64 true [20] [mk_win None None false None] [];
   mk_field "location.z" KF64 true [30] [mk_win None None false None] [];
   mk_field "size" KF64 true [40] [mk_win None None false None] [];
   mk_field "name" KStr true [2] [mk_win None None false None] [];
   mk_field "rotation_angle" KF64 true [50] [mk_win None None false None] [];
   mk_field "relative_x_scale_factor" KF64 true [41] [mk_win None None false None] [];
   mk_field "oblique_angle" KF64 true [51] [mk_win None None false None] [];
   mk_field "extrusion_direction.x" KF64 true [210] [mk_win None None false None] [];
   mk_field "extrusion_direction.y" KF64 true [220] [mk_win None None false None] [];
   mk_field "extrusion_direction.z" KF64 true [230] [mk_win None None false None] []] ++ common_fields).

(** spec/EntitiesSpec.xml:983-990, common fields 7-50; reader build/entity_generator.rs:452-535, writer build/entity_generator.rs:601-881. *)
Definition ent_solid : itype := mk_itype
  (mk_spec "Solid" (str "SOLID") None None
    ([("first_corner.x", (FF64 0));
     ("first_corner.y", (FF64 0));
     ("first_corner.z", (FF64 0));
     ("second_corner.x", (FF64 0));
     ("second_corner.y", (FF64 0));
     ("second_corner.z", (FF64 0));
     ("third_corner.x", (FF64 0));
     ("third_corner.y", (FF64 0));
     ("third_corner.z", (FF64 0));
     ("fourth_corner.x", (FF64 0));
     ("fourth_corner.y", (FF64 0));
     ("fourth_corner.z", (FF64 0));
     ("thickness", (FF64 0));
     ("extrusion_direction.x", (FF64 0));
     ("extrusion_direction.y", (FF64 0));
     ("extrusion_direction.z", (FF64 4607182418800017408))] ++ common_defaults)
    ([mk_arm 10 [] [ASet "first_corner.x" RF64];
     mk_arm 20 [] [ASet "first_corner.y" RF64];
     mk_arm 30 [] [ASet "first_corner.z" RF64];
     mk_arm 11 [] [ASet "second_corner.x" RF64];
     mk_arm 21 [] [ASet "second_corner.y" RF64];
     mk_arm 31 [] [ASet "second_corner.z" RF64];
     mk_arm 12 [] [ASet "third_corner.x" RF64];
     mk_arm 22 [] [ASet "third_corner.y" RF64];
     mk_arm 32 [] [ASet "third_corner.z" RF64];
     mk_arm 13 [] [ASet "fourth_corner.x" RF64];
     mk_arm 23 [] [ASet "fourth_corner.y" RF64];
     mk_arm 33 [] [ASet "fourth_corner.z" RF64];
     mk_arm 39 [] [ASet "thickness" RF64];
     mk_arm 210 [] [ASet "extrusion_direction.x" RF64];
     mk_arm 220 [] [ASet "extrusion_direction.y" RF64];
     mk_arm 230 [] [ASet "extrusion_direction.z" RF64]] ++ common_arms)
    [] false [] []
    (common_cmds ++ [WConst [CMin R13] (mk_pair 100 (VStr (str "AcDbTrace")));
     WPair [] 10 "first_corner.x" WF64;
     WPair [] 20 "first_corner.y" WF64;
     WPair [] 30 "first_corner.z" WF64;
     WPair [] 11 "second_corner.x" WF64;
     WPair [] 21 "second_corner.y" WF64;
     WPair [] 31 "second_corner.z" WF64;
     WPair [] 12 "third_corner.x" WF64;
     WPair [] 22 "third_corner.y" WF64;
     WPair [] 32 "third_corner.z" WF64;
     WPair [] 13 "fourth_corner.x" WF64;
     WPair [] 23 "fourth_corner.y" WF64;
     WPair [] 33 "fourth_corner.z" WF64;
     WPair [CNe [("thickness", (FF64 0))]] 39 "thickness" WF64;
     WPair [CNe [("extrusion_direction.x", (FF64 0)); ("extrusion_direction.y", (FF64 0)); ("extrusion_direction.z", (FF64 4607182418800017408))]] 210 "extrusion_direction.x" WF64;
     WPair [CNe [("extrusion_direction.x", (FF64 0)); ("extrusion_direction.y", (FF64 0)); ("extrusion_direction.z", (FF64 4607182418800017408))]] 220 "extrusion_direction.y" WF64;
     WPair [CNe [("extrusion_direction.x", (FF64 0)); ("extrusion_direction.y", (FF64 0)); ("extrusion_direction.z", (FF64 4607182418800017408))]] 230 "extrusion_direction.z" WF64;
     WXdatas [] "common.x_data"]))
  ([mk_field "first_corner.x" KF64 true [10] [mk_win None None false None] [];
   mk_field "first_corner.y" KF64 true [20] [mk_win None None false None] [];
   mk_field "first_corner.z" KF64 true [30] [mk_win None None false None] [];
   mk_field "second_corner.x" KF64 true [11] [mk_win None None false None] [];
   mk_field "second_corner.y" KF64 true [21] [mk_win None None false None] [];
   mk_field "second_corner.z" KF64 true [31] [mk_win None None false None] [];
   mk_field "third_corner.x" KF64 true [12] [mk_win None None false None] [];
   mk_field "third_corner.y" KF64 true [22] [mk_win None None false None] [];
   mk_field "third_corner.z" KF64 true [32] [mk_win None None false None] [];
   mk_field "fourth_corner.x" KF64 true [13] [mk_win None None false None] [];
   mk_field "fourth_corner.y" KF64 true [23] [mk_win None None false None] [];
   mk_field "fourth_corner.z" KF64 true [33] [mk_win None None false None] [];
   mk_field "thickness" KF64 true [39] [mk_win None None false None] [];
   mk_field "extrusion_direction.x" KF64 true [210] [mk_win None None false None] [];
   mk_field "extrusion_direction.y" KF64 true [220] [mk_win None None false None] [];
   mk_field "extrusion_direction.z" KF64 true [230] [mk_win None None false None] []] ++ common_fields).

(** spec/EntitiesSpec.xml:996-1050, common fields 7-50; reader build/entity_generator.rs:452-535, writer build/entity_generator.rs:601-881. *)
Definition ent_spline : itype := mk_itype
  (mk_spec "Spline" (str "SPLINE") (Some R13) None
    ([("normal.x", (FF64 0));
     ("normal.y", (FF64 0));
     ("normal.z", (FF64 4607182418800017408));
     ("flags", (FInt 0));
     ("degree_of_curve", (FInt 1));
     ("__number_of_knots_ignored", (FInt 0));
     ("__number_of_control_points_ignored", (FInt 0));
     ("__number_of_fit_points_ignored", (FInt 0));
     ("knot_tolerance", (FF64 4502148214488346440));
     ("control_point_tolerance", (FF64 4502148214488346440));
     ("fit_tolerance", (FF64 4457293557087583675));
     ("start_tangent.x", (FF64 0));
     ("start_tangent.y", (FF64 0));
     ("start_tangent.z", (FF64 0));
     ("end_tangent.x", (FF64 0));
     ("end_tangent.y", (FF64 0));
     ("end_tangent.z", (FF64 0));
     ("knot_values", (FList []));
     ("weight_values", (FList []));
     ("__control_point_x", (FList []));
     ("__control_point_y", (FList []));
     ("__control_point_z", (FList []));
     ("control_points", (FList []));
     ("__fit_point_x", (FList []));
     ("__fit_point_y", (FList []));
     ("__fit_point_z", (FList []));
     ("fit_points", (FList []))] ++ common_defaults)
    ([mk_arm 210 [] [ASet "normal.x" RF64];
     mk_arm 220 [] [ASet "normal.y" RF64];
     mk_arm 230 [] [ASet "normal.z" RF64];
     mk_arm 70 [] [ASet "flags" RI16];
     mk_arm 71 [] [ASet "degree_of_curve" RI16];
     mk_arm 72 [] [ASet "__number_of_knots_ignored" RI16];
     mk_arm 73 [] [ASet "__number_of_control_points_ignored" RI16];
     mk_arm 74 [] [ASet "__number_of_fit_points_ignored" RI16];
     mk_arm 42 [] [ASet "knot_tolerance" RF64];
     mk_arm 43 [] [ASet "control_point_tolerance" RF64];
     mk_arm 44 [] [ASet "fit_tolerance" RF64];
     mk_arm 12 [] [ASet "start_tangent.x" RF64];
     mk_arm 22 [] [ASet "start_tangent.y" RF64];
     mk_arm 32 [] [ASet "start_tangent.z" RF64];
     mk_arm 13 [] [ASet "end_tangent.x" RF64];
     mk_arm 23 [] [ASet "end_tangent.y" RF64];
     mk_arm 33 [] [ASet "end_tangent.z" RF64];
     mk_arm 40 [] [APush "knot_values" RF64];
     mk_arm 41 [] [APush "weight_values" RF64];
     mk_arm 10 [] [APush "__control_point_x" RF64];
     mk_arm 20 [] [APush "__control_point_y" RF64];
     mk_arm 30 [] [APush "__control_point_z" RF64];
     mk_arm 11 [] [APush "__fit_point_x" RF64];
     mk_arm 21 [] [APush "__fit_point_y" RF64];
     mk_arm 31 [] [APush "__fit_point_z" RF64]] ++ common_arms)
    [] false [PCombine ["__control_point_x"; "__control_point_y"; "__control_point_z"] "control_points"; PCombine ["__fit_point_x"; "__fit_point_y"; "__fit_point_z"] "fit_points"] []
    (common_cmds ++ [WConst [] (mk_pair 100 (VStr (str "AcDbSpline")));
     WPair [] 210 "normal.x" WF64;
     WPair [] 220 "normal.y" WF64;
     WPair [] 230 "normal.z" WF64;
     WPair [] 70 "flags" WI16;
     WPair [] 71 "degree_of_curve" WI16;
     WLen [] 72 "knot_values" LI16;
     WLen [] 73 "control_points" LI16;
     WLen [] 74 "fit_points" LI16;
     WPair [CNe [("knot_tolerance", (FF64 4502148214488346440))]] 42 "knot_tolerance" WF64;
     WPair [CNe [("control_point_tolerance", (FF64 4502148214488346440))]] 43 "control_point_tolerance" WF64;
     WPair [CNe [("fit_tolerance", (FF64 4457293557087583675))]] 44 "fit_tolerance" WF64;
     WPair [] 12 "start_tangent.x" WF64;
     WPair [] 22 "start_tangent.y" WF64;
     WPair [] 32 "start_tangent.z" WF64;
     WPair [] 13 "end_tangent.x" WF64;
     WPair [] 23 "end_tangent.y" WF64;
     WPair [] 33 "end_tangent.z" WF64;
     WEach [] 40 "knot_values" WF64;
     WEach [] 41 "weight_values" WF64;
     WEachRec [] "control_points" [mk_part [] 10 0 WF64; mk_part [] 20 1 WF64; mk_part [] 30 2 WF64];
     WEachRec [] "fit_points" [mk_part [] 11 0 WF64; mk_part [] 21 1 WF64; mk_part [] 31 2 WF64];
     WXdatas [] "common.x_data"]))
  ([mk_field "normal.x" KF64 true [210] [mk_win None None false None] [];
   mk_field "normal.y" KF64 true [220] [mk_win None None false None] [];
   mk_field "normal.z" KF64 true [230] [mk_win None None false None] [];
   mk_field "flags" (KInt (-2147483648) 2147483647) true [70] [mk_win None None false None] [];
   mk_field "degree_of_curve" (KInt (-2147483648) 2147483647) true [71] [mk_win None None false None] [];
   mk_field "__number_of_knots_ignored" (KInt (-2147483648) 2147483647) false [72] [mk_win None None false None] [];
   mk_field "__number_of_control_points_ignored" (KInt (-2147483648) 2147483647) false [73] [mk_win None None false None] [];
   mk_field "__number_of_fit_points_ignored" (KInt (-2147483648) 2147483647) false [74] [mk_win None None false None] [];
   mk_field "knot_tolerance" KF64 true [42] [mk_win None None false None] [];
   mk_field "control_point_tolerance" KF64 true [43] [mk_win None None false None] [];
   mk_field "fit_tolerance" KF64 true [44] [mk_win None None false None] [];
   mk_field "start_tangent.x" KF64 true [12] [mk_win None None false None] [];
   mk_field "start_tangent.y" KF64 true [22] [mk_win None None false None] [];
   mk_field "start_tangent.z" KF64 true [32] [mk_win None None false None] [];
   mk_field "end_tangent.x" KF64 true [13] [mk_win None None false None] [];
   mk_field "end_tangent.y" KF64 true [23] [mk_win None None false None] [];
   mk_field "end_tangent.z" KF64 true [33] [mk_win None None false None] [];
   mk_field "knot_values" (KList KF64) true [40] [mk_win None None false None] [];
   mk_field "weight_values" (KList KF64) true [41] [mk_win None None false None] [];
   mk_field "__control_point_x" (KList KF64) false [10] [mk_win None None false None] [];
   mk_field "__control_point_y" (KList KF64) false [20] [mk_win None None false None] [];
   mk_field "__control_point_z" (KList KF64) false [30] [mk_win None None false None] [];
   mk_field "control_points" (KList (KRec [KF64; KF64; KF64])) true [10] [mk_win None None false None] [];
   mk_field "__fit_point_x" (KList KF64) false [11] [mk_win None None false None] [];
   mk_field "__fit_point_y" (KList KF64) false [21] [mk_win None None false None] [];
   mk_field "__fit_point_z" (KList KF64) false [31] [mk_win None None false None] [];
   mk_field "fit_points" (KList (KRec [KF64; KF64; KF64])) true [11] [mk_win None None false None] []] ++ common_fields).

(** spec/EntitiesSpec.xml:1068-1102, common fields 7-50; reader build/entity_generator.rs:452-535, writer build/entity_generator.rs:601-881. *)
Definition ent_text : itype := mk_itype
  (mk_spec "Text" (str "TEXT") None None
    ([("thickness", (FF64 0));
     ("location.x", (FF64 0));
     ("location.y", (FF64 0));
     ("location.z", (FF64 0));
     ("text_height", (FF64 4607182418800017408));
     ("value", (FStr []));
     ("rotation", (FF64 0));
     ("relative_x_scale_factor", (FF64 4607182418800017408));
     ("oblique_angle", (FF64 0));
     ("text_style_name", (FStr (str "STANDARD")));
     ("text_generation_flags", (FInt 0));
     ("horizontal_text_justification", (FInt 0));
     ("second_alignment_point.x", (FF64 0));
     ("second_alignment_point.y", (FF64 0));
     ("second_alignment_point.z", (FF64 0));
     ("normal.x", (FF64 0));
     ("normal.y", (FF64 0));
     ("normal.z", (FF64 4607182418800017408));
     ("vertical_text_justification", (FInt 0))] ++ common_defaults)
    ([mk_arm 39 [] [ASet "thickness" RF64];
     mk_arm 10 [] [ASet "location.x" RF64];
     mk_arm 20 [] [ASet "location.y" RF64];
     mk_arm 30 [] [ASet "location.z" RF64];
     mk_arm 40 [] [ASet "text_height" RF64];
     mk_arm 1 [] [ASet "value" RStr];
     mk_arm 50 [] [ASet "rotation" RF64];
     mk_arm 41 [] [ASet "relative_x_scale_factor" RF64];
     mk_arm 51 [] [ASet "oblique_angle" RF64];
     mk_arm 7 [] [ASet "text_style_name" RStr];
     mk_arm 71 [] [ASet "text_generation_flags" RI16];
     mk_arm 72 [] [ASet "horizontal_text_justification" (REnum16 e_HorizontalTextJustification 0)];
     mk_arm 11 [] [ASet "second_alignment_point.x" RF64];
     mk_arm 21 [] [ASet "second_alignment_point.y" RF64];
     mk_arm 31 [] [ASet "second_alignment_point.z" RF64];
     mk_arm 210 [] [ASet "normal.x" RF64];
     mk_arm 220 [] [ASet "normal.y" RF64];
     mk_arm 230 [] [ASet "normal.z" RF64];
     mk_arm 73 [] [ASet "vertical_text_justification" (REnum16 e_VerticalTextJustification 0)]] ++ common_arms)
    [] false [] []
    (common_cmds ++ [WConst [CMin R13] (mk_pair 100 (VStr (str "AcDbText")));
     WPair [CNe [("thickness", (FF64 0))]] 39 "thickness" WF64;
     WPair [] 10 "location.x" WF64;
     WPair [] 20 "location.y" WF64;
     WPair [] 30 "location.z" WF64;
     WPair [] 40 "text_height" WF64;
     WPair [] 1 "value" WStr;
     WPair [CNe [("rotation", (FF64 0))]] 50 "rotation" WF64;
     WPair [CNe [("relative_x_scale_factor", (FF64 4607182418800017408))]] 41 "relative_x_scale_factor" WF64;
     WPair [CNe [("oblique_angle", (FF64 0))]] 51 "oblique_angle" WF64;
     WPair [CNe [("text_style_name", (FStr (str "STANDARD")))]] 7 "text_style_name" WStr;
     WPair [CNe [("text_generation_flags", (FInt 0))]] 71 "text_generation_flags" WI16;
     WPair [CNe [("horizontal_text_justification", (FInt 0))]] 72 "horizontal_text_justification" WI16;
     WPair [CNe [("second_alignment_point.x", (FF64 0)); ("second_alignment_point.y", (FF64 0)); ("second_alignment_point.z", (FF64 0))]] 11 "second_alignment_point.x" WF64;
     WPair [CNe [("second_alignment_point.x", (FF64 0)); ("second_alignment_point.y", (FF64 0)); ("second_alignment_point.z", (FF64 0))]] 21 "second_alignment_point.y" WF64;
     WPair [CNe [("second_alignment_point.x", (FF64 0)); ("second_alignment_point.y", (FF64 0)); ("second_alignment_point.z", (FF64 0))]] 31 "second_alignment_point.z" WF64;
     WPair [CNe [("normal.x", (FF64 0)); ("normal.y", (FF64 0)); ("normal.z", (FF64 4607182418800017408))]] 210 "normal.x" WF64;
     WPair [CNe [("normal.x", (FF64 0)); ("normal.y", (FF64 0)); ("normal.z", (FF64 4607182418800017408))]] 220 "normal.y" WF64;
     WPair [CNe [("normal.x", (FF64 0)); ("normal.y", (FF64 0)); ("normal.z", (FF64 4607182418800017408))]] 230 "normal.z" WF64;
     WPair [CNe [("vertical_text_justification", (FInt 0))]] 73 "vertical_text_justification" WI16;
     WConst [CMin R13] (mk_pair 100 (VStr (str "AcDbText")));
     WXdatas [] "common.x_data"]))
  ([mk_field "thickness" KF64 true [39] [mk_win None None false None] [];
   mk_field "location.x" KF64 true [10] [mk_win None None false None] [];
   mk_field "location.y" KF64 true [20] [mk_win None None false None] [];
   mk_field "location.z" KF64 true [30] [mk_win None None false None] [];
   mk_field "text_height" KF64 true [40] [mk_win None None false None] [];
   mk_field "value" KStr true [1] [mk_win None None false None] [];
   mk_field "rotation" KF64 true [50] [mk_win None None false None] [];
   mk_field "relative_x_scale_factor" KF64 true [41] [mk_win None None false None] [];
   mk_field "oblique_angle" KF64 true [51] [mk_win None None false None] [];
   mk_field "text_style_name" KStr true [7] [mk_win None None false None] [];
   mk_field "text_generation_flags" (KInt (-2147483648) 2147483647) true [71] [mk_win None None false None] [];
   mk_field "horizontal_text_justification" (KEnum e_HorizontalTextJustification) true [72] [mk_win None None false None] [];
   mk_field "second_alignment_point.x" KF64 true [11] [mk_win None None false None] [];
   mk_field "second_alignment_point.y" KF64 true [21] [mk_win None None false None] [];
   mk_field "second_alignment_point.z" KF64 true [31] [mk_win None None false None] [];
   mk_field "normal.x" KF64 true [210] [mk_win None None false None] [];
   mk_field "normal.y" KF64 true [220] [mk_win None None false None] [];
   mk_field "normal.z" KF64 true [230] [mk_win None None false None] [];
   mk_field "vertical_text_justification" (KEnum e_VerticalTextJustification) true [73] [mk_win None None false None] []] ++ common_fields).

(** spec/EntitiesSpec.xml:1108-1114, common fields 7-50; reader build/entity_generator.rs:452-535, writer build/entity_generator.rs:601-881. *)
Definition ent_tolerance : itype := mk_itype
  (mk_spec "Tolerance" (str "TOLERANCE") (Some R13) None
    ([("dimension_style_name", (FStr []));
     ("insertion_point.x", (FF64 0));
     ("insertion_point.y", (FF64 0));
     ("insertion_point.z", (FF64 0));
     ("display_text", (FStr []));
     ("extrusion_direction.x", (FF64 0));
     ("extrusion_direction.y", (FF64 0));
     ("extrusion_direction.z", (FF64 4607182418800017408));
     ("direction_vector.x", (FF64 4607182418800017408));
     ("direction_vector.y", (FF64 0));
     ("direction_vector.z", (FF64 0))] ++ common_defaults)
    ([mk_arm 3 [] [ASet "dimension_style_name" RStr];
     mk_arm 10 [] [ASet "insertion_point.x" RF64];
     mk_arm 20 [] [ASet "insertion_point.y" RF64];
     mk_arm 30 [] [ASet "insertion_point.z" RF64];
     mk_arm 1 [] [ASet "display_text" RStr];
     mk_arm 210 [] [ASet "extrusion_direction.x" RF64];
     mk_arm 220 [] [ASet "extrusion_direction.y" RF64];
     mk_arm 230 [] [ASet "extrusion_direction.z" RF64];
     mk_arm 11 [] [ASet "direction_vector.x" RF64];
     mk_arm 21 [] [ASet "direction_vector.y" RF64];
     mk_arm 31 [] [ASet "direction_vector.z" RF64]] ++ common_arms)
    [] false [] []
    (common_cmds ++ [WConst [CMin R13] (mk_pair 100 (VStr (str "AcDbFcf")));
     WPair [] 3 "dimension_style_name" WStr;
     WPair [] 10 "insertion_point.x" WF64;
     WPair [] 20 "insertion_point.y" WF64;
     WPair [] 30 "insertion_point.z" WF64;
     WPair [CMin R2000] 1 "display_text" WStr;
     WPair [CNe [("extrusion_direction.x", (FF64 0)); ("extrusion_direction.y", (FF64 0)); ("extrusion_direction.z", (FF64 4607182418800017408))]] 210 "extrusion_direction.x" WF64;
     WPair [CNe [("extrusion_direction.x", (FF64 0)); ("extrusion_direction.y", (FF64 0)); ("extrusion_direction.z", (FF64 4607182418800017408))]] 220 "extrusion_direction.y" WF64;
     WPair [CNe [("extrusion_direction.x", (FF64 0)); ("extrusion_direction.y", (FF64 0)); ("extrusion_direction.z", (FF64 4607182418800017408))]] 230 "extrusion_direction.z" WF64;
     WPair [] 11 "direction_vector.x" WF64;
     WPair [] 21 "direction_vector.y" WF64;
     WPair [] 31 "direction_vector.z" WF64;
     WXdatas [] "common.x_data"]))
  ([mk_field "dimension_style_name" KStr true [3] [mk_win None None false None] [];
   mk_field "insertion_point.x" KF64 true [10] [mk_win None None false None] [];
   mk_field "insertion_point.y" KF64 true [20] [mk_win None None false None] [];
   mk_field "insertion_point.z" KF64 true [30] [mk_win None None false None] [];
   mk_field "display_text" KStr true [1] [mk_win (Some R2000) None false None] [];
   mk_field "extrusion_direction.x" KF64 true [210] [mk_win None None false None] [];
   mk_field "extrusion_direction.y" KF64 true [220] [mk_win None None false None] [];
   mk_field "extrusion_direction.z" KF64 true [230] [mk_win None None false None] [];
   mk_field "direction_vector.x" KF64 true [11] [mk_win None None false None] [];
   mk_field "direction_vector.y" KF64 true [21] [mk_win None None false None] [];
   mk_field "direction_vector.z" KF64 true [31] [mk_win None None false None] []] ++ common_fields).

(** spec/EntitiesSpec.xml:1120-1127, common fields 7-50; reader build/entity_generator.rs:452-535, writer build/entity_generator.rs:601-881. *)
Definition ent_trace : itype := mk_itype
  (mk_spec "Trace" (str "TRACE") None None
    ([("first_corner.x", (FF64 0));
     ("first_corner.y", (FF64 0));
     ("first_corner.z", (FF64 0));
     ("second_corner.x", (FF64 0));
     ("second_corner.y", (FF64 0));
     ("second_corner.z", (FF64 0));
     ("third_corner.x", (FF64 0));
     ("third_corner.y", (FF64 0));
     ("third_corner.z", (FF64 0));
     ("fourth_corner.x", (FF64 0));
     ("fourth_corner.y", (FF64 0));
     ("fourth_corner.z", (FF64 0));
     ("thickness", (FF64 0));
     ("extrusion_direction.x", (FF64 0));
     ("extrusion_direction.y", (FF64 0));
     ("extrusion_direction.z", (FF64 4607182418800017408))] ++ common_defaults)
    ([mk_arm 10 [] [ASet "first_corner.x" RF64];
     mk_arm 20 [] [ASet "first_corner.y" RF64];
     mk_arm 30 [] [ASet "first_corner.z" RF64];
     mk_arm 11 [] [ASet "second_corner.x" RF64];
     mk_arm 21 [] [ASet "second_corner.y" RF64];
     mk_arm 31 [] [ASet "second_corner.z" RF64];
     mk_arm 12 [] [ASet "third_corner.x" RF64];
     mk_arm 22 [] [ASet "third_corner.y" RF64];
     mk_arm 32 [] [ASet "third_corner.z" RF64];
     mk_arm 13 [] [ASet "fourth_corner.x" RF64];
     mk_arm 23 [] [ASet "fourth_corner.y" RF64];
     mk_arm 33 [] [ASet "fourth_corner.z" RF64];
     mk_arm 39 [] [ASet "thickness" RF64];
     mk_arm 210 [] [ASet "extrusion_direction.x" RF64];
     mk_arm 220 [] [ASet "extrusion_direction.y" RF64];
     mk_arm 230 [] [ASet "extrusion_direction.z" RF64]] ++ common_arms)
    [] false [] []
    (common_cmds ++ [WConst [CMin R13] (mk_pair 100 (VStr (str "AcDbTrace")));
     WPair [] 10 "first_corner.x" WF64;
     WPair [] 20 "first_corner.y" WF64;
     WPair [] 30 "first_corner.z" WF64;
     WPair [] 11 "second_corner.x" WF64;
     WPair [] 21 "second_corner.y" WF64;
     WPair [] 31 "second_corner.z" WF64;
     WPair [] 12 "third_corner.x" WF64;
     WPair [] 22 "third_corner.y" WF64;
     WPair [] 32 "third_corner.z" WF64;
     WPair [] 13 "fourth_corner.x" WF64;
     WPair [] 23 "fourth_corner.y" WF64;
     WPair [] 33 "fourth_corner.z" WF64;
     WPair [CNe [("thickness", (FF64 0))]] 39 "thickness" WF64;
     WPair [CNe [("extrusion_direction.x", (FF64 0)); ("extrusion_direction.y", (FF64 0)); ("extrusion_direction.z", (FF64 4607182418800017408))]] 210 "extrusion_direction.x" WF64;
     WPair [CNe [("extrusion_direction.x", (FF64 0)); ("extrusion_direction.y", (FF64 0)); ("extrusion_direction.z", (FF64 4607182418800017408))]] 220 "extrusion_direction.y" WF64;
     WPair [CNe [("extrusion_direction.x", (FF64 0)); ("extrusion_direction.y", (FF64 0)); ("extrusion_direction.z", (FF64 4607182418800017408))]] 230 "extrusion_direction.z" WF64;
     WXdatas [] "common.x_data"]))
  ([mk_field "first_corner.x" KF64 true [10] [mk_win None None false None] [];
   mk_field "first_corner.y" KF64 true [20] [mk_win None None false None] [];
   mk_field "first_corner.z" KF64 true [30] [mk_win None None false None] [];
   mk_field "second_corner.x" KF64 true [11] [mk_win None None false None] [];
   mk_field "second_corner.y" KF64 true [21] [mk_win None None false None] [];
   mk_field "second_corner.z" KF64 true [31] [mk_win None None false None] [];
   mk_field "third_corner.x" KF64 true [12] [mk_win None None false None] [];
   mk_field "third_corner.y" KF64 true [22] [mk_win None None false None] [];
   mk_field "third_corner.z" KF64 true [32] [mk_win None None false None] [];
   mk_field "fourth_corner.x" KF64 true [13] [mk_win None None false None] [];
   mk_field "fourth_corner.y" KF64 true [23] [mk_win None None false None] [];
   mk_field "fourth_corner.z" KF64 true [33] [mk_win None None false None] [];
   mk_field "thickness" KF64 true [39] [mk_win None None false None] [];
   mk_field "extrusion_direction.x" KF64 true [210] [mk_win None None false None] [];
   mk_field "extrusion_direction.y" KF64 true [220] [mk_win None None false None] [];
   mk_field "extrusion_direction.z" KF64 true [230] [mk_win None None false None] []] ++ common_fields).

(** spec/EntitiesSpec.xml:1133-1170, common fields 7-50; reader build/entity_generator.rs:452-535, writer build/entity_generator.rs:601-881. *)
Definition ent_dgn_underlay : itype := mk_itype
  (mk_spec "DgnUnderlay" (str "DGNUNDERLAY") (Some R2007) None
    ([("__object_handle", (FHandle 0));
     ("insertion_point.x", (FF64 0));
     ("insertion_point.y", (FF64 0));
     ("insertion_point.z", (FF64 0));
     ("x_scale", (FF64 4607182418800017408));
     ("y_scale", (FF64 4607182418800017408));
     ("z_scale", (FF64 4607182418800017408));
     ("rotation_angle", (FF64 0));
     ("normal.x", (FF64 0));
     ("normal.y", (FF64 0));
     ("normal.z", (FF64 4607182418800017408));
     ("flags", (FInt 0));
     ("contrast", (FInt 100));
     ("fade", (FInt 0));
     ("__point_x", (FList []));
     ("__point_y", (FList []));
     ("points", (FList []))] ++ common_defaults)
    ([mk_arm 340 [] [ASet "__object_handle" RHandle];
     mk_arm 10 [] [ASet "insertion_point.x" RF64];
     mk_arm 20 [] [ASet "insertion_point.y" RF64];
     mk_arm 30 [] [ASet "insertion_point.z" RF64];
     mk_arm 41 [] [ASet "x_scale" RF64];
     mk_arm 42 [] [ASet "y_scale" RF64];
     mk_arm 43 [] [ASet "z_scale" RF64];
     mk_arm 50 [] [ASet "rotation_angle" RF64];
     mk_arm 210 [] [ASet "normal.x" RF64];
     mk_arm 220 [] [ASet "normal.y" RF64];
     mk_arm 230 [] [ASet "normal.z" RF64];
     mk_arm 280 [] [ASet "flags" RI16];
     mk_arm 281 [] [ASet "contrast" RI16];
     mk_arm 282 [] [ASet "fade" RI16];
     mk_arm 11 [] [APush "__point_x" RF64];
     mk_arm 21 [] [APush "__point_y" RF64]] ++ common_arms)
    [] false [PCombine ["__point_x"; "__point_y"] "points"] []
    (common_cmds ++ [WConst [] (mk_pair 100 (VStr (str "AcDbUnderlayReference")));
     WPair [] 340 "__object_handle" WHandle;
     WPair [] 10 "insertion_point.x" WF64;
     WPair [] 20 "insertion_point.y" WF64;
     WPair [] 30 "insertion_point.z" WF64;
     WPair [] 41 "x_scale" WF64;
     WPair [] 42 "y_scale" WF64;
     WPair [] 43 "z_scale" WF64;
     WPair [] 50 "rotation_angle" WF64;
     WPair [] 210 "normal.x" WF64;
     WPair [] 220 "normal.y" WF64;
     WPair [] 230 "normal.z" WF64;
     WPair [] 280 "flags" WI16;
     WPair [] 281 "contrast" WI16;
     WPair [] 282 "fade" WI16;
     WEachRec [] "points" [mk_part [] 11 0 WF64; mk_part [] 12 1 WF64];
     WXdatas [] "common.x_data"]))
  ([mk_field "__object_handle" KHandle true [340] [mk_win None None false None] [];
   mk_field "insertion_point.x" KF64 true [10] [mk_win None None false None] [];
   mk_field "insertion_point.y" KF64 true [20] [mk_win None None false None] [];
   mk_field "insertion_point.z" KF64 true [30] [mk_win None None false None] [];
   mk_field "x_scale" KF64 true [41] [mk_win None None false None] [];
   mk_field "y_scale" KF64 true [42] [mk_win None None false None] [];
   mk_field "z_scale" KF64 true [43] [mk_win None None false None] [];
   mk_field "rotation_angle" KF64 true [50] [mk_win None None false None] [];
   mk_field "normal.x" KF64 true [210] [mk_win None None false None] [];
   mk_field "normal.y" KF64 true [220] [mk_win None None false None] [];
   mk_field "normal.z" KF64 true [230] [mk_win None None false None] [];
   mk_field "flags" (KInt (-2147483648) 2147483647) true [280] [mk_win None None false None] [];
   mk_field "contrast" (KInt (-32768) 32767) true [281] [mk_win None None false None] [];
   mk_field "fade" (KInt (-32768) 32767) true [282] [mk_win None None false None] [];
   mk_field "__point_x" (KList KF64) false [11] [mk_win None None false None] [];
   mk_field "__point_y" (KList KF64) false [21] [mk_win None None false None] [];
   mk_field "points" (KList (KRec [KF64; KF64; KConst (FF64 0)])) true [11] [mk_win None None false None] []] ++ common_fields).

(** spec/EntitiesSpec.xml:1171-1208, common fields 7-50; reader build/entity_generator.rs:452-535, writer build/entity_generator.rs:601-881. *)
Definition ent_dwf_underlay : itype := mk_itype
  (mk_spec "DwfUnderlay" (str "DWFUNDERLAY") (Some R2007) None
    ([("__object_handle", (FHandle 0));
     ("insertion_point.x", (FF64 0));
     ("insertion_point.y", (FF64 0));
     ("insertion_point.z", (FF64 0));
     ("x_scale", (FF64 4607182418800017408));
     ("y_scale", (FF64 4607182418800017408));
     ("z_scale", (FF64 4607182418800017408));
     ("rotation_angle", (FF64 0));
     ("normal.x", (FF64 0));
     ("normal.y", (FF64 0));
     ("normal.z", (FF64 4607182418800017408));
     ("flags", (FInt 0));
     ("contrast", (FInt 100));
     ("fade", (FInt 0));
     ("__point_x", (FList []));
     ("__point_y", (FList []));
     ("points", (FList []))] ++ common_defaults)
    ([mk_arm 340 [] [ASet "__object_handle" RHandle];
     mk_arm 10 [] [ASet "insertion_point.x" RF64];
     mk_arm 20 [] [ASet "insertion_point.y" RF64];
     mk_arm 30 [] [ASet "insertion_point.z" RF64];
     mk_arm 41 [] [ASet "x_scale" RF64];
     mk_arm 42 [] [ASet "y_scale" RF64];
     mk_arm 43 [] [ASet "z_scale" RF64];
     mk_arm 50 [] [ASet "rotation_angle" RF64];
     mk_arm 210 [] [ASet "normal.x" RF64];
     mk_arm 220 [] [ASet "normal.y" RF64];
     mk_arm 230 [] [ASet "normal.z" RF64];
     mk_arm 280 [] [ASet "flags" RI16];
     mk_arm 281 [] [ASet "contrast" RI16];
     mk_arm 282 [] [ASet "fade" RI16];
     mk_arm 11 [] [APush "__point_x" RF64];
     mk_arm 21 [] [APush "__point_y" RF64]] ++ common_arms)
    [] false [PCombine ["__point_x"; "__point_y"] "points"] []
    (common_cmds ++ [WConst [] (mk_pair 100 (VStr (str "AcDbUnderlayReference")));
     WPair [] 340 "__object_handle" WHandle;
     WPair [] 10 "insertion_point.x" WF64;
     WPair [] 20 "insertion_point.y" WF64;
     WPair [] 30 "insertion_point.z" WF64;
     WPair [] 41 "x_scale" WF64;
     WPair [] 42 "y_scale" WF64;
     WPair [] 43 "z_scale" WF64;
     WPair [] 50 "rotation_angle" WF64;
     WPair [] 210 "normal.x" WF64;
     WPair [] 220 "normal.y" WF64;
     WPair [] 230 "normal.z" WF64;
     WPair [] 280 "flags" WI16;
     WPair [] 281 "contrast" WI16;
     WPair [] 282 "fade" WI16;
     WEachRec [] "points" [mk_part [] 11 0 WF64; mk_part [] 12 1 WF64];
     WXdatas [] "common.x_data"]))
  ([mk_field "__object_handle" KHandle true [340] [mk_win None None false None] [];
   mk_field "insertion_point.x" KF64 true [10] [mk_win None None false None] [];
   mk_field "insertion_point.y" KF64 true [20] [mk_win None None false None] [];
   mk_field "insertion_point.z" KF64 true [30] [mk_win None None false None] [];
   mk_field "x_scale" KF64 true [41] [mk_win None None false None] [];
   mk_field "y_scale" KF64 true [42] [mk_win None None false None] [];
   mk_field "z_scale" KF64 true [43] [mk_win None None false None] [];
   mk_field "rotation_angle" KF64 true [50] [mk_win None None false None] [];
   mk_field "normal.x" KF64 true [210] [mk_win None None false None] [];
   mk_field "normal.y" KF64 true [220] [mk_win None None false None] [];
   mk_field "normal.z" KF64 true [230] [mk_win None None false None] [];
   mk_field "flags" (KInt (-2147483648) 2147483647) true [280] [mk_win None None false None] [];
   mk_field "contrast" (KInt (-32768) 32767) true [281] [mk_win None None false None] [];
   mk_field "fade" (KInt (-32768) 32767) true [282] [mk_win None None false None] [];
   mk_field "__point_x" (KList KF64) false [11] [mk_win None None false None] [];
   mk_field "__point_y" (KList KF64) false [21] [mk_win None None false None] [];
   mk_field "points" (KList (KRec [KF64; KF64; KConst (FF64 0)])) true [11] [mk_win None None false None] []] ++ common_fields).

(** spec/EntitiesSpec.xml:1209-1246, common fields 7-50; reader build/entity_generator.rs:452-535, writer build/entity_generator.rs:601-881. *)
Definition ent_pdf_underlay : itype := mk_itype
  (mk_spec "PdfUnderlay" (str "PDFUNDERLAY") (Some R2007) None
    ([("__object_handle", (FHandle 0));
     ("insertion_point.x", (FF64 0));
     ("insertion_point.y", (FF64 0));
     ("insertion_point.z", (FF64 0));
     ("x_scale", (FF64 4607182418800017408));
     ("y_scale", (FF64 4607182418800017408));
     ("z_scale", (FF64 4607182418800017408));
     ("rotation_angle", (FF64 0));
     ("normal.x", (FF64 0));
     ("normal.y", (FF64 0));
     ("normal.z", (FF64 4607182418800017408));
     ("flags", (FInt 0));
     ("contrast", (FInt 100));
     ("fade", (FInt 0));
     ("__point_x", (FList []));
     ("__point_y", (FList []));
     ("points", (FList []))] ++ common_defaults)
    ([mk_arm 340 [] [ASet "__object_handle" RHandle];
     mk_arm 10 [] [ASet "insertion_point.x" RF64];
     mk_arm 20 [] [ASet "insertion_point.y" RF64];
     mk_arm 30 [] [ASet "insertion_point.z" RF64];
     mk_arm 41 [] [ASet "x_scale" RF64];
     mk_arm 42 [] [ASet "y_scale" RF64];
     mk_arm 43 [] [ASet "z_scale" RF64];
     mk_arm 50 [] [ASet "rotation_angle" RF64];
     mk_arm 210 [] [ASet "normal.x" RF64];
     mk_arm 220 [] [ASet "normal.y" RF64];
     mk_arm 230 [] [ASet "normal.z" RF64];
     mk_arm 280 [] [ASet "flags" RI16];
     mk_arm 281 [] [ASet "contrast" RI16];
     mk_arm 282 [] [ASet "fade" RI16];
     mk_arm 11 [] [APush "__point_x" RF64];
     mk_arm 21 [] [APush "__point_y" RF64]] ++ common_arms)
    [] false [PCombine ["__point_x"; "__point_y"] "points"] []
    (common_cmds ++ [WConst [] (mk_pair 100 (VStr (str "AcDbUnderlayReference")));
     WPair [] 340 "__object_handle" WHandle;
     WPair [] 10 "insertion_point.x" WF64;
     WPair [] 20 "insertion_point.y" WF64;
     WPair [] 30 "insertion_point.z" WF64;
     WPair [] 41 "x_scale" WF64;
     WPair [] 42 "y_scale" WF64;
     WPair [] 43 "z_scale" WF64;
     WPair [] 50 "rotation_angle" WF64;
     WPair [] 210 "normal.x" WF64;
     WPair [] 220 "normal.y" WF64;
     WPair [] 230 "normal.z" WF64;
     WPair [] 280 "flags" WI16;
     WPair [] 281 "contrast" WI16;
     WPair [] 282 "fade" WI16;
     WEachRec [] "points" [mk_part [] 11 0 WF64; mk_part [] 12 1 WF64];
     WXdatas [] "common.x_data"]))
  ([mk_field "__object_handle" KHandle true [340] [mk_win None None false None] [];
   mk_field "insertion_point.x" KF64 true [10] [mk_win None None false None] [];
   mk_field "insertion_point.y" KF64 true [20] [mk_win None None false None] [];
   mk_field "insertion_point.z" KF64 true [30] [mk_win None None false None] [];
   mk_field "x_scale" KF64 true [41] [mk_win None None false None] [];
   mk_field "y_scale" KF64 true [42] [mk_win None None false None] [];
   mk_field "z_scale" KF64 true [43] [mk_win None None false None] [];
   mk_field "rotation_angle" KF64 true [50] [mk_win None None false None] [];
   mk_field "normal.x" KF64 true [210] [mk_win None None false None] [];
   mk_field "normal.y" KF64 true [220] [mk_win None None false None] [];
   mk_field "normal.z" KF64 true [230] [mk_win None None false None] [];
   mk_field "flags" (KInt (-2147483648) 2147483647) true [280] [mk_win None None false None] [];
   mk_field "contrast" (KInt (-32768) 32767) true [281] [mk_win None None false None] [];
   mk_field "fade" (KInt (-32768) 32767) true [282] [mk_win None None false None] [];
   mk_field "__point_x" (KList KF64) false [11] [mk_win None None false None] [];
   mk_field "__point_y" (KList KF64) false [21] [mk_win None None false None] [];
   mk_field "points" (KList (KRec [KF64; KF64; KConst (FF64 0)])) true [11] [mk_win None None false None] []] ++ common_fields).

(** spec/EntitiesSpec.xml:1252-1272, common fields 7-50; reader build/entity_generator.rs:452-535, writer src/entity.rs:1490-1536. *)
Definition ent_vertex : itype := mk_itype
  (mk_spec "Vertex" (str "VERTEX") None None
    ([("location.x", (FF64 0));
     ("location.y", (FF64 0));
     ("location.z", (FF64 0));
     ("starting_width", (FF64 0));
     ("ending_width", (FF64 0));
     ("bulge", (FF64 0));
     ("flags", (FInt 0));
     ("curve_fit_tangent_direction", (FF64 0));
     ("polyface_mesh_vertex_index1", (FInt 0));
     ("polyface_mesh_vertex_index2", (FInt 0));
     ("polyface_mesh_vertex_index3", (FInt 0));
     ("polyface_mesh_vertex_index4", (FInt 0));
     ("identifier", (FInt 0))] ++ common_defaults)
    ([mk_arm 10 [] [ASet "location.x" RF64];
     mk_arm 20 [] [ASet "location.y" RF64];
     mk_arm 30 [] [ASet "location.z" RF64];
     mk_arm 40 [] [ASet "starting_width" RF64];
     mk_arm 41 [] [ASet "ending_width" RF64];
     mk_arm 42 [] [ASet "bulge" RF64];
     mk_arm 70 [] [ASet "flags" RI16];
     mk_arm 50 [] [ASet "curve_fit_tangent_direction" RF64];
     mk_arm 71 [] [ASet "polyface_mesh_vertex_index1" RI16];
     mk_arm 72 [] [ASet "polyface_mesh_vertex_index2" RI16];
     mk_arm 73 [] [ASet "polyface_mesh_vertex_index3" RI16];
     mk_arm 74 [] [ASet "polyface_mesh_vertex_index4" RI16];
     mk_arm 91 [] [ASet "identifier" RI32]] ++ common_arms)
    [] false [] []
    (common_cmds ++ [WConst [] (mk_pair 100 (VStr (str "AcDbVertex")));
     WConst [CMin R13; CMask "flags" 96 true] (mk_pair 100 (VStr (str "AcDb3dPolylineVertex")));
     WConst [CMin R13; CMask "flags" 96 false] (mk_pair 100 (VStr (str "AcDb2dVertex")));
     WPair [] 10 "location.x" WF64;
     WPair [] 20 "location.y" WF64;
     WPair [] 30 "location.z" WF64;
     WPair [CNe [("starting_width", (FF64 0))]] 40 "starting_width" WF64;
     WPair [CNe [("ending_width", (FF64 0))]] 41 "ending_width" WF64;
     WPair [CNe [("bulge", (FF64 0))]] 42 "bulge" WF64;
     WPair [] 70 "flags" WI16;
     WPair [] 50 "curve_fit_tangent_direction" WF64;
     WPair [CMin R12; CNe [("polyface_mesh_vertex_index1", (FInt 0))]] 71 "polyface_mesh_vertex_index1" WI16;
     WPair [CMin R12; CNe [("polyface_mesh_vertex_index2", (FInt 0))]] 72 "polyface_mesh_vertex_index2" WI16;
     WPair [CMin R12; CNe [("polyface_mesh_vertex_index3", (FInt 0))]] 73 "polyface_mesh_vertex_index3" WI16;
     WPair [CMin R12; CNe [("polyface_mesh_vertex_index4", (FInt 0))]] 74 "polyface_mesh_vertex_index4" WI16;
     WPair [CMin R2010] 91 "identifier" WI32;
     WXdatas [] "common.x_data"]))
  ([mk_field "location.x" KF64 true [10] [mk_win None None false None] [];
   mk_field "location.y" KF64 true [20] [mk_win None None false None] [];
   mk_field "location.z" KF64 true [30] [mk_win None None false None] [];
   mk_field "starting_width" KF64 true [40] [mk_win None None false None] [];
   mk_field "ending_width" KF64 true [41] [mk_win None None false None] [];
   mk_field "bulge" KF64 true [42] [mk_win None None false None] [];
   mk_field "flags" (KInt (-2147483648) 2147483647) true [70] [mk_win None None false None] [];
   mk_field "curve_fit_tangent_direction" KF64 true [50] [mk_win None None false None] [];
   mk_field "polyface_mesh_vertex_index1" (KInt (-2147483648) 2147483647) true [71] [mk_win (Some R12) None false None] [];
   mk_field "polyface_mesh_vertex_index2" (KInt (-2147483648) 2147483647) true [72] [mk_win (Some R12) None false None] [];
   mk_field "polyface_mesh_vertex_index3" (KInt (-2147483648) 2147483647) true [73] [mk_win (Some R12) None false None] [];
   mk_field "polyface_mesh_vertex_index4" (KInt (-2147483648) 2147483647) true [74] [mk_win (Some R12) None false None] [];
   mk_field "identifier" (KInt (-2147483648) 2147483647) true [91] [mk_win (Some R2010) None false None] []] ++ common_fields).

(** spec/EntitiesSpec.xml:1284-1330, common fields 7-50; reader build/entity_generator.rs:452-535, writer build/entity_generator.rs:601-881. *)
Definition ent_wipeout : itype := mk_itype
  (mk_spec "Wipeout" (str "WIPEOUT") (Some R2000) None
    ([("class_version", (FInt 0));
     ("location.x", (FF64 0));
     ("location.y", (FF64 0));
     ("location.z", (FF64 0));
     ("u_vector.x", (FF64 4607182418800017408));
     ("u_vector.y", (FF64 0));
     ("u_vector.z", (FF64 0));
     ("v_vector.x", (FF64 0));
     ("v_vector.y", (FF64 4607182418800017408));
     ("v_vector.z", (FF64 0));
     ("image_size.x", (FF64 0));
     ("image_size.y", (FF64 0));
     ("image_size.z", (FF64 0));
     ("image_def_reference", (FStr []));
     ("display_options_flags", (FInt 0));
     ("use_clipping", (FBool true));
     ("brightness", (FInt 50));
     ("contrast", (FInt 50));
     ("fade", (FInt 0));
     ("image_def_reactor_reference", (FStr []));
     ("clipping_type", (FInt 1));
     ("clipping_vertex_count", (FInt 0));
     ("__clipping_vertices_x", (FList []));
     ("__clipping_vertices_y", (FList []));
     ("clipping_vertices", (FList []));
     ("is_inside_clipping", (FBool false))] ++ common_defaults)
    ([mk_arm 90 [] [ASet "class_version" RI32];
     mk_arm 10 [] [ASet "location.x" RF64];
     mk_arm 20 [] [ASet "location.y" RF64];
     mk_arm 30 [] [ASet "location.z" RF64];
     mk_arm 11 [] [ASet "u_vector.x" RF64];
     mk_arm 21 [] [ASet "u_vector.y" RF64];
     mk_arm 31 [] [ASet "u_vector.z" RF64];
     mk_arm 12 [] [ASet "v_vector.x" RF64];
     mk_arm 22 [] [ASet "v_vector.y" RF64];
     mk_arm 32 [] [ASet "v_vector.z" RF64];
     mk_arm 13 [] [ASet "image_size.x" RF64];
     mk_arm 23 [] [ASet "image_size.y" RF64];
     mk_arm 340 [] [ASet "image_def_reference" RStr];
     mk_arm 70 [] [ASet "display_options_flags" RI16];
     mk_arm 280 [] [ASet "use_clipping" RAsBool];
     mk_arm 281 [] [ASet "brightness" RI16];
     mk_arm 282 [] [ASet "contrast" RI16];
     mk_arm 283 [] [ASet "fade" RI16];
     mk_arm 360 [] [ASet "image_def_reactor_reference" RStr];
     mk_arm 71 [] [ASet "clipping_type" (REnum16 e_ImageClippingBoundaryType 1)];
     mk_arm 91 [] [ASet "clipping_vertex_count" RI32];
     mk_arm 14 [] [APush "__clipping_vertices_x" RF64];
     mk_arm 290 [] [ASet "is_inside_clipping" RBool]] ++ common_arms)
    [] false [PCombine ["__clipping_vertices_x"; "__clipping_vertices_y"] "clipping_vertices"] []
    (common_cmds ++ [WConst [] (mk_pair 100 (VStr (str "AcDbRasterImage")));
     WPair [] 90 "class_version" WI32;
     WPair [] 10 "location.x" WF64;
     WPair [] 20 "location.y" WF64;
     WPair [] 30 "location.z" WF64;
     WPair [] 11 "u_vector.x" WF64;
     WPair [] 21 "u_vector.y" WF64;
     WPair [] 31 "u_vector.z" WF64;
     WPair [] 12 "v_vector.x" WF64;
     WPair [] 22 "v_vector.y" WF64;
     WPair [] 32 "v_vector.z" WF64;
     WPair [] 13 "image_size.x" WF64;
     WPair [] 23 "image_size.y" WF64;
     WPair [] 340 "image_def_reference" WStr;
     WPair [] 70 "display_options_flags" WI16;
     WPair [] 280 "use_clipping" WAsI16;
     WPair [] 281 "brightness" WI16;
     WPair [] 282 "contrast" WI16;
     WPair [] 283 "fade" WI16;
     WPair [] 360 "image_def_reactor_reference" WStr;
     WPair [] 71 "clipping_type" WI16;
     WLen [] 91 "clipping_vertices" LI32;
     WEachRec [] "clipping_vertices" [mk_part [] 14 0 WF64; mk_part [] 24 1 WF64];
     WPair [CMin R2010] 290 "is_inside_clipping" WBool;
     WXdatas [] "common.x_data"]))
  ([mk_field "class_version" (KInt (-2147483648) 2147483647) true [90] [mk_win None None false None] [];
   mk_field "location.x" KF64 true [10] [mk_win None None false None] [];
   mk_field "location.y" KF64 true [20] [mk_win None None false None] [];
   mk_field "location.z" KF64 true [30] [mk_win None None false None] [];
   mk_field "u_vector.x" KF64 true [11] [mk_win None None false None] [];
   mk_field "u_vector.y" KF64 true [21] [mk_win None None false None] [];
   mk_field "u_vector.z" KF64 true [31] [mk_win None None false None] [];
   mk_field "v_vector.x" KF64 true [12] [mk_win None None false None] [];
   mk_field "v_vector.y" KF64 true [22] [mk_win None None false None] [];
   mk_field "v_vector.z" KF64 true [32] [mk_win None None false None] [];
   mk_field "image_size.x" KF64 true [13] [mk_win None None false None] [];
   mk_field "image_size.y" KF64 true [23] [mk_win None None false None] [];
   mk_field "image_size.z" KF64 true [] [] [];
   mk_field "image_def_reference" KStr true [340] [mk_win None None false None] [];
   mk_field "display_options_flags" (KInt (-2147483648) 2147483647) true [70] [mk_win None None false None] [];
   mk_field "use_clipping" KBool true [280] [mk_win None None false None] [];
   mk_field "brightness" (KInt (-32768) 32767) true [281] [mk_win None None false None] [];
   mk_field "contrast" (KInt (-32768) 32767) true [282] [mk_win None None false None] [];
   mk_field "fade" (KInt (-32768) 32767) true [283] [mk_win None None false None] [];
   mk_field "image_def_reactor_reference" KStr true [360] [mk_win None None false None] [];
   mk_field "clipping_type" (KEnum e_ImageClippingBoundaryType) true [71] [mk_win None None false None] [];
   mk_field "clipping_vertex_count" (KInt (-2147483648) 2147483647) true [91] [mk_win None None false None] [];
   mk_field "__clipping_vertices_x" (KList KF64) false [14] [mk_win None None false None] [];
   mk_field "__clipping_vertices_y" (KList KF64) false [12] [mk_win None None false None] [];
   mk_field "clipping_vertices" (KList (KRec [KF64; KF64; KConst (FF64 0)])) true [14] [mk_win None None false None] [];
   mk_field "is_inside_clipping" KBool true [290] [mk_win (Some R2010) None false None] []] ++ common_fields).

(** spec/EntitiesSpec.xml:1336-1339, common fields 7-50; reader build/entity_generator.rs:452-535, writer build/entity_generator.rs:601-881. *)
Definition ent_xline : itype := mk_itype
  (mk_spec "XLine" (str "XLINE") (Some R13) None
    ([("first_point.x", (FF64 0));
     ("first_point.y", (FF64 0));
     ("first_point.z", (FF64 0));
     ("unit_direction_vector.x", (FF64 4607182418800017408));
     ("unit_direction_vector.y", (FF64 0));
     ("unit_direction_vector.z", (FF64 0))] ++ common_defaults)
    ([mk_arm 10 [] [ASet "first_point.x" RF64];
     mk_arm 20 [] [ASet "first_point.y" RF64];
     mk_arm 30 [] [ASet "first_point.z" RF64];
     mk_arm 11 [] [ASet "unit_direction_vector.x" RF64];
     mk_arm 21 [] [ASet "unit_direction_vector.y" RF64];
     mk_arm 31 [] [ASet "unit_direction_vector.z" RF64]] ++ common_arms)
    [] false [] []
    (common_cmds ++ [WConst [CMin R13] (mk_pair 100 (VStr (str "AcDbXline")));
     WPair [] 10 "first_point.x" WF64;
     WPair [] 20 "first_point.y" WF64;
     WPair [] 30 "first_point.z" WF64;
     WPair [] 11 "unit_direction_vector.x" WF64;
     WPair [] 21 "unit_direction_vector.y" WF64;
     WPair [] 31 "unit_direction_vector.z" WF64;
     WXdatas [] "common.x_data"]))
  ([mk_field "first_point.x" KF64 true [10] [mk_win None None false None] [];
   mk_field "first_point.y" KF64 true [20] [mk_win None None false None] [];
   mk_field "first_point.z" KF64 true [30] [mk_win None None false None] [];
   mk_field "unit_direction_vector.x" KF64 true [11] [mk_win None None false None] [];
   mk_field "unit_direction_vector.y" KF64 true [21] [mk_win None None false None] [];
   mk_field "unit_direction_vector.z" KF64 true [31] [mk_win None None false None] []] ++ common_fields).

(** All entity types, in the order of the specification. spec/EntitiesSpec.xml *)
Definition entities : list itype :=
  [ent_face3d;
   ent_solid3d;
   ent_proxy_entity;
   ent_arc;
   ent_arc_aligned_text;
   ent_attribute_definition;
   ent_attribute;
   ent_body;
   ent_circle;
   ent_rotated_dimension;
   ent_radial_dimension;
   ent_diameter_dimension;
   ent_angular_three_point_dimension;
   ent_ordinate_dimension;
   ent_ellipse;
   ent_helix;
   ent_image;
   ent_insert;
   ent_insert_group;
   ent_leader;
   ent_light;
   ent_line;
   ent_lw_polyline;
   ent_mline;
   ent_mtext;
   ent_ole_frame;
   ent_ole2frame;
   ent_model_point;
   ent_polyline;
   ent_ray;
   ent_region;
   ent_rtext;
   ent_section;
   ent_seqend;
   ent_shape;
   ent_solid;
   ent_spline;
   ent_text;
   ent_tolerance;
   ent_trace;
   ent_dgn_underlay;
   ent_dwf_underlay;
   ent_pdf_underlay;
   ent_vertex;
   ent_wipeout;
   ent_xline].
