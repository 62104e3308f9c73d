(** Generated by tools/gen_spec.py from spec/TableSpec.xml; do not edit. The nine symbol tables. *)
From Verif Require Import Base VersionModel SpecModel SpecSpec EnumData.
Open Scope Z_scope.
Local Open Scope string_scope.

(** spec/TableSpec.xml:2-5; reader build/table_generator.rs:180-331, writer build/table_generator.rs:333-516. *)
Definition t_app_id : itype := mk_itype
  (mk_spec "AppId" (str "APPID") None None
    [("name", (FStr []));
     ("handle", (FHandle 0));
     ("__owner_handle", (FHandle 0));
     ("extension_data_groups", (FList []));
     ("x_data", (FList []))]
    [mk_arm 2 [] [ASet "name" RStr];
     mk_arm 5 [] [ASet "handle" RHandle];
     mk_arm 102 [] [AExt "extension_data_groups"];
     mk_arm 1001 [] [AXdata "x_data"];
     mk_arm 330 [] [ASet "__owner_handle" RHandle]]
    [] false [] []
    [WPair [CHandles] 5 "handle" WHandle;
     WExts [CMin R14] "extension_data_groups";
     WConst [] (mk_pair 100 (VStr (str "AcDbSymbolTableRecord")));
     WConst [] (mk_pair 100 (VStr (str "AcDbRegAppTableRecord")));
     WPair [] 2 "name" WStr;
     WConst [] (mk_pair 70 (VShort 0));
     WXdatas [] "x_data"])
  [mk_field "name" KStr true [2] [mk_win None None false None] [];
   mk_field "handle" KHandle true [5] [mk_win None None true None] [];
   mk_field "__owner_handle" KHandle true [330] [mk_win (Some R13) None false None] [];
   mk_field "extension_data_groups" (KList KExt) true [102] [mk_win (Some R14) None false None] [];
   mk_field "x_data" (KList KXd) true [1001] [mk_win (Some R2000) None false None] []].

(** spec/TableSpec.xml:6-17; reader build/table_generator.rs:180-331, writer build/table_generator.rs:333-516. *)
Definition t_block_record : itype := mk_itype
  (mk_spec "BlockRecord" (str "BLOCK_RECORD") (Some R13) None
    [("name", (FStr []));
     ("handle", (FHandle 0));
     ("__owner_handle", (FHandle 0));
     ("extension_data_groups", (FList []));
     ("x_data", (FList []));
     ("__layout_handle", (FHandle 0));
     ("insertion_units", (FInt 0));
     ("explodability", (FBool true));
     ("scalability", (FBool true));
     ("__bitmap_preview_data", (FList []))]
    [mk_arm 2 [] [ASet "name" RStr];
     mk_arm 5 [] [ASet "handle" RHandle];
     mk_arm 102 [] [AExt "extension_data_groups"];
     mk_arm 1001 [] [AXdata "x_data"];
     mk_arm 330 [] [ASet "__owner_handle" RHandle];
     mk_arm 340 [] [ASet "__layout_handle" RHandle];
     mk_arm 70 [] [ASet "insertion_units" (REnum16 e_Units 0)];
     mk_arm 280 [] [ASet "explodability" RAsBool];
     mk_arm 281 [] [ASet "scalability" RAsBool];
     mk_arm 310 [] [APush "__bitmap_preview_data" RBin]]
    [] false [] []
    [WPair [CHandles] 5 "handle" WHandle;
     WExts [CMin R14] "extension_data_groups";
     WConst [] (mk_pair 100 (VStr (str "AcDbSymbolTableRecord")));
     WConst [] (mk_pair 100 (VStr (str "AcDbBlockTableRecord")));
     WPair [] 2 "name" WStr;
     WConst [] (mk_pair 70 (VShort 0));
     WPair [CMin R2000] 340 "__layout_handle" WHandle;
     WPair [CMin R2007] 70 "insertion_units" WI16;
     WPair [CMin R2007] 280 "explodability" WAsI16;
     WPair [CMin R2007] 281 "scalability" WAsI16;
     WEach [CMin R2000] 310 "__bitmap_preview_data" WBin;
     WXdatas [] "x_data"])
  [mk_field "name" KStr true [2] [mk_win None None false None] [];
   mk_field "handle" KHandle true [5] [mk_win None None true None] [];
   mk_field "__owner_handle" KHandle true [330] [mk_win (Some R13) None false None] [];
   mk_field "extension_data_groups" (KList KExt) true [102] [mk_win (Some R14) None false None] [];
   mk_field "x_data" (KList KXd) true [1001] [mk_win (Some R2000) None false None] [];
   mk_field "__layout_handle" KHandle true [340] [mk_win (Some R2000) None false None] [];
   mk_field "insertion_units" (KEnum e_Units) true [70] [mk_win (Some R2007) None false None] [];
   mk_field "explodability" KBool true [280] [mk_win (Some R2007) None false None] [];
   mk_field "scalability" KBool true [281] [mk_win (Some R2007) None false None] [];
   mk_field "__bitmap_preview_data" (KList KBin) false [310] [mk_win (Some R2000) None false None] []].

(** spec/TableSpec.xml:18-90; reader build/table_generator.rs:180-331, writer build/table_generator.rs:333-516. *)
Definition t_dim_style : itype := mk_itype
  (mk_spec "DimStyle" (str "DIMSTYLE") None None
    [("name", (FStr []));
     ("handle", (FHandle 0));
     ("__owner_handle", (FHandle 0));
     ("extension_data_groups", (FList []));
     ("x_data", (FList []));
     ("dimensioning_suffix", (FStr []));
     ("alternate_dimensioning_suffix", (FStr []));
     ("first_arrow_block_name", (FStr []));
     ("second_arrow_block_name", (FStr []));
     ("dimensioning_scale_factor", (FF64 4607182418800017408));
     ("dimensioning_arrow_size", (FF64 4595653203753948938));
     ("dimension_extension_line_offset", (FF64 4589168020290535424));
     ("dimension_line_increment", (FF64 4600517091351509074));
     ("dimension_extension_line_extension", (FF64 4595653203753948938));
     ("dimension_distance_rounding_value", (FF64 0));
     ("dimension_line_extension", (FF64 0));
     ("dimension_plus_tolerance", (FF64 0));
     ("dimension_minus_tolerance", (FF64 0));
     ("generate_dimension_tolerances", (FBool false));
     ("generate_dimension_limits", (FBool false));
     ("dimension_text_inside_horizontal", (FBool true));
     ("dimension_text_outside_horizontal", (FBool true));
     ("suppress_first_dimension_extension_line", (FBool false));
     ("suppress_second_dimension_extension_line", (FBool false));
     ("text_above_dimension_line", (FBool false));
     ("dimension_unit_zero_suppression", (FInt 0));
     ("dimension_angle_zero_suppression", (FInt 0));
     ("dimensioning_text_height", (FF64 4595653203753948938));
     ("center_mark_size", (FF64 4591149604126578442));
     ("dimensioning_tick_size", (FF64 0));
     ("alternate_dimensioning_scale_factor", (FF64 4627842682090579558));
     ("dimension_linear_measurement_scale_factor", (FF64 4607182418800017408));
     ("dimension_vertical_text_position", (FF64 0));
     ("dimension_tolerance_displace_scale_factor", (FF64 4607182418800017408));
     ("dimension_line_gap", (FF64 4591149604126578442));
     ("alternate_dimensioning_unit_rounding", (FF64 0));
     ("use_alternate_dimensioning", (FBool false));
     ("alternate_dimensioning_decimal_places", (FInt 2));
     ("force_dimension_line_extensions_outside_if_text_exists", (FBool false));
     ("use_separate_arrow_blocks_for_dimensions", (FBool false));
     ("force_dimension_text_inside_extensions", (FBool false));
     ("suppress_outside_extension_dimension_lines", (FBool false));
     ("dimension_line_color", (FInt 0));
     ("dimension_extension_line_color", (FInt 0));
     ("dimension_text_color", (FInt 0));
     ("angular_dimension_precision", (FInt 12));
     ("dimension_unit_format", (FInt 1));
     ("dimension_unit_tolerance_decimal_places", (FInt 0));
     ("dimension_tolerace_decimal_places", (FInt 0));
     ("alternate_dimensioning_units", (FInt 1));
     ("alternate_dimensioning_tolerance_decimal_places", (FInt 0));
     ("dimensioning_angle_format", (FInt 0));
     ("dimension_precision", (FInt 12));
     ("dimension_non_angular_units", (FInt 1));
     ("dimension_decilam_separator_char", (FInt 46));
     ("dimension_text_movement_rule", (FInt 0));
     ("dimension_text_justification", (FInt 0));
     ("dimension_tolerance_vertical_justification", (FInt 0));
     ("dimension_tolerance_zero_suppression", (FInt 0));
     ("alternate_dimensioning_zero_suppression", (FInt 0));
     ("alternate_dimensioning_tolerance_zero_suppression", (FInt 0));
     ("dimension_text_and_arrow_placement", (FInt 0));
     ("dimension_cursor_controls_text_position", (FBool true));
     ("dimension_text_style", (FStr []));
     ("dimension_leader_block_name", (FStr []));
     ("arrow_block_name", (FStr []));
     ("dimension_line_weight", (FInt 0));
     ("dimension_extension_line_weight", (FInt 0))]
    [mk_arm 2 [] [ASet "name" RStr];
     mk_arm 5 [] [ASet "handle" RHandle];
     mk_arm 102 [] [AExt "extension_data_groups"];
     mk_arm 1001 [] [AXdata "x_data"];
     mk_arm 330 [] [ASet "__owner_handle" RHandle];
     mk_arm 3 [] [ASet "dimensioning_suffix" RStr];
     mk_arm 4 [] [ASet "alternate_dimensioning_suffix" RStr];
     mk_arm 6 [] [ASet "first_arrow_block_name" RStr];
     mk_arm 7 [] [ASet "second_arrow_block_name" RStr];
     mk_arm 40 [] [ASet "dimensioning_scale_factor" RF64];
     mk_arm 41 [] [ASet "dimensioning_arrow_size" RF64];
     mk_arm 42 [] [ASet "dimension_extension_line_offset" RF64];
     mk_arm 43 [] [ASet "dimension_line_increment" RF64];
     mk_arm 44 [] [ASet "dimension_extension_line_extension" RF64];
     mk_arm 45 [] [ASet "dimension_distance_rounding_value" RF64];
     mk_arm 46 [] [ASet "dimension_line_extension" RF64];
     mk_arm 47 [] [ASet "dimension_plus_tolerance" RF64];
     mk_arm 48 [] [ASet "dimension_minus_tolerance" RF64];
     mk_arm 71 [] [ASet "generate_dimension_tolerances" RAsBool];
     mk_arm 72 [] [ASet "generate_dimension_limits" RAsBool];
     mk_arm 73 [] [ASet "dimension_text_inside_horizontal" RAsBool];
     mk_arm 74 [] [ASet "dimension_text_outside_horizontal" RAsBool];
     mk_arm 75 [] [ASet "suppress_first_dimension_extension_line" RAsBool];
     mk_arm 76 [] [ASet "suppress_second_dimension_extension_line" RAsBool];
     mk_arm 77 [] [ASet "text_above_dimension_line" RAsBool];
     mk_arm 78 [] [ASet "dimension_unit_zero_suppression" (REnum16 e_UnitZeroSuppression 0)];
     mk_arm 79 [] [ASet "dimension_angle_zero_suppression" (REnum16 e_UnitZeroSuppression 0)];
     mk_arm 140 [] [ASet "dimensioning_text_height" RF64];
     mk_arm 141 [] [ASet "center_mark_size" RF64];
     mk_arm 142 [] [ASet "dimensioning_tick_size" RF64];
     mk_arm 143 [] [ASet "alternate_dimensioning_scale_factor" RF64];
     mk_arm 144 [] [ASet "dimension_linear_measurement_scale_factor" RF64];
     mk_arm 145 [] [ASet "dimension_vertical_text_position" RF64];
     mk_arm 146 [] [ASet "dimension_tolerance_displace_scale_factor" RF64];
     mk_arm 147 [] [ASet "dimension_line_gap" RF64];
     mk_arm 148 [] [ASet "alternate_dimensioning_unit_rounding" RF64];
     mk_arm 170 [] [ASet "use_alternate_dimensioning" RAsBool];
     mk_arm 171 [] [ASet "alternate_dimensioning_decimal_places" RI16];
     mk_arm 172 [] [ASet "force_dimension_line_extensions_outside_if_text_exists" RAsBool];
     mk_arm 173 [] [ASet "use_separate_arrow_blocks_for_dimensions" RAsBool];
     mk_arm 174 [] [ASet "force_dimension_text_inside_extensions" RAsBool];
     mk_arm 175 [] [ASet "suppress_outside_extension_dimension_lines" RAsBool];
     mk_arm 176 [] [ASet "dimension_line_color" RI16];
     mk_arm 177 [] [ASet "dimension_extension_line_color" RI16];
     mk_arm 178 [] [ASet "dimension_text_color" RI16];
     mk_arm 179 [] [ASet "angular_dimension_precision" RI16];
     mk_arm 270 [] [ASet "dimension_unit_format" (REnum16 e_UnitFormat 1)];
     mk_arm 271 [] [ASet "dimension_unit_tolerance_decimal_places" RI16];
     mk_arm 272 [] [ASet "dimension_tolerace_decimal_places" RI16];
     mk_arm 273 [] [ASet "alternate_dimensioning_units" (REnum16 e_UnitFormat 1)];
     mk_arm 274 [] [ASet "alternate_dimensioning_tolerance_decimal_places" RI16];
     mk_arm 275 [] [ASet "dimensioning_angle_format" (REnum16 e_AngleFormat 0)];
     mk_arm 276 [] [ASet "dimension_precision" RI16];
     mk_arm 277 [] [ASet "dimension_non_angular_units" (REnum16 e_NonAngularUnits 1)];
     mk_arm 278 [] [ASet "dimension_decilam_separator_char" RU8];
     mk_arm 279 [] [ASet "dimension_text_movement_rule" (REnum16 e_DimensionTextMovementRule 0)];
     mk_arm 280 [] [ASet "dimension_text_justification" (REnum16 e_DimensionTextJustification 0)];
     mk_arm 281 [] [ASet "suppress_first_dimension_extension_line" RAsBool];
     mk_arm 282 [] [ASet "suppress_second_dimension_extension_line" RAsBool];
     mk_arm 283 [] [ASet "dimension_tolerance_vertical_justification" (REnum16 e_Justification 0)];
     mk_arm 284 [] [ASet "dimension_tolerance_zero_suppression" (REnum16 e_UnitZeroSuppression 0)];
     mk_arm 285 [] [ASet "alternate_dimensioning_zero_suppression" (REnum16 e_UnitZeroSuppression 0)];
     mk_arm 286 [] [ASet "alternate_dimensioning_tolerance_zero_suppression" (REnum16 e_UnitZeroSuppression 0)];
     mk_arm 287 [] [ASet "dimension_text_and_arrow_placement" (REnum16 e_DimensionFit 0)];
     mk_arm 288 [] [ASet "dimension_cursor_controls_text_position" RAsBool];
     mk_arm 289 [] [ASet "dimension_text_and_arrow_placement" (REnum16 e_DimensionFit 0)];
     mk_arm 340 [] [ASet "dimension_text_style" RStr];
     mk_arm 341 [] [ASet "dimension_leader_block_name" RStr];
     mk_arm 342 [] [ASet "arrow_block_name" RStr];
     mk_arm 343 [] [ASet "first_arrow_block_name" RStr];
     mk_arm 344 [] [ASet "second_arrow_block_name" RStr];
     mk_arm 371 [] [ASet "dimension_line_weight" RI16];
     mk_arm 372 [] [ASet "dimension_extension_line_weight" RI16]]
    [] false [] []
    [WPair [CHandles] 5 "handle" WHandle;
     WExts [CMin R14] "extension_data_groups";
     WConst [] (mk_pair 100 (VStr (str "AcDbSymbolTableRecord")));
     WConst [] (mk_pair 100 (VStr (str "AcDbDimStyleTableRecord")));
     WPair [] 2 "name" WStr;
     WConst [] (mk_pair 70 (VShort 0));
     WPair [] 3 "dimensioning_suffix" WStr;
     WPair [] 4 "alternate_dimensioning_suffix" WStr;
     WPair [CMax R14] 6 "first_arrow_block_name" WStr;
     WPair [CMax R14] 7 "second_arrow_block_name" WStr;
     WPair [] 40 "dimensioning_scale_factor" WF64;
     WPair [] 41 "dimensioning_arrow_size" WF64;
     WPair [] 42 "dimension_extension_line_offset" WF64;
     WPair [] 43 "dimension_line_increment" WF64;
     WPair [] 44 "dimension_extension_line_extension" WF64;
     WPair [] 45 "dimension_distance_rounding_value" WF64;
     WPair [] 46 "dimension_line_extension" WF64;
     WPair [] 47 "dimension_plus_tolerance" WF64;
     WPair [] 48 "dimension_minus_tolerance" WF64;
     WPair [] 71 "generate_dimension_tolerances" WAsI16;
     WPair [] 72 "generate_dimension_limits" WAsI16;
     WPair [] 73 "dimension_text_inside_horizontal" WAsI16;
     WPair [] 74 "dimension_text_outside_horizontal" WAsI16;
     WPair [] 75 "suppress_first_dimension_extension_line" WAsI16;
     WPair [] 76 "suppress_second_dimension_extension_line" WAsI16;
     WPair [] 77 "text_above_dimension_line" WAsI16;
     WPair [] 78 "dimension_unit_zero_suppression" WI16;
     WPair [CMin R2000] 79 "dimension_angle_zero_suppression" WI16;
     WPair [] 140 "dimensioning_text_height" WF64;
     WPair [] 141 "center_mark_size" WF64;
     WPair [] 142 "dimensioning_tick_size" WF64;
     WPair [] 143 "alternate_dimensioning_scale_factor" WF64;
     WPair [] 144 "dimension_linear_measurement_scale_factor" WF64;
     WPair [] 145 "dimension_vertical_text_position" WF64;
     WPair [] 146 "dimension_tolerance_displace_scale_factor" WF64;
     WPair [] 147 "dimension_line_gap" WF64;
     WPair [CMin R2000] 148 "alternate_dimensioning_unit_rounding" WF64;
     WPair [] 170 "use_alternate_dimensioning" WAsI16;
     WPair [] 171 "alternate_dimensioning_decimal_places" WI16;
     WPair [] 172 "force_dimension_line_extensions_outside_if_text_exists" WAsI16;
     WPair [] 173 "use_separate_arrow_blocks_for_dimensions" WAsI16;
     WPair [] 174 "force_dimension_text_inside_extensions" WAsI16;
     WPair [] 175 "suppress_outside_extension_dimension_lines" WAsI16;
     WPair [] 176 "dimension_line_color" WI16;
     WPair [] 177 "dimension_extension_line_color" WI16;
     WPair [] 178 "dimension_text_color" WI16;
     WPair [CMin R2000] 179 "angular_dimension_precision" WI16;
     WPair [CMin R13] 270 "dimension_unit_format" WI16;
     WPair [CMin R13] 271 "dimension_unit_tolerance_decimal_places" WI16;
     WPair [CMin R13] 272 "dimension_tolerace_decimal_places" WI16;
     WPair [CMin R13] 273 "alternate_dimensioning_units" WI16;
     WPair [CMin R13] 274 "alternate_dimensioning_tolerance_decimal_places" WI16;
     WPair [CMin R13] 275 "dimensioning_angle_format" WI16;
     WPair [CMin R2000] 276 "dimension_precision" WI16;
     WPair [CMin R2000] 277 "dimension_non_angular_units" WI16;
     WPair [CMin R2000] 278 "dimension_decilam_separator_char" WI16;
     WPair [CMin R2000] 279 "dimension_text_movement_rule" WI16;
     WPair [CMin R13] 280 "dimension_text_justification" WI16;
     WPair [CMin R13] 281 "suppress_first_dimension_extension_line" WAsI16;
     WPair [CMin R13] 282 "suppress_second_dimension_extension_line" WAsI16;
     WPair [CMin R13] 283 "dimension_tolerance_vertical_justification" WI16;
     WPair [CMin R13] 284 "dimension_tolerance_zero_suppression" WI16;
     WPair [CMin R13] 285 "alternate_dimensioning_zero_suppression" WI16;
     WPair [CMin R13] 286 "alternate_dimensioning_tolerance_zero_suppression" WI16;
     WPair [CMin R13] 287 "dimension_text_and_arrow_placement" WI16;
     WPair [CMin R13] 288 "dimension_cursor_controls_text_position" WAsI16;
     WPair [CMin R2000] 289 "dimension_text_and_arrow_placement" WI16;
     WPair [CMin R13] 340 "dimension_text_style" WStr;
     WPair [CMin R2000] 341 "dimension_leader_block_name" WStr;
     WPair [CMin R2000] 342 "arrow_block_name" WStr;
     WPair [CMin R2000] 343 "first_arrow_block_name" WStr;
     WPair [CMin R2000] 344 "second_arrow_block_name" WStr;
     WPair [CMin R2000] 371 "dimension_line_weight" WI16;
     WPair [CMin R2000] 372 "dimension_extension_line_weight" WI16;
     WXdatas [] "x_data"])
  [mk_field "name" KStr true [2] [mk_win None None false None] [];
   mk_field "handle" KHandle true [5] [mk_win None None true None] [];
   mk_field "__owner_handle" KHandle true [330] [mk_win (Some R13) None false None] [];
   mk_field "extension_data_groups" (KList KExt) true [102] [mk_win (Some R14) None false None] [];
   mk_field "x_data" (KList KXd) true [1001] [mk_win (Some R2000) None false None] [];
   mk_field "dimensioning_suffix" KStr true [3] [mk_win None None false None] [];
   mk_field "alternate_dimensioning_suffix" KStr true [4] [mk_win None None false None] [];
   mk_field "first_arrow_block_name" KStr true [6; 343] [mk_win None (Some R14) false None; mk_win (Some R2000) None false None] [];
   mk_field "second_arrow_block_name" KStr true [7; 344] [mk_win None (Some R14) false None; mk_win (Some R2000) None false None] [];
   mk_field "dimensioning_scale_factor" KF64 true [40] [mk_win None None false None] [];
   mk_field "dimensioning_arrow_size" KF64 true [41] [mk_win None None false None] [];
   mk_field "dimension_extension_line_offset" KF64 true [42] [mk_win None None false None] [];
   mk_field "dimension_line_increment" KF64 true [43] [mk_win None None false None] [];
   mk_field "dimension_extension_line_extension" KF64 true [44] [mk_win None None false None] [];
   mk_field "dimension_distance_rounding_value" KF64 true [45] [mk_win None None false None] [];
   mk_field "dimension_line_extension" KF64 true [46] [mk_win None None false None] [];
   mk_field "dimension_plus_tolerance" KF64 true [47] [mk_win None None false None] [];
   mk_field "dimension_minus_tolerance" KF64 true [48] [mk_win None None false None] [];
   mk_field "generate_dimension_tolerances" KBool true [71] [mk_win None None false None] [];
   mk_field "generate_dimension_limits" KBool true [72] [mk_win None None false None] [];
   mk_field "dimension_text_inside_horizontal" KBool true [73] [mk_win None None false None] [];
   mk_field "dimension_text_outside_horizontal" KBool true [74] [mk_win None None false None] [];
   mk_field "suppress_first_dimension_extension_line" KBool true [75; 281] [mk_win None None false None; mk_win (Some R13) None false None] [];
   mk_field "suppress_second_dimension_extension_line" KBool true [76; 282] [mk_win None None false None; mk_win (Some R13) None false None] [];
   mk_field "text_above_dimension_line" KBool true [77] [mk_win None None false None] [];
   mk_field "dimension_unit_zero_suppression" (KEnum e_UnitZeroSuppression) true [78] [mk_win None None false None] [];
   mk_field "dimension_angle_zero_suppression" (KEnum e_UnitZeroSuppression) true [79] [mk_win (Some R2000) None false None] [];
   mk_field "dimensioning_text_height" KF64 true [140] [mk_win None None false None] [];
   mk_field "center_mark_size" KF64 true [141] [mk_win None None false None] [];
   mk_field "dimensioning_tick_size" KF64 true [142] [mk_win None None false None] [];
   mk_field "alternate_dimensioning_scale_factor" KF64 true [143] [mk_win None None false None] [];
   mk_field "dimension_linear_measurement_scale_factor" KF64 true [144] [mk_win None None false None] [];
   mk_field "dimension_vertical_text_position" KF64 true [145] [mk_win None None false None] [];
   mk_field "dimension_tolerance_displace_scale_factor" KF64 true [146] [mk_win None None false None] [];
   mk_field "dimension_line_gap" KF64 true [147] [mk_win None None false None] [];
   mk_field "alternate_dimensioning_unit_rounding" KF64 true [148] [mk_win (Some R2000) None false None] [];
   mk_field "use_alternate_dimensioning" KBool true [170] [mk_win None None false None] [];
   mk_field "alternate_dimensioning_decimal_places" (KInt (-32768) 32767) true [171] [mk_win None None false None] [];
   mk_field "force_dimension_line_extensions_outside_if_text_exists" KBool true [172] [mk_win None None false None] [];
   mk_field "use_separate_arrow_blocks_for_dimensions" KBool true [173] [mk_win None None false None] [];
   mk_field "force_dimension_text_inside_extensions" KBool true [174] [mk_win None None false None] [];
   mk_field "suppress_outside_extension_dimension_lines" KBool true [175] [mk_win None None false None] [];
   mk_field "dimension_line_color" (KInt (-32768) 32767) true [176] [mk_win None None false None] [];
   mk_field "dimension_extension_line_color" (KInt (-32768) 32767) true [177] [mk_win None None false None] [];
   mk_field "dimension_text_color" (KInt (-32768) 32767) true [178] [mk_win None None false None] [];
   mk_field "angular_dimension_precision" (KInt (-32768) 32767) true [179] [mk_win (Some R2000) None false None] [];
   mk_field "dimension_unit_format" (KEnum e_UnitFormat) true [270] [mk_win (Some R13) None false None] [];
   mk_field "dimension_unit_tolerance_decimal_places" (KInt (-32768) 32767) true [271] [mk_win (Some R13) None false None] [];
   mk_field "dimension_tolerace_decimal_places" (KInt (-32768) 32767) true [272] [mk_win (Some R13) None false None] [];
   mk_field "alternate_dimensioning_units" (KEnum e_UnitFormat) true [273] [mk_win (Some R13) None false None] [];
   mk_field "alternate_dimensioning_tolerance_decimal_places" (KInt (-32768) 32767) true [274] [mk_win (Some R13) None false None] [];
   mk_field "dimensioning_angle_format" (KEnum e_AngleFormat) true [275] [mk_win (Some R13) None false None] [];
   mk_field "dimension_precision" (KInt (-32768) 32767) true [276] [mk_win (Some R2000) None false None] [];
   mk_field "dimension_non_angular_units" (KEnum e_NonAngularUnits) true [277] [mk_win (Some R2000) None false None] [];
   mk_field "dimension_decilam_separator_char" (KInt 0 255) true [278] [mk_win (Some R2000) None false None] [];
   mk_field "dimension_text_movement_rule" (KEnum e_DimensionTextMovementRule) true [279] [mk_win (Some R2000) None false None] [];
   mk_field "dimension_text_justification" (KEnum e_DimensionTextJustification) true [280] [mk_win (Some R13) None false None] [];
   mk_field "dimension_tolerance_vertical_justification" (KEnum e_Justification) true [283] [mk_win (Some R13) None false None] [];
   mk_field "dimension_tolerance_zero_suppression" (KEnum e_UnitZeroSuppression) true [284] [mk_win (Some R13) None false None] [];
   mk_field "alternate_dimensioning_zero_suppression" (KEnum e_UnitZeroSuppression) true [285] [mk_win (Some R13) None false None] [];
   mk_field "alternate_dimensioning_tolerance_zero_suppression" (KEnum e_UnitZeroSuppression) true [286] [mk_win (Some R13) None false None] [];
   mk_field "dimension_text_and_arrow_placement" (KEnum e_DimensionFit) true [287; 289] [mk_win (Some R13) None false None; mk_win (Some R2000) None false None] [];
   mk_field "dimension_cursor_controls_text_position" KBool true [288] [mk_win (Some R13) None false None] [];
   mk_field "dimension_text_style" KStr true [340] [mk_win (Some R13) None false None] [];
   mk_field "dimension_leader_block_name" KStr true [341] [mk_win (Some R2000) None false None] [];
   mk_field "arrow_block_name" KStr true [342] [mk_win (Some R2000) None false None] [];
   mk_field "dimension_line_weight" (KInt (-32768) 32767) true [371] [mk_win (Some R2000) None false None] [];
   mk_field "dimension_extension_line_weight" (KInt (-32768) 32767) true [372] [mk_win (Some R2000) None false None] []].

(** spec/TableSpec.xml:91-107; reader build/table_generator.rs:180-331, writer build/table_generator.rs:333-516. *)
Definition t_line_type : itype := mk_itype
  (mk_spec "LineType" (str "LTYPE") None None
    [("name", (FStr []));
     ("handle", (FHandle 0));
     ("__owner_handle", (FHandle 0));
     ("extension_data_groups", (FList []));
     ("x_data", (FList []));
     ("description", (FStr []));
     ("alignment_code", (FInt 65));
     ("element_count", (FInt 0));
     ("total_pattern_length", (FF64 0));
     ("dash_dot_space_lengths", (FList []));
     ("complex_line_type_element_types", (FList []));
     ("shape_numbers", (FList []));
     ("__styles_handle", (FList []));
     ("scale_values", (FList []));
     ("rotation_angles", (FList []));
     ("x_offsets", (FList []));
     ("y_offsets", (FList []));
     ("text_strings", (FList []))]
    [mk_arm 2 [] [ASet "name" RStr];
     mk_arm 5 [] [ASet "handle" RHandle];
     mk_arm 102 [] [AExt "extension_data_groups"];
     mk_arm 1001 [] [AXdata "x_data"];
     mk_arm 330 [] [ASet "__owner_handle" RHandle];
     mk_arm 3 [] [ASet "description" RStr];
     mk_arm 72 [] [ASet "alignment_code" RI16];
     mk_arm 73 [] [ASet "element_count" RI16];
     mk_arm 40 [] [ASet "total_pattern_length" RF64];
     mk_arm 49 [] [APush "dash_dot_space_lengths" RF64];
     mk_arm 74 [] [APush "complex_line_type_element_types" RI16];
     mk_arm 75 [] [APush "shape_numbers" RI16];
     mk_arm 340 [] [APush "__styles_handle" RHandle];
     mk_arm 46 [] [APush "scale_values" RF64];
     mk_arm 50 [] [APush "rotation_angles" RF64];
     mk_arm 44 [] [APush "x_offsets" RF64];
     mk_arm 45 [] [APush "y_offsets" RF64];
     mk_arm 9 [] [APush "text_strings" RStr]]
    [] false [] []
    [WPair [CHandles] 5 "handle" WHandle;
     WExts [CMin R14] "extension_data_groups";
     WConst [] (mk_pair 100 (VStr (str "AcDbSymbolTableRecord")));
     WConst [] (mk_pair 100 (VStr (str "AcDbLinetypeTableRecord")));
     WPair [] 2 "name" WStr;
     WConst [] (mk_pair 70 (VShort 0));
     WPair [] 3 "description" WStr;
     WPair [] 72 "alignment_code" WI16;
     WPair [] 73 "element_count" WI16;
     WPair [] 40 "total_pattern_length" WF64;
     WEach [] 49 "dash_dot_space_lengths" WF64;
     WEach [CMin R13] 74 "complex_line_type_element_types" WI16;
     WEach [CMin R13] 75 "shape_numbers" WI16;
     WEach [CMin R13] 340 "__styles_handle" WHandle;
     WEach [CMin R13] 46 "scale_values" WF64;
     WEach [CMin R13] 50 "rotation_angles" WF64;
     WEach [CMin R13] 44 "x_offsets" WF64;
     WEach [CMin R13] 45 "y_offsets" WF64;
     WEach [CMin R13] 9 "text_strings" WStr;
     WXdatas [] "x_data"])
  [mk_field "name" KStr true [2] [mk_win None None false None] [];
   mk_field "handle" KHandle true [5] [mk_win None None true None] [];
   mk_field "__owner_handle" KHandle true [330] [mk_win (Some R13) None false None] [];
   mk_field "extension_data_groups" (KList KExt) true [102] [mk_win (Some R14) None false None] [];
   mk_field "x_data" (KList KXd) true [1001] [mk_win (Some R2000) None false None] [];
   mk_field "description" KStr true [3] [mk_win None None false None] [];
   mk_field "alignment_code" (KInt (-2147483648) 2147483647) true [72] [mk_win None None false None] [];
   mk_field "element_count" (KInt (-2147483648) 2147483647) true [73] [mk_win None None false None] [];
   mk_field "total_pattern_length" KF64 true [40] [mk_win None None false None] [];
   mk_field "dash_dot_space_lengths" (KList KF64) true [49] [mk_win None None false None] [];
   mk_field "complex_line_type_element_types" (KList (KInt (-32768) 32767)) true [74] [mk_win (Some R13) None false None] [];
   mk_field "shape_numbers" (KList (KInt (-32768) 32767)) true [75] [mk_win (Some R13) None false None] [];
   mk_field "__styles_handle" (KList KHandle) true [340] [mk_win (Some R13) None false None] [];
   mk_field "scale_values" (KList KF64) true [46] [mk_win (Some R13) None false None] [];
   mk_field "rotation_angles" (KList KF64) true [50] [mk_win (Some R13) None false None] [];
   mk_field "x_offsets" (KList KF64) true [44] [mk_win (Some R13) None false None] [];
   mk_field "y_offsets" (KList KF64) true [45] [mk_win (Some R13) None false None] [];
   mk_field "text_strings" (KList KStr) true [9] [mk_win (Some R13) None false None] []].

(** spec/TableSpec.xml:108-120; reader build/table_generator.rs:180-331, writer build/table_generator.rs:333-516. *)
Definition t_layer : itype := mk_itype
  (mk_spec "Layer" (str "LAYER") None None
    [("name", (FStr []));
     ("handle", (FHandle 0));
     ("__owner_handle", (FHandle 0));
     ("extension_data_groups", (FList []));
     ("x_data", (FList []));
     ("color", (FInt 7));
     ("line_type_name", (FStr (str "CONTINUOUS")));
     ("is_layer_plotted", (FBool true));
     ("line_weight", (FInt 0));
     ("__plot_style_handle", (FHandle 0));
     ("__material_handle", (FHandle 0));
     ("is_layer_on", (FBool true))]
    [mk_arm 2 [] [ASet "name" RStr];
     mk_arm 5 [] [ASet "handle" RHandle];
     mk_arm 102 [] [AExt "extension_data_groups"];
     mk_arm 1001 [] [AXdata "x_data"];
     mk_arm 330 [] [ASet "__owner_handle" RHandle];
     mk_arm 62 [] [AMulti ["color"; "is_layer_on"] MLayerColor];
     mk_arm 6 [] [ASet "line_type_name" RStr];
     mk_arm 290 [] [ASet "is_layer_plotted" RBool];
     mk_arm 370 [] [ASet "line_weight" RI16];
     mk_arm 390 [] [ASet "__plot_style_handle" RHandle];
     mk_arm 347 [] [ASet "__material_handle" RHandle]]
    [] false [] []
    [WPair [CHandles] 5 "handle" WHandle;
     WExts [CMin R14] "extension_data_groups";
     WConst [] (mk_pair 100 (VStr (str "AcDbSymbolTableRecord")));
     WConst [] (mk_pair 100 (VStr (str "AcDbLayerTableRecord")));
     WPair [] 2 "name" WStr;
     WConst [] (mk_pair 70 (VShort 0));
     WMulti [] 62 ["color"; "is_layer_on"] MLayerColor;
     WPair [] 6 "line_type_name" WStr;
     WPair [CMin R2000] 290 "is_layer_plotted" WBool;
     WPair [CMin R2000] 370 "line_weight" WI16;
     WPair [CMin R2000] 390 "__plot_style_handle" WHandle;
     WPair [CMin R2007] 347 "__material_handle" WHandle;
     WXdatas [] "x_data"])
  [mk_field "name" KStr true [2] [mk_win None None false None] [];
   mk_field "handle" KHandle true [5] [mk_win None None true None] [];
   mk_field "__owner_handle" KHandle true [330] [mk_win (Some R13) None false None] [];
   mk_field "extension_data_groups" (KList KExt) true [102] [mk_win (Some R14) None false None] [];
   mk_field "x_data" (KList KXd) true [1001] [mk_win (Some R2000) None false None] [];
   mk_field "color" (KInt 1 32767) true [62] [mk_win None None false None] [];
   mk_field "line_type_name" KStr true [6] [mk_win None None false None] [];
   mk_field "is_layer_plotted" KBool true [290] [mk_win (Some R2000) None false None] [];
   mk_field "line_weight" (KInt (-32768) 32767) true [370] [mk_win (Some R2000) None false None] [];
   mk_field "__plot_style_handle" KHandle true [390] [mk_win (Some R2000) None false None] [];
   mk_field "__material_handle" KHandle true [347] [mk_win (Some R2007) None false None] [];
   mk_field "is_layer_on" KBool true [62] [mk_win None None false None] []].

(** spec/TableSpec.xml:121-131; reader build/table_generator.rs:180-331, writer build/table_generator.rs:333-516. *)
Definition t_style : itype := mk_itype
  (mk_spec "Style" (str "STYLE") None None
    [("name", (FStr []));
     ("handle", (FHandle 0));
     ("__owner_handle", (FHandle 0));
     ("extension_data_groups", (FList []));
     ("x_data", (FList []));
     ("text_height", (FF64 0));
     ("width_factor", (FF64 4607182418800017408));
     ("oblique_angle", (FF64 0));
     ("text_generation_flags", (FInt 0));
     ("last_height_used", (FF64 4596373779694328218));
     ("primary_font_file_name", (FStr (str "txt")));
     ("big_font_file_name", (FStr []))]
    [mk_arm 2 [] [ASet "name" RStr];
     mk_arm 5 [] [ASet "handle" RHandle];
     mk_arm 102 [] [AExt "extension_data_groups"];
     mk_arm 1001 [] [AXdata "x_data"];
     mk_arm 330 [] [ASet "__owner_handle" RHandle];
     mk_arm 40 [] [ASet "text_height" RF64];
     mk_arm 41 [] [ASet "width_factor" RF64];
     mk_arm 50 [] [ASet "oblique_angle" RF64];
     mk_arm 71 [] [ASet "text_generation_flags" RI16];
     mk_arm 42 [] [ASet "last_height_used" RF64];
     mk_arm 3 [] [ASet "primary_font_file_name" RStr];
     mk_arm 4 [] [ASet "big_font_file_name" RStr]]
    [] false [] []
    [WPair [CHandles] 5 "handle" WHandle;
     WExts [CMin R14] "extension_data_groups";
     WConst [] (mk_pair 100 (VStr (str "AcDbSymbolTableRecord")));
     WConst [] (mk_pair 100 (VStr (str "AcDbTextStyleTableRecord")));
     WPair [] 2 "name" WStr;
     WConst [] (mk_pair 70 (VShort 0));
     WPair [] 40 "text_height" WF64;
     WPair [] 41 "width_factor" WF64;
     WPair [] 50 "oblique_angle" WF64;
     WPair [] 71 "text_generation_flags" WI16;
     WPair [] 42 "last_height_used" WF64;
     WPair [] 3 "primary_font_file_name" WStr;
     WPair [] 4 "big_font_file_name" WStr;
     WXdatas [] "x_data"])
  [mk_field "name" KStr true [2] [mk_win None None false None] [];
   mk_field "handle" KHandle true [5] [mk_win None None true None] [];
   mk_field "__owner_handle" KHandle true [330] [mk_win (Some R13) None false None] [];
   mk_field "extension_data_groups" (KList KExt) true [102] [mk_win (Some R14) None false None] [];
   mk_field "x_data" (KList KXd) true [1001] [mk_win (Some R2000) None false None] [];
   mk_field "text_height" KF64 true [40] [mk_win None None false None] [];
   mk_field "width_factor" KF64 true [41] [mk_win None None false None] [];
   mk_field "oblique_angle" KF64 true [50] [mk_win None None false None] [];
   mk_field "text_generation_flags" (KInt (-2147483648) 2147483647) true [71] [mk_win None None false None] [];
   mk_field "last_height_used" KF64 true [42] [mk_win None None false None] [];
   mk_field "primary_font_file_name" KStr true [3] [mk_win None None false None] [];
   mk_field "big_font_file_name" KStr true [4] [mk_win None None false None] []].

(** spec/TableSpec.xml:132-143; reader build/table_generator.rs:180-331, writer build/table_generator.rs:333-516. *)
Definition t_ucs : itype := mk_itype
  (mk_spec "Ucs" (str "UCS") None None
    [("name", (FStr []));
     ("handle", (FHandle 0));
     ("__owner_handle", (FHandle 0));
     ("extension_data_groups", (FList []));
     ("x_data", (FList []));
     ("origin.x", (FF64 0));
     ("origin.y", (FF64 0));
     ("origin.z", (FF64 0));
     ("x_axis.x", (FF64 4607182418800017408));
     ("x_axis.y", (FF64 0));
     ("x_axis.z", (FF64 0));
     ("y_axis.x", (FF64 0));
     ("y_axis.y", (FF64 4607182418800017408));
     ("y_axis.z", (FF64 0));
     ("orthographic_view_type", (FInt 0));
     ("elevation", (FF64 0));
     ("__base_ucs_handle", (FHandle 0));
     ("orthographic_type", (FInt 1));
     ("orthographic_origin.x", (FF64 0));
     ("orthographic_origin.y", (FF64 0));
     ("orthographic_origin.z", (FF64 0))]
    [mk_arm 2 [] [ASet "name" RStr];
     mk_arm 5 [] [ASet "handle" RHandle];
     mk_arm 102 [] [AExt "extension_data_groups"];
     mk_arm 1001 [] [AXdata "x_data"];
     mk_arm 330 [] [ASet "__owner_handle" RHandle];
     mk_arm 10 [] [ASet "origin.x" RF64];
     mk_arm 20 [] [ASet "origin.y" RF64];
     mk_arm 30 [] [ASet "origin.z" RF64];
     mk_arm 11 [] [ASet "x_axis.x" RF64];
     mk_arm 21 [] [ASet "x_axis.y" RF64];
     mk_arm 31 [] [ASet "x_axis.z" RF64];
     mk_arm 12 [] [ASet "y_axis.x" RF64];
     mk_arm 22 [] [ASet "y_axis.y" RF64];
     mk_arm 32 [] [ASet "y_axis.z" RF64];
     mk_arm 79 [] [ASet "orthographic_view_type" (REnum16 e_OrthographicViewType 0)];
     mk_arm 146 [] [ASet "elevation" RF64];
     mk_arm 346 [] [ASet "__base_ucs_handle" RHandle];
     mk_arm 71 [] [ASet "orthographic_type" (REnum16 e_OrthographicViewType 1)];
     mk_arm 13 [] [ASet "orthographic_origin.x" RF64];
     mk_arm 23 [] [ASet "orthographic_origin.y" RF64];
     mk_arm 33 [] [ASet "orthographic_origin.z" RF64]]
    [] false [] []
    [WPair [CHandles] 5 "handle" WHandle;
     WExts [CMin R14] "extension_data_groups";
     WConst [] (mk_pair 100 (VStr (str "AcDbSymbolTableRecord")));
     WConst [] (mk_pair 100 (VStr (str "AcDbUCSTableRecord")));
     WPair [] 2 "name" WStr;
     WConst [] (mk_pair 70 (VShort 0));
     WPair [] 10 "origin.x" WF64;
     WPair [] 20 "origin.y" WF64;
     WPair [] 30 "origin.z" WF64;
     WPair [] 11 "x_axis.x" WF64;
     WPair [] 21 "x_axis.y" WF64;
     WPair [] 31 "x_axis.z" WF64;
     WPair [] 12 "y_axis.x" WF64;
     WPair [] 22 "y_axis.y" WF64;
     WPair [] 32 "y_axis.z" WF64;
     WPair [CMin R2000] 79 "orthographic_view_type" WI16;
     WPair [CMin R2000] 146 "elevation" WF64;
     WPair [CMin R2000] 346 "__base_ucs_handle" WHandle;
     WPair [CMin R2000] 71 "orthographic_type" WI16;
     WPair [CMin R2000] 13 "orthographic_origin.x" WF64;
     WPair [CMin R2000] 23 "orthographic_origin.y" WF64;
     WPair [CMin R2000] 33 "orthographic_origin.z" WF64;
     WXdatas [] "x_data"])
  [mk_field "name" KStr true [2] [mk_win None None false None] [];
   mk_field "handle" KHandle true [5] [mk_win None None true None] [];
   mk_field "__owner_handle" KHandle true [330] [mk_win (Some R13) None false None] [];
   mk_field "extension_data_groups" (KList KExt) true [102] [mk_win (Some R14) None false None] [];
   mk_field "x_data" (KList KXd) true [1001] [mk_win (Some R2000) None false None] [];
   mk_field "origin.x" KF64 true [10] [mk_win None None false None] [];
   mk_field "origin.y" KF64 true [20] [mk_win None None false None] [];
   mk_field "origin.z" KF64 true [30] [mk_win None None false None] [];
   mk_field "x_axis.x" KF64 true [11] [mk_win None None false None] [];
   mk_field "x_axis.y" KF64 true [21] [mk_win None None false None] [];
   mk_field "x_axis.z" KF64 true [31] [mk_win None None false None] [];
   mk_field "y_axis.x" KF64 true [12] [mk_win None None false None] [];
   mk_field "y_axis.y" KF64 true [22] [mk_win None None false None] [];
   mk_field "y_axis.z" KF64 true [32] [mk_win None None false None] [];
   mk_field "orthographic_view_type" (KEnum e_OrthographicViewType) true [79] [mk_win (Some R2000) None false None] [];
   mk_field "elevation" KF64 true [146] [mk_win (Some R2000) None false None] [];
   mk_field "__base_ucs_handle" KHandle true [346] [mk_win (Some R2000) None false None] [];
   mk_field "orthographic_type" (KEnum e_OrthographicViewType) true [71] [mk_win (Some R2000) None false None] [];
   mk_field "orthographic_origin.x" KF64 true [13] [mk_win (Some R2000) None false None] [];
   mk_field "orthographic_origin.y" KF64 true [23] [mk_win (Some R2000) None false None] [];
   mk_field "orthographic_origin.z" KF64 true [33] [mk_win (Some R2000) None false None] []].

(** spec/TableSpec.xml:144-171; reader build/table_generator.rs:180-331, writer build/table_generator.rs:333-516. *)
Definition t_view : itype := mk_itype
  (mk_spec "View" (str "VIEW") None None
    [("name", (FStr []));
     ("handle", (FHandle 0));
     ("__owner_handle", (FHandle 0));
     ("extension_data_groups", (FList []));
     ("x_data", (FList []));
     ("view_height", (FF64 4607182418800017408));
     ("view_center_point.x", (FF64 0));
     ("view_center_point.y", (FF64 0));
     ("view_center_point.z", (FF64 0));
     ("view_width", (FF64 4607182418800017408));
     ("view_direction.x", (FF64 0));
     ("view_direction.y", (FF64 0));
     ("view_direction.z", (FF64 4607182418800017408));
     ("target_point.x", (FF64 0));
     ("target_point.y", (FF64 0));
     ("target_point.z", (FF64 0));
     ("lens_length", (FF64 4607182418800017408));
     ("front_clipping_plane", (FF64 0));
     ("back_clipping_plane", (FF64 4607182418800017408));
     ("twist_angle", (FF64 0));
     ("view_mode", (FInt 0));
     ("render_mode", (FInt 0));
     ("is_associated_ucs_present", (FBool false));
     ("is_camera_plottable", (FBool false));
     ("__background_object_handle", (FHandle 0));
     ("__selection_object_handle", (FHandle 0));
     ("__visual_style_object_handle", (FHandle 0));
     ("__sun_ownership_handle", (FHandle 0));
     ("ucs_origin.x", (FF64 0));
     ("ucs_origin.y", (FF64 0));
     ("ucs_origin.z", (FF64 0));
     ("ucs_x_axis.x", (FF64 4607182418800017408));
     ("ucs_x_axis.y", (FF64 0));
     ("ucs_x_axis.z", (FF64 0));
     ("ucs_y_axis.x", (FF64 0));
     ("ucs_y_axis.y", (FF64 4607182418800017408));
     ("ucs_y_axis.z", (FF64 0));
     ("orthographic_view_type", (FInt 0));
     ("ucs_elevation", (FF64 0));
     ("__ucs_handle", (FHandle 0));
     ("__base_ucs_handle", (FHandle 0))]
    [mk_arm 2 [] [ASet "name" RStr];
     mk_arm 5 [] [ASet "handle" RHandle];
     mk_arm 102 [] [AExt "extension_data_groups"];
     mk_arm 1001 [] [AXdata "x_data"];
     mk_arm 330 [] [ASet "__owner_handle" RHandle];
     mk_arm 40 [] [ASet "view_height" RF64];
     mk_arm 10 [] [ASet "view_center_point.x" RF64];
     mk_arm 20 [] [ASet "view_center_point.y" RF64];
     mk_arm 41 [] [ASet "view_width" RF64];
     mk_arm 11 [] [ASet "view_direction.x" RF64];
     mk_arm 21 [] [ASet "view_direction.y" RF64];
     mk_arm 31 [] [ASet "view_direction.z" RF64];
     mk_arm 12 [] [ASet "target_point.x" RF64];
     mk_arm 22 [] [ASet "target_point.y" RF64];
     mk_arm 32 [] [ASet "target_point.z" RF64];
     mk_arm 42 [] [ASet "lens_length" RF64];
     mk_arm 43 [] [ASet "front_clipping_plane" RF64];
     mk_arm 44 [] [ASet "back_clipping_plane" RF64];
     mk_arm 50 [] [ASet "twist_angle" RF64];
     mk_arm 71 [] [ASet "view_mode" RI16];
     mk_arm 281 [] [ASet "render_mode" (REnum16 e_ViewRenderMode 0)];
     mk_arm 72 [] [ASet "is_associated_ucs_present" RAsBool];
     mk_arm 73 [] [ASet "is_camera_plottable" RAsBool];
     mk_arm 332 [] [ASet "__background_object_handle" RHandle];
     mk_arm 334 [] [ASet "__selection_object_handle" RHandle];
     mk_arm 338 [] [ASet "__visual_style_object_handle" RHandle];
     mk_arm 361 [] [ASet "__sun_ownership_handle" RHandle];
     mk_arm 110 [] [ASet "ucs_origin.x" RF64];
     mk_arm 120 [] [ASet "ucs_origin.y" RF64];
     mk_arm 130 [] [ASet "ucs_origin.z" RF64];
     mk_arm 111 [] [ASet "ucs_x_axis.x" RF64];
     mk_arm 121 [] [ASet "ucs_x_axis.y" RF64];
     mk_arm 131 [] [ASet "ucs_x_axis.z" RF64];
     mk_arm 112 [] [ASet "ucs_y_axis.x" RF64];
     mk_arm 122 [] [ASet "ucs_y_axis.y" RF64];
     mk_arm 132 [] [ASet "ucs_y_axis.z" RF64];
     mk_arm 79 [] [ASet "orthographic_view_type" (REnum16 e_OrthographicViewType 0)];
     mk_arm 146 [] [ASet "ucs_elevation" RF64];
     mk_arm 345 [] [ASet "__ucs_handle" RHandle];
     mk_arm 346 [] [ASet "__base_ucs_handle" RHandle]]
    [] false [] []
    [WPair [CHandles] 5 "handle" WHandle;
     WExts [CMin R14] "extension_data_groups";
     WConst [] (mk_pair 100 (VStr (str "AcDbSymbolTableRecord")));
     WConst [] (mk_pair 100 (VStr (str "AcDbViewTableRecord")));
     WPair [] 2 "name" WStr;
     WConst [] (mk_pair 70 (VShort 0));
     WPair [] 40 "view_height" WF64;
     WPair [] 10 "view_center_point.x" WF64;
     WPair [] 20 "view_center_point.y" WF64;
     WPair [] 41 "view_width" WF64;
     WPair [] 11 "view_direction.x" WF64;
     WPair [] 21 "view_direction.y" WF64;
     WPair [] 31 "view_direction.z" WF64;
     WPair [] 12 "target_point.x" WF64;
     WPair [] 22 "target_point.y" WF64;
     WPair [] 32 "target_point.z" WF64;
     WPair [] 42 "lens_length" WF64;
     WPair [] 43 "front_clipping_plane" WF64;
     WPair [] 44 "back_clipping_plane" WF64;
     WPair [] 50 "twist_angle" WF64;
     WPair [] 71 "view_mode" WI16;
     WPair [CMin R2000] 281 "render_mode" WI16;
     WPair [CMin R2000] 72 "is_associated_ucs_present" WAsI16;
     WPair [CMin R2007] 73 "is_camera_plottable" WAsI16;
     WPair [CMin R2007] 332 "__background_object_handle" WHandle;
     WPair [CMin R2007] 334 "__selection_object_handle" WHandle;
     WPair [CMin R2007] 338 "__visual_style_object_handle" WHandle;
     WPair [CMin R2007] 361 "__sun_ownership_handle" WHandle;
     WPair [CMin R2000; CTrue "is_associated_ucs_present"] 110 "ucs_origin.x" WF64;
     WPair [CMin R2000; CTrue "is_associated_ucs_present"] 120 "ucs_origin.y" WF64;
     WPair [CMin R2000; CTrue "is_associated_ucs_present"] 130 "ucs_origin.z" WF64;
     WPair [CMin R2000; CTrue "is_associated_ucs_present"] 111 "ucs_x_axis.x" WF64;
     WPair [CMin R2000; CTrue "is_associated_ucs_present"] 121 "ucs_x_axis.y" WF64;
     WPair [CMin R2000; CTrue "is_associated_ucs_present"] 131 "ucs_x_axis.z" WF64;
     WPair [CMin R2000; CTrue "is_associated_ucs_present"] 112 "ucs_y_axis.x" WF64;
     WPair [CMin R2000; CTrue "is_associated_ucs_present"] 122 "ucs_y_axis.y" WF64;
     WPair [CMin R2000; CTrue "is_associated_ucs_present"] 132 "ucs_y_axis.z" WF64;
     WPair [CMin R2000; CTrue "is_associated_ucs_present"] 79 "orthographic_view_type" WI16;
     WPair [CMin R2000; CTrue "is_associated_ucs_present"] 146 "ucs_elevation" WF64;
     WPair [CMin R2007; CTrue "is_associated_ucs_present"] 345 "__ucs_handle" WHandle;
     WPair [CMin R2007; CTrue "is_associated_ucs_present"] 346 "__base_ucs_handle" WHandle;
     WXdatas [] "x_data"])
  [mk_field "name" KStr true [2] [mk_win None None false None] [];
   mk_field "handle" KHandle true [5] [mk_win None None true None] [];
   mk_field "__owner_handle" KHandle true [330] [mk_win (Some R13) None false None] [];
   mk_field "extension_data_groups" (KList KExt) true [102] [mk_win (Some R14) None false None] [];
   mk_field "x_data" (KList KXd) true [1001] [mk_win (Some R2000) None false None] [];
   mk_field "view_height" KF64 true [40] [mk_win None None false None] [];
   mk_field "view_center_point.x" KF64 true [10] [mk_win None None false None] [];
   mk_field "view_center_point.y" KF64 true [20] [mk_win None None false None] [];
   mk_field "view_center_point.z" KF64 true [] [] [];
   mk_field "view_width" KF64 true [41] [mk_win None None false None] [];
   mk_field "view_direction.x" KF64 true [11] [mk_win None None false None] [];
   mk_field "view_direction.y" KF64 true [21] [mk_win None None false None] [];
   mk_field "view_direction.z" KF64 true [31] [mk_win None None false None] [];
   mk_field "target_point.x" KF64 true [12] [mk_win None None false None] [];
   mk_field "target_point.y" KF64 true [22] [mk_win None None false None] [];
   mk_field "target_point.z" KF64 true [32] [mk_win None None false None] [];
   mk_field "lens_length" KF64 true [42] [mk_win None None false None] [];
   mk_field "front_clipping_plane" KF64 true [43] [mk_win None None false None] [];
   mk_field "back_clipping_plane" KF64 true [44] [mk_win None None false None] [];
   mk_field "twist_angle" KF64 true [50] [mk_win None None false None] [];
   mk_field "view_mode" (KInt (-32768) 32767) true [71] [mk_win None None false None] [];
   mk_field "render_mode" (KEnum e_ViewRenderMode) true [281] [mk_win (Some R2000) None false None] [];
   mk_field "is_associated_ucs_present" KBool true [72] [mk_win (Some R2000) None false None] [];
   mk_field "is_camera_plottable" KBool true [73] [mk_win (Some R2007) None false None] [];
   mk_field "__background_object_handle" KHandle true [332] [mk_win (Some R2007) None false None] [];
   mk_field "__selection_object_handle" KHandle true [334] [mk_win (Some R2007) None false None] [];
   mk_field "__visual_style_object_handle" KHandle true [338] [mk_win (Some R2007) None false None] [];
   mk_field "__sun_ownership_handle" KHandle true [361] [mk_win (Some R2007) None false None] [];
   mk_field "ucs_origin.x" KF64 true [110] [mk_win (Some R2000) None false (Some "is_associated_ucs_present")] [];
   mk_field "ucs_origin.y" KF64 true [120] [mk_win (Some R2000) None false (Some "is_associated_ucs_present")] [];
   mk_field "ucs_origin.z" KF64 true [130] [mk_win (Some R2000) None false (Some "is_associated_ucs_present")] [];
   mk_field "ucs_x_axis.x" KF64 true [111] [mk_win (Some R2000) None false (Some "is_associated_ucs_present")] [];
   mk_field "ucs_x_axis.y" KF64 true [121] [mk_win (Some R2000) None false (Some "is_associated_ucs_present")] [];
   mk_field "ucs_x_axis.z" KF64 true [131] [mk_win (Some R2000) None false (Some "is_associated_ucs_present")] [];
   mk_field "ucs_y_axis.x" KF64 true [112] [mk_win (Some R2000) None false (Some "is_associated_ucs_present")] [];
   mk_field "ucs_y_axis.y" KF64 true [122] [mk_win (Some R2000) None false (Some "is_associated_ucs_present")] [];
   mk_field "ucs_y_axis.z" KF64 true [132] [mk_win (Some R2000) None false (Some "is_associated_ucs_present")] [];
   mk_field "orthographic_view_type" (KEnum e_OrthographicViewType) true [79] [mk_win (Some R2000) None false (Some "is_associated_ucs_present")] [];
   mk_field "ucs_elevation" KF64 true [146] [mk_win (Some R2000) None false (Some "is_associated_ucs_present")] [];
   mk_field "__ucs_handle" KHandle true [345] [mk_win (Some R2007) None false (Some "is_associated_ucs_present")] [];
   mk_field "__base_ucs_handle" KHandle true [346] [mk_win (Some R2007) None false (Some "is_associated_ucs_present")] []].

(** spec/TableSpec.xml:172-221; reader build/table_generator.rs:180-331, writer build/table_generator.rs:333-516. *)
Definition t_view_port : itype := mk_itype
  (mk_spec "ViewPort" (str "VPORT") None None
    [("name", (FStr []));
     ("handle", (FHandle 0));
     ("__owner_handle", (FHandle 0));
     ("extension_data_groups", (FList []));
     ("x_data", (FList []));
     ("lower_left.x", (FF64 0));
     ("lower_left.y", (FF64 0));
     ("lower_left.z", (FF64 0));
     ("upper_right.x", (FF64 4607182418800017408));
     ("upper_right.y", (FF64 4607182418800017408));
     ("upper_right.z", (FF64 0));
     ("view_center.x", (FF64 0));
     ("view_center.y", (FF64 0));
     ("view_center.z", (FF64 0));
     ("snap_base_point.x", (FF64 0));
     ("snap_base_point.y", (FF64 0));
     ("snap_base_point.z", (FF64 0));
     ("snap_spacing.x", (FF64 4607182418800017408));
     ("snap_spacing.y", (FF64 4607182418800017408));
     ("snap_spacing.z", (FF64 0));
     ("grid_spacing.x", (FF64 4607182418800017408));
     ("grid_spacing.y", (FF64 4607182418800017408));
     ("grid_spacing.z", (FF64 0));
     ("view_direction.x", (FF64 0));
     ("view_direction.y", (FF64 0));
     ("view_direction.z", (FF64 4607182418800017408));
     ("target_view_point.x", (FF64 0));
     ("target_view_point.y", (FF64 0));
     ("target_view_point.z", (FF64 0));
     ("view_height", (FF64 4607182418800017408));
     ("view_port_aspect_ratio", (FF64 4607182418800017408));
     ("lens_length", (FF64 4632233691727265792));
     ("front_clipping_plane", (FF64 0));
     ("back_clipping_plane", (FF64 0));
     ("snap_rotation_angle", (FF64 0));
     ("view_twist_angle", (FF64 0));
     ("view_mode", (FInt 0));
     ("circle_sides", (FInt 1000));
     ("fast_zoom", (FBool true));
     ("ucs_icon", (FInt 3));
     ("snap_on", (FBool false));
     ("grid_on", (FBool false));
     ("snap_style", (FInt 0));
     ("snap_isometric_plane", (FInt 0));
     ("plot_style_sheet", (FStr []));
     ("render_mode", (FInt 0));
     ("has_own_ucs", (FBool false));
     ("ucs_origin.x", (FF64 0));
     ("ucs_origin.y", (FF64 0));
     ("ucs_origin.z", (FF64 0));
     ("ucs_x_axis.x", (FF64 4607182418800017408));
     ("ucs_x_axis.y", (FF64 0));
     ("ucs_x_axis.z", (FF64 0));
     ("ucs_y_axis.x", (FF64 0));
     ("ucs_y_axis.y", (FF64 4607182418800017408));
     ("ucs_y_axis.z", (FF64 0));
     ("orthographic_view_type", (FInt 0));
     ("ucs_elevation", (FF64 0));
     ("__ucs_handle", (FHandle 0));
     ("__base_ucs_handle", (FHandle 0));
     ("shade_plot_setting", (FInt 0));
     ("major_grid_lines", (FBool false));
     ("__background_object_handle", (FHandle 0));
     ("__shade_plot_object_handle", (FHandle 0));
     ("__visual_style_object_handle", (FHandle 0));
     ("is_default_lighting_on", (FBool true));
     ("default_lighting_type", (FInt 0));
     ("brightness", (FF64 0));
     ("contrast", (FF64 0));
     ("ambient_color", (FInt 7));
     ("ambient_color_i32", (FInt 0));
     ("ambient_color_name", (FStr (str "BLACK")))]
    [mk_arm 2 [] [ASet "name" RStr];
     mk_arm 5 [] [ASet "handle" RHandle];
     mk_arm 102 [] [AExt "extension_data_groups"];
     mk_arm 1001 [] [AXdata "x_data"];
     mk_arm 330 [] [ASet "__owner_handle" RHandle];
     mk_arm 10 [] [ASet "lower_left.x" RF64];
     mk_arm 20 [] [ASet "lower_left.y" RF64];
     mk_arm 11 [] [ASet "upper_right.x" RF64];
     mk_arm 21 [] [ASet "upper_right.y" RF64];
     mk_arm 12 [] [ASet "view_center.x" RF64];
     mk_arm 22 [] [ASet "view_center.y" RF64];
     mk_arm 13 [] [ASet "snap_base_point.x" RF64];
     mk_arm 23 [] [ASet "snap_base_point.y" RF64];
     mk_arm 14 [] [ASet "snap_spacing.x" RF64];
     mk_arm 24 [] [ASet "snap_spacing.y" RF64];
     mk_arm 15 [] [ASet "grid_spacing.x" RF64];
     mk_arm 25 [] [ASet "grid_spacing.y" RF64];
     mk_arm 16 [] [ASet "view_direction.x" RF64];
     mk_arm 26 [] [ASet "view_direction.y" RF64];
     mk_arm 36 [] [ASet "view_direction.z" RF64];
     mk_arm 17 [] [ASet "target_view_point.x" RF64];
     mk_arm 27 [] [ASet "target_view_point.y" RF64];
     mk_arm 37 [] [ASet "target_view_point.z" RF64];
     mk_arm 40 [] [ASet "view_height" RF64];
     mk_arm 41 [] [ASet "view_port_aspect_ratio" RF64];
     mk_arm 42 [] [ASet "lens_length" RF64];
     mk_arm 43 [] [ASet "front_clipping_plane" RF64];
     mk_arm 44 [] [ASet "back_clipping_plane" RF64];
     mk_arm 45 [] [ASet "view_height" RF64];
     mk_arm 50 [] [ASet "snap_rotation_angle" RF64];
     mk_arm 51 [] [ASet "view_twist_angle" RF64];
     mk_arm 71 [] [ASet "view_mode" RI16];
     mk_arm 72 [] [ASet "circle_sides" RI16];
     mk_arm 73 [] [ASet "fast_zoom" RAsBool];
     mk_arm 74 [] [ASet "ucs_icon" RI16];
     mk_arm 75 [] [ASet "snap_on" RAsBool];
     mk_arm 76 [] [ASet "grid_on" RAsBool];
     mk_arm 77 [] [ASet "snap_style" (REnum16 e_SnapStyle 0)];
     mk_arm 78 [] [ASet "snap_isometric_plane" (REnum16 e_SnapIsometricPlane 0)];
     mk_arm 1 [] [ASet "plot_style_sheet" RStr];
     mk_arm 281 [] [ASet "render_mode" (REnum16 e_ViewRenderMode 0)];
     mk_arm 65 [] [ASet "has_own_ucs" RAsBool];
     mk_arm 110 [] [ASet "ucs_origin.x" RF64];
     mk_arm 120 [] [ASet "ucs_origin.y" RF64];
     mk_arm 130 [] [ASet "ucs_origin.z" RF64];
     mk_arm 111 [] [ASet "ucs_x_axis.x" RF64];
     mk_arm 121 [] [ASet "ucs_x_axis.y" RF64];
     mk_arm 131 [] [ASet "ucs_x_axis.z" RF64];
     mk_arm 112 [] [ASet "ucs_y_axis.x" RF64];
     mk_arm 122 [] [ASet "ucs_y_axis.y" RF64];
     mk_arm 132 [] [ASet "ucs_y_axis.z" RF64];
     mk_arm 79 [] [ASet "orthographic_view_type" (REnum16 e_OrthographicViewType 0)];
     mk_arm 146 [] [ASet "ucs_elevation" RF64];
     mk_arm 345 [] [ASet "__ucs_handle" RHandle];
     mk_arm 346 [] [ASet "__base_ucs_handle" RHandle];
     mk_arm 170 [] [ASet "shade_plot_setting" (REnum16 e_ShadeEdgeMode 0)];
     mk_arm 61 [] [ASet "major_grid_lines" RAsBool];
     mk_arm 332 [] [ASet "__background_object_handle" RHandle];
     mk_arm 333 [] [ASet "__shade_plot_object_handle" RHandle];
     mk_arm 348 [] [ASet "__visual_style_object_handle" RHandle];
     mk_arm 292 [] [ASet "is_default_lighting_on" RBool];
     mk_arm 282 [] [ASet "default_lighting_type" (REnum16 e_DefaultLightingType 0)];
     mk_arm 141 [] [ASet "brightness" RF64];
     mk_arm 142 [] [ASet "contrast" RF64];
     mk_arm 62 [] [ASet "ambient_color" RI16];
     mk_arm 421 [] [ASet "ambient_color_i32" RI32];
     mk_arm 431 [] [ASet "ambient_color_name" RStr]]
    [] false [] []
    [WPair [CHandles] 5 "handle" WHandle;
     WExts [CMin R14] "extension_data_groups";
     WConst [] (mk_pair 100 (VStr (str "AcDbSymbolTableRecord")));
     WConst [] (mk_pair 100 (VStr (str "AcDbViewportTableRecord")));
     WPair [] 2 "name" WStr;
     WConst [] (mk_pair 70 (VShort 0));
     WPair [] 10 "lower_left.x" WF64;
     WPair [] 20 "lower_left.y" WF64;
     WPair [] 11 "upper_right.x" WF64;
     WPair [] 21 "upper_right.y" WF64;
     WPair [] 12 "view_center.x" WF64;
     WPair [] 22 "view_center.y" WF64;
     WPair [] 13 "snap_base_point.x" WF64;
     WPair [] 23 "snap_base_point.y" WF64;
     WPair [] 14 "snap_spacing.x" WF64;
     WPair [] 24 "snap_spacing.y" WF64;
     WPair [] 15 "grid_spacing.x" WF64;
     WPair [] 25 "grid_spacing.y" WF64;
     WPair [] 16 "view_direction.x" WF64;
     WPair [] 26 "view_direction.y" WF64;
     WPair [] 36 "view_direction.z" WF64;
     WPair [] 17 "target_view_point.x" WF64;
     WPair [] 27 "target_view_point.y" WF64;
     WPair [] 37 "target_view_point.z" WF64;
     WPair [CMax R2004] 40 "view_height" WF64;
     WPair [CMax R2004] 41 "view_port_aspect_ratio" WF64;
     WPair [] 42 "lens_length" WF64;
     WPair [] 43 "front_clipping_plane" WF64;
     WPair [] 44 "back_clipping_plane" WF64;
     WPair [CMin R2007] 45 "view_height" WF64;
     WPair [] 50 "snap_rotation_angle" WF64;
     WPair [] 51 "view_twist_angle" WF64;
     WPair [] 71 "view_mode" WI16;
     WPair [] 72 "circle_sides" WI16;
     WPair [CMax R2004] 73 "fast_zoom" WAsI16;
     WPair [] 74 "ucs_icon" WI16;
     WPair [CMax R2004] 75 "snap_on" WAsI16;
     WPair [CMax R2004] 76 "grid_on" WAsI16;
     WPair [CMax R2004] 77 "snap_style" WI16;
     WPair [CMax R2004] 78 "snap_isometric_plane" WI16;
     WPair [CMin R2007] 1 "plot_style_sheet" WStr;
     WPair [CMin R2000] 281 "render_mode" WI16;
     WPair [CMin R2000; CMax R2004] 65 "has_own_ucs" WAsI16;
     WPair [CMin R2000; CTrue "has_own_ucs"] 110 "ucs_origin.x" WF64;
     WPair [CMin R2000; CTrue "has_own_ucs"] 120 "ucs_origin.y" WF64;
     WPair [CMin R2000; CTrue "has_own_ucs"] 130 "ucs_origin.z" WF64;
     WPair [CMin R2000; CTrue "has_own_ucs"] 111 "ucs_x_axis.x" WF64;
     WPair [CMin R2000; CTrue "has_own_ucs"] 121 "ucs_x_axis.y" WF64;
     WPair [CMin R2000; CTrue "has_own_ucs"] 131 "ucs_x_axis.z" WF64;
     WPair [CMin R2000; CTrue "has_own_ucs"] 112 "ucs_y_axis.x" WF64;
     WPair [CMin R2000; CTrue "has_own_ucs"] 122 "ucs_y_axis.y" WF64;
     WPair [CMin R2000; CTrue "has_own_ucs"] 132 "ucs_y_axis.z" WF64;
     WPair [CMin R2000; CTrue "has_own_ucs"] 79 "orthographic_view_type" WI16;
     WPair [CMin R2000; CTrue "has_own_ucs"] 146 "ucs_elevation" WF64;
     WPair [CMin R2000; CTrue "has_own_ucs"] 345 "__ucs_handle" WHandle;
     WPair [CMin R2000; CTrue "has_own_ucs"] 346 "__base_ucs_handle" WHandle;
     WPair [CMin R2007] 170 "shade_plot_setting" WI16;
     WPair [CMin R2007] 61 "major_grid_lines" WAsI16;
     WPair [CMin R2007] 332 "__background_object_handle" WHandle;
     WPair [CMin R2007] 333 "__shade_plot_object_handle" WHandle;
     WPair [CMin R2007] 348 "__visual_style_object_handle" WHandle;
     WPair [CMin R2007] 292 "is_default_lighting_on" WBool;
     WPair [CMin R2007] 282 "default_lighting_type" WI16;
     WPair [CMin R2007] 141 "brightness" WF64;
     WPair [CMin R2007] 142 "contrast" WF64;
     WPair [CMin R2007; CNe [("ambient_color", (FInt 7))]] 62 "ambient_color" WI16;
     WPair [CMin R2007; CNe [("ambient_color_i32", (FInt 0))]] 421 "ambient_color_i32" WI32;
     WPair [CMin R2007; CNe [("ambient_color_name", (FStr (str "BLACK")))]] 431 "ambient_color_name" WStr;
     WXdatas [] "x_data"])
  [mk_field "name" KStr true [2] [mk_win None None false None] [];
   mk_field "handle" KHandle true [5] [mk_win None None true None] [];
   mk_field "__owner_handle" KHandle true [330] [mk_win (Some R13) None false None] [];
   mk_field "extension_data_groups" (KList KExt) true [102] [mk_win (Some R14) None false None] [];
   mk_field "x_data" (KList KXd) true [1001] [mk_win (Some R2000) None false None] [];
   mk_field "lower_left.x" KF64 true [10] [mk_win None None false None] [];
   mk_field "lower_left.y" KF64 true [20] [mk_win None None false None] [];
   mk_field "lower_left.z" KF64 true [] [] [];
   mk_field "upper_right.x" KF64 true [11] [mk_win None None false None] [];
   mk_field "upper_right.y" KF64 true [21] [mk_win None None false None] [];
   mk_field "upper_right.z" KF64 true [] [] [];
   mk_field "view_center.x" KF64 true [12] [mk_win None None false None] [];
   mk_field "view_center.y" KF64 true [22] [mk_win None None false None] [];
   mk_field "view_center.z" KF64 true [] [] [];
   mk_field "snap_base_point.x" KF64 true [13] [mk_win None None false None] [];
   mk_field "snap_base_point.y" KF64 true [23] [mk_win None None false None] [];
   mk_field "snap_base_point.z" KF64 true [] [] [];
   mk_field "snap_spacing.x" KF64 true [14] [mk_win None None false None] [];
   mk_field "snap_spacing.y" KF64 true [24] [mk_win None None false None] [];
   mk_field "snap_spacing.z" KF64 true [] [] [];
   mk_field "grid_spacing.x" KF64 true [15] [mk_win None None false None] [];
   mk_field "grid_spacing.y" KF64 true [25] [mk_win None None false None] [];
   mk_field "grid_spacing.z" KF64 true [] [] [];
   mk_field "view_direction.x" KF64 true [16] [mk_win None None false None] [];
   mk_field "view_direction.y" KF64 true [26] [mk_win None None false None] [];
   mk_field "view_direction.z" KF64 true [36] [mk_win None None false None] [];
   mk_field "target_view_point.x" KF64 true [17] [mk_win None None false None] [];
   mk_field "target_view_point.y" KF64 true [27] [mk_win None None false None] [];
   mk_field "target_view_point.z" KF64 true [37] [mk_win None None false None] [];
   mk_field "view_height" KF64 true [40; 45] [mk_win None (Some R2004) false None; mk_win (Some R2007) None false None] [];
   mk_field "view_port_aspect_ratio" KF64 true [41] [mk_win None (Some R2004) false None] [];
   mk_field "lens_length" KF64 true [42] [mk_win None None false None] [];
   mk_field "front_clipping_plane" KF64 true [43] [mk_win None None false None] [];
   mk_field "back_clipping_plane" KF64 true [44] [mk_win None None false None] [];
   mk_field "snap_rotation_angle" KF64 true [50] [mk_win None None false None] [];
   mk_field "view_twist_angle" KF64 true [51] [mk_win None None false None] [];
   mk_field "view_mode" (KInt (-2147483648) 2147483647) true [71] [mk_win None None false None] [];
   mk_field "circle_sides" (KInt (-2147483648) 2147483647) true [72] [mk_win None None false None] [];
   mk_field "fast_zoom" KBool true [73] [mk_win None (Some R2004) false None] [];
   mk_field "ucs_icon" (KInt (-32768) 32767) true [74] [mk_win None None false None] [];
   mk_field "snap_on" KBool true [75] [mk_win None (Some R2004) false None] [];
   mk_field "grid_on" KBool true [76] [mk_win None (Some R2004) false None] [];
   mk_field "snap_style" (KEnum e_SnapStyle) true [77] [mk_win None (Some R2004) false None] [];
   mk_field "snap_isometric_plane" (KEnum e_SnapIsometricPlane) true [78] [mk_win None (Some R2004) false None] [];
   mk_field "plot_style_sheet" KStr true [1] [mk_win (Some R2007) None false None] [];
   mk_field "render_mode" (KEnum e_ViewRenderMode) true [281] [mk_win (Some R2000) None false None] [];
   mk_field "has_own_ucs" KBool true [65] [mk_win (Some R2000) (Some R2004) false None] [];
   mk_field "ucs_origin.x" KF64 true [110] [mk_win (Some R2000) None false (Some "has_own_ucs")] [];
   mk_field "ucs_origin.y" KF64 true [120] [mk_win (Some R2000) None false (Some "has_own_ucs")] [];
   mk_field "ucs_origin.z" KF64 true [130] [mk_win (Some R2000) None false (Some "has_own_ucs")] [];
   mk_field "ucs_x_axis.x" KF64 true [111] [mk_win (Some R2000) None false (Some "has_own_ucs")] [];
   mk_field "ucs_x_axis.y" KF64 true [121] [mk_win (Some R2000) None false (Some "has_own_ucs")] [];
   mk_field "ucs_x_axis.z" KF64 true [131] [mk_win (Some R2000) None false (Some "has_own_ucs")] [];
   mk_field "ucs_y_axis.x" KF64 true [112] [mk_win (Some R2000) None false (Some "has_own_ucs")] [];
   mk_field "ucs_y_axis.y" KF64 true [122] [mk_win (Some R2000) None false (Some "has_own_ucs")] [];
   mk_field "ucs_y_axis.z" KF64 true [132] [mk_win (Some R2000) None false (Some "has_own_ucs")] [];
   mk_field "orthographic_view_type" (KEnum e_OrthographicViewType) true [79] [mk_win (Some R2000) None false (Some "has_own_ucs")] [];
   mk_field "ucs_elevation" KF64 true [146] [mk_win (Some R2000) None false (Some "has_own_ucs")] [];
   mk_field "__ucs_handle" KHandle true [345] [mk_win (Some R2000) None false (Some "has_own_ucs")] [];
   mk_field "__base_ucs_handle" KHandle true [346] [mk_win (Some R2000) None false (Some "has_own_ucs")] [];
   mk_field "shade_plot_setting" (KEnum e_ShadeEdgeMode) true [170] [mk_win (Some R2007) None false None] [];
   mk_field "major_grid_lines" KBool true [61] [mk_win (Some R2007) None false None] [];
   mk_field "__background_object_handle" KHandle true [332] [mk_win (Some R2007) None false None] [];
   mk_field "__shade_plot_object_handle" KHandle true [333] [mk_win (Some R2007) None false None] [];
   mk_field "__visual_style_object_handle" KHandle true [348] [mk_win (Some R2007) None false None] [];
   mk_field "is_default_lighting_on" KBool true [292] [mk_win (Some R2007) None false None] [];
   mk_field "default_lighting_type" (KEnum e_DefaultLightingType) true [282] [mk_win (Some R2007) None false None] [];
   mk_field "brightness" KF64 true [141] [mk_win (Some R2007) None false None] [];
   mk_field "contrast" KF64 true [142] [mk_win (Some R2007) None false None] [];
   mk_field "ambient_color" (KInt (-32768) 32767) true [62] [mk_win (Some R2007) None false None] [];
   mk_field "ambient_color_i32" (KInt (-2147483648) 2147483647) true [421] [mk_win (Some R2007) None false None] [];
   mk_field "ambient_color_name" KStr true [431] [mk_win (Some R2007) None false None] []].

(** The nine tables, in the order they are written. spec/TableSpec.xml *)
Definition tables : list itype := [t_app_id; t_block_record; t_dim_style; t_line_type; t_layer; t_style; t_ucs; t_view; t_view_port].
